(** C93: header objects changed by their setters. *)
From Coq Require Import ZifyBool ZifyNat ZifyN.
From Verif Require Import Base BaseFacts Headers Typed TypedFacts Cache Other OtherProps Auth AuthProps Forwarded ForwardedFacts ForwardedProps Setters.

(** ** Last write wins, for any object *)
Section Fields.
  Context {S C A : Type} (step : S -> C -> S) (get : S -> A) (sets : C -> option A).
  (** The field after any calls: what the last call that sets it gave, or the old value when no call sets it. *)
  Definition last_write : Prop := forall s calls,
    (forall pre c post v, calls = pre ++ c :: post -> sets c = Some v -> Forall (fun c => sets c = None) post ->
       get (fold_left step calls s) = v) /\
    (Forall (fun c => sets c = None) calls -> get (fold_left step calls s) = get s).
  Lemma last_write_step : (forall s c, get (step s c) = match sets c with Some v => v | None => get s end) -> last_write.
  Proof.
    intros H. assert (K : forall calls s, Forall (fun c => sets c = None) calls -> get (fold_left step calls s) = get s).
    { induction calls as [|c calls IH]; intros s F; [reflexivity|]. inversion F as [|? ? E F']; subst. cbn [fold_left].
      rewrite IH by exact F'. rewrite H, E. reflexivity. }
    intros s calls. split; [|apply K]. intros pre c post v -> E F. rewrite fold_left_app. cbn [fold_left].
    rewrite K by exact F. now rewrite H, E.
  Qed.
End Fields.

(** ** Strict-Transport-Security *)
Definition sets_age (c : hsts_set) : option duration := match c with SetAge d => Some d | _ => None end.
Definition sets_subdomains (c : hsts_set) : option bool := match c with SetSubdomains b => Some b | _ => None end.
Definition sets_preload (c : hsts_set) : option bool := match c with SetPreload b => Some b | _ => None end.
Theorem C93_hsts : last_write hsts_do max_age sets_age /\ last_write hsts_do include_subdomains sets_subdomains /\
  last_write hsts_do preload sets_preload.
Proof. split; [|split]; apply last_write_step; intros s []; reflexivity. Qed.
Print Assumptions C93_hsts.
(** A policy built by any calls, then sent: the other side sees the last age in whole seconds and the last preload
    flag - and never the sub-domain flag. *)
Theorem C93_hsts_sent_partial : forall h d calls, secs d <= u64_max ->
  Forall (fun c => match sets_age c with Some e => secs e <= u64_max | None => True end) calls ->
  exists a p, hsts_from_headers (hsts_apply h (fold_left hsts_do calls (hsts_new d))) = Ok (Some (Hsts (from_secs (secs a)) false p)) /\
    (Forall (fun c => sets_age c = None) calls -> a = d) /\
    (forall pre e post, calls = pre ++ SetAge e :: post -> Forall (fun c => sets_age c = None) post -> a = e) /\
    (Forall (fun c => sets_preload c = None) calls -> p = false) /\
    (forall pre b post, calls = pre ++ SetPreload b :: post -> Forall (fun c => sets_preload c = None) post -> p = b).
Proof.
  intros h d calls L F. destruct C93_hsts as (A & _ & P). specialize (A (hsts_new d) calls) as [A1 A2]. specialize (P (hsts_new d) calls) as [P1 P2].
  exists (max_age (fold_left hsts_do calls (hsts_new d))), (preload (fold_left hsts_do calls (hsts_new d))).
  split; [|split; [exact A2|split; [|split; [exact P2|]]]].
  - apply C60_reads_back_partial. clear A1 A2 P1 P2.
    assert (K : forall cs s, secs (max_age s) <= u64_max ->
      Forall (fun c => match sets_age c with Some e => secs e <= u64_max | None => True end) cs -> secs (max_age (fold_left hsts_do cs s)) <= u64_max).
    { induction cs as [|c cs IH]; intros s B G; [exact B|]. inversion G as [|? ? G1 G2]; subst. cbn [fold_left]. apply IH; [|exact G2].
      destruct c; cbn [hsts_do max_age]; assumption. }
    apply K; assumption.
  - intros pre e post E G. eapply A1; [exact E|reflexivity|exact G].
  - intros pre b post E G. eapply P1; [exact E|reflexivity|exact G].
Qed.
Print Assumptions C93_hsts_sent_partial.
(** ** Authorization and WWW-Authenticate *)
Definition sets_scheme (c : auth_set) : option scheme := match c with SetScheme s => Some s | _ => None end.
Definition sets_text (c : auth_set) : option str := match c with SetText t => Some t | _ => None end.
Theorem C93_auth : last_write auth_do fst sets_scheme /\ last_write auth_do snd sets_text.
Proof. split; apply last_write_step; intros [s t] []; reflexivity. Qed.
Print Assumptions C93_auth.
(** Whatever was set last is what the other side reads. *)
Theorem C93_auth_sent : forall h a calls, exists s t,
  auth_from_headers (auth_apply h (fold_left auth_do calls a)) = Ok (Some (s, t)) /\
  (~ In 34 t -> www_from_headers (www_apply h (fold_left auth_do calls a)) = Ok (Some (s, t))) /\
  (Forall (fun c => sets_scheme c = None) calls -> s = fst a) /\
  (forall pre x post, calls = pre ++ SetScheme x :: post -> Forall (fun c => sets_scheme c = None) post -> s = x) /\
  (Forall (fun c => sets_text c = None) calls -> t = snd a) /\
  (forall pre x post, calls = pre ++ SetText x :: post -> Forall (fun c => sets_text c = None) post -> t = x).
Proof.
  intros h a calls. destruct C93_auth as [S T]. specialize (S a calls) as [S1 S2]. specialize (T a calls) as [T1 T2].
  destruct (fold_left auth_do calls a) as [s t] eqn:E. cbn [fst snd] in *. exists s, t.
  split; [apply C46_round_trip|]. split; [apply C47_round_trip_partial|]. split; [exact S2|]. split; [|split; [exact T2|]].
  - intros pre x post X G. eapply S1; [exact X|reflexivity|exact G].
  - intros pre x post X G. eapply T1; [exact X|reflexivity|exact G].
Qed.
Print Assumptions C93_auth_sent.
(** ** Forwarded *)
Definition sets_host (c : fw_set) : option (option str) := match c with SetHost v => Some (Some v) | _ => None end.
Definition sets_proto (c : fw_set) : option (option str) := match c with SetProto v => Some (Some v) | _ => None end.
Definition sets_by (c : fw_set) : option (option str) := match c with SetBy v => Some (Some v) | _ => None end.
Definition adds_for (c : fw_set) : list str := match c with AddFor v => [v] | _ => [] end.
(** Host, proto and by hold what was set last; the "for" texts are those added, in order; an owned copy holds the same
    texts and is sent the same way. *)
Theorem C93_forwarded : last_write fw_do fw_host sets_host /\ last_write fw_do fw_proto sets_proto /\ last_write fw_do fw_by sets_by /\
  (forall f calls, fw_for (fold_left fw_do calls f) = fw_for f ++ flat_map adds_for calls) /\
  (forall own f, (forall s, own s = s) -> into_owned own f = f).
Proof.
  split; [apply last_write_step; intros f []; reflexivity|]. split; [apply last_write_step; intros f []; reflexivity|].
  split; [apply last_write_step; intros f []; reflexivity|]. split.
  - intros f calls. revert f. induction calls as [|c calls IH]; intros f; cbn [fold_left flat_map]; [now rewrite app_nil_r|].
    rewrite IH. destruct c; cbn [fw_do add_for set_host set_proto set_by fw_for adds_for app]; rewrite <- ?app_assoc; reflexivity.
  - intros own [b fs h p] E. unfold into_owned. cbn [fw_by fw_for fw_host fw_proto].
    assert (O : forall o, option_map own o = o) by (intros [x|]; cbn [option_map]; [now rewrite E|reflexivity]). rewrite !O.
    f_equal. rewrite <- (map_id fs) at 2. apply map_ext. exact E.
Qed.
Print Assumptions C93_forwarded.
(** ** Extensions *)
(** The hasher of the extension map gives the number of the type itself, so two types never share a hash;
    hashing anything but one number is a panic. *)
Theorem C93_hasher : forall ids a b,
  fold_left hash_do (map WriteU64 ids ++ [WriteU64 a]) (Ok 0) = Ok a /\
  (fold_left hash_do [WriteU64 a] (Ok 0) = fold_left hash_do [WriteU64 b] (Ok 0) -> a = b) /\
  forall pre bytes post, fold_left hash_do (pre ++ Write bytes :: post) (Ok 0) = Panic.
Proof.
  intros ids a b. split; [|split].
  - rewrite fold_left_app. assert (K : forall st, (exists n, st = Ok n) -> exists n, fold_left hash_do (map WriteU64 ids) st = Ok n).
    { induction ids as [|i ids IH]; intros st (n & ->); [exists n; reflexivity|]. cbn [map fold_left]. apply IH. exists i. reflexivity. }
    destruct (K (Ok 0)) as (n & ->); [now exists 0|]. reflexivity.
  - cbn [fold_left hash_do bind]. congruence.
  - assert (P : forall cs, fold_left hash_do cs Panic = Panic) by (induction cs; [reflexivity|assumption]).
    assert (K : forall pre st bytes post, (forall e, st <> Err e) -> fold_left hash_do (pre ++ Write bytes :: post) st = Panic).
    { induction pre as [|c pre IH]; intros st bytes post E; cbn [app fold_left].
      - destruct st as [n|e|]; [apply P|now elim (E e)|apply P].
      - apply IH. intros e. destruct st as [n|e'|]; [|now elim (E e')|discriminate]. cbn [hash_do bind]. destruct c; discriminate. }
    intros pre bytes post. apply K. discriminate.
Qed.
Print Assumptions C93_hasher.
Example C93_example :
  fold_left hsts_do [SetAge (from_secs 7); SetSubdomains true; SetAge (Dur 8 9); SetPreload true; SetSubdomains false] hsts_policy_default
    = Hsts (Dur 8 9) false true /\
  hsts_value hsts_policy_default = lit "max-age=31536000;preload" /\
  auth_from_headers (auth_apply headers_new (fold_left auth_do [SetText (lit "x"); SetScheme Bearer; SetText (lit "y z")] (Basic, lit "")))
    = Ok (Some (Bearer, lit "y z")) /\
  fw_value (fold_left fw_do [AddFor (lit "a"); SetHost (lit "h"); SetProto (lit "http"); AddFor (lit "b"); SetProto (lit "https")] fw_new)
    = Ok (lit "for=a, for=b;host=h;proto=https").
Proof. vm_compute. auto 10. Qed.
