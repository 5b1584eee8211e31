(** Property C105: trace contexts against W3C Trace Context, section 3.2. *)
From Coq Require Import ZifyBool ZifyNat ZifyN Lia.
From Verif Require Import Base BaseFacts Headers HeadersFacts Typed TypedFacts Trace TraceProps.

(** The reader of the recommendation: HEXDIGLC are digits and a-f; version "ff", a trace id of zeros and a parent id of zeros
    are invalid; version "00" has exactly four fields, a higher one may go on after another "-". *)
Fixpoint take_hex (w : nat) (acc : N) (s : str) : option (N * str) :=
  match w, s with
  | O, _ => Some (acc, s)
  | S w', c :: s' =>
      if (48 <=? c) && (c <=? 57) then take_hex w' (acc * 16 + (c - 48)) s'
      else if (97 <=? c) && (c <=? 102) then take_hex w' (acc * 16 + (c - 87)) s' else None
  | S _, [] => None
  end.
Definition take_dash (s : str) : option str := match s with c :: s' => if c =? 45 then Some s' else None | [] => None end.
Definition and_then {A B} (o : option A) (f : A -> option B) : option B := match o with Some a => f a | None => None end.
Record w3c_parent : Type := Parent { w_version : N; w_trace : N; w_parent : N; w_flags : N }.
Definition fields (w1 w2 w3 w4 : nat) (s : str) : option (w3c_parent * str) :=
  and_then (take_hex w1 0 s) (fun '(v, s) => and_then (take_dash s) (fun s =>
  and_then (take_hex w2 0 s) (fun '(t, s) => and_then (take_dash s) (fun s =>
  and_then (take_hex w3 0 s) (fun '(p, s) => and_then (take_dash s) (fun s =>
  and_then (take_hex w4 0 s) (fun '(f, s) => Some (Parent v t p f, s)))))))).
Definition w3c (s : str) : option w3c_parent :=
  match fields 2 32 16 2 s with
  | Some (p, rest) =>
      if (w_version p =? 255) || (w_trace p =? 0) || (w_parent p =? 0) then None else
      match rest with
      | [] => Some p
      | c :: _ => if (c =? 45) && negb (w_version p =? 0) then Some p else None
      end
  | None => None
  end.

Lemma take_hex_inv : forall w acc s n r, take_hex w acc s = Some (n, r) ->
  exists ds, s = ds ++ r /\ length ds = w /\ Forall hex_digit ds /\ forallb lower_hex ds = true /\ n = fold_left (fun a c => a * 16 + hex_val c) ds acc.
Proof.
  induction w as [|w IH]; intros acc s n r H; cbn [take_hex] in H.
  - injection H as <- <-. exists []. repeat split; constructor.
  - destruct s as [|c s]; [discriminate H|]. destruct ((48 <=? c) && (c <=? 57)) eqn:D; [|destruct ((97 <=? c) && (c <=? 102)) eqn:L; [|discriminate H]].
    all: destruct (IH _ _ _ _ H) as (ds & -> & Ln & F & Lo & ->); exists (c :: ds); split; [reflexivity|]; split; [cbn [length]; congruence|];
      (split; [constructor; [unfold hex_digit; lia|exact F]|]); (split; [cbn [forallb]; rewrite Lo; unfold lower_hex; lia|]);
      cbn [fold_left]; f_equal; unfold hex_val; destruct (c <=? 57) eqn:X; [..|destruct (c <=? 70) eqn:Y]; lia.
Qed.
Lemma take_hex_app : forall ds acc r, forallb lower_hex ds = true ->
  take_hex (length ds) acc (ds ++ r) = Some (fold_left (fun a c => a * 16 + hex_val c) ds acc, r).
Proof.
  induction ds as [|c ds IH]; intros acc r F; [reflexivity|]. cbn [forallb] in F. apply andb_true_iff in F as [F1 F2]. cbn [length app take_hex fold_left]. unfold lower_hex in F1.
  assert (V : hex_val c = if (48 <=? c) && (c <=? 57) then c - 48 else c - 87) by (unfold hex_val; destruct (c <=? 57) eqn:X, (c <=? 70) eqn:Y, (48 <=? c) eqn:Z; cbn [andb]; lia).
  rewrite V. destruct ((48 <=? c) && (c <=? 57)); [now apply IH|]. cbn [orb] in F1. rewrite F1. now apply IH.
Qed.
Lemma hex_no_dash : forall ds, Forall hex_digit ds -> no_char 45 ds = true.
Proof.
  intros ds F. apply (no_char_forallb 45 (fun c => negb (c =? 45))); [reflexivity|]. rewrite forallb_forall. intros c I. rewrite Forall_forall in F. apply F in I. unfold hex_digit in I. lia.
Qed.
Lemma hex_bound : forall ds, Forall hex_digit ds -> fold_left (fun a c => a * 16 + hex_val c) ds 0 < 16 ^ N.of_nat (length ds).
Proof.
  intros ds F. assert (K : forall ds acc, Forall hex_digit ds -> fold_left (fun a c => a * 16 + hex_val c) ds acc < (acc + 1) * 16 ^ N.of_nat (length ds)).
  { clear. induction ds as [|c ds IH]; intros acc F; cbn [fold_left length]; [cbn; lia|]. inversion F; subst. specialize (IH (acc * 16 + hex_val c) H2).
    rewrite Nnat.Nat2N.inj_succ, N.pow_succ_r'. assert (hex_val c < 16) by (unfold hex_val, hex_digit in *; destruct (c <=? 57) eqn:X, (c <=? 70) eqn:Y; lia). nia. }
  specialize (K ds 0 F). lia.
Qed.
Lemma dash_inv : forall s r, take_dash s = Some r -> s = 45 :: r.
Proof. intros [|c s] r H; [discriminate H|]. cbn in H. destruct (c =? 45) eqn:E; [|discriminate H]. apply N.eqb_eq in E. congruence. Qed.
Lemma hex_read : forall max st ds, ds <> [] -> Forall hex_digit ds -> fold_left (fun a c => a * 16 + hex_val c) ds 0 <= max ->
  hex max st ds = Ok (fold_left (fun a c => a * 16 + hex_val c) ds 0).
Proof.
  intros max st ds N F L. unfold hex. assert (E : parse_uint 16 max ds = Some (fold_left (fun a c => a * 16 + hex_val c) ds 0)).
  { apply parse_hex_spec. split; [|exact L]. exists ds. auto. }
  now rewrite E.
Qed.

Definition horner (ds : str) : N := fold_left (fun a c => a * 16 + hex_val c) ds 0.
Lemma hex_read_w : forall w max st ds, 16 ^ N.of_nat (S w) <= max + 1 -> length ds = S w -> Forall hex_digit ds -> hex max st ds = Ok (horner ds).
Proof.
  intros w max st ds B L F. assert (X := hex_bound ds F). rewrite L in X. apply hex_read; [intros ->; discriminate L|exact F|]. unfold horner in *. lia.
Qed.
Lemma four_read : forall new s a b c d rest, split 45 s = a :: b :: c :: d :: rest -> length a = 2%nat -> length b = 32%nat -> length c = 16%nat -> length d = 2%nat ->
  Forall hex_digit a -> Forall hex_digit b -> Forall hex_digit c -> Forall hex_digit d ->
  context_parse new s = Ok (Context new (horner a) (horner b) (Some (horner c)) (horner d)).
Proof.
  intros new s a b c d rest P La Lb Lc Ld Fa Fb Fc Fd. unfold context_parse. rewrite P. unfold part. cbn [nth_error unwrap bind].
  rewrite (hex_read_w 1 u8_max 500 a) by (assumption || (vm_compute; discriminate)). cbn [bind].
  rewrite (hex_read_w 31 u128_max 400 b) by (assumption || (vm_compute; discriminate)). cbn [bind].
  rewrite (hex_read_w 15 u64_max 400 c) by (assumption || (vm_compute; discriminate)). cbn [bind].
  rewrite (hex_read_w 1 u8_max 400 d) by (assumption || (vm_compute; discriminate)). reflexivity.
Qed.

Lemma fields_inv : forall w1 w2 w3 w4 s p r, fields w1 w2 w3 w4 s = Some (p, r) ->
  exists a b c d, s = a ++ 45 :: b ++ 45 :: c ++ 45 :: d ++ r /\ length a = w1 /\ length b = w2 /\ length c = w3 /\ length d = w4 /\
    Forall hex_digit a /\ Forall hex_digit b /\ Forall hex_digit c /\ Forall hex_digit d /\ p = Parent (horner a) (horner b) (horner c) (horner d).
Proof.
  intros w1 w2 w3 w4 s p r W. unfold fields in W.
  destruct (take_hex w1 0 s) as [[v s1]|] eqn:T1; cbn [and_then] in W; [|discriminate W]. destruct (take_dash s1) as [s2|] eqn:D1; cbn [and_then] in W; [|discriminate W].
  destruct (take_hex w2 0 s2) as [[t s3]|] eqn:T2; cbn [and_then] in W; [|discriminate W]. destruct (take_dash s3) as [s4|] eqn:D2; cbn [and_then] in W; [|discriminate W].
  destruct (take_hex w3 0 s4) as [[q s5]|] eqn:T3; cbn [and_then] in W; [|discriminate W]. destruct (take_dash s5) as [s6|] eqn:D3; cbn [and_then] in W; [|discriminate W].
  destruct (take_hex w4 0 s6) as [[f s7]|] eqn:T4; cbn [and_then] in W; [|discriminate W]. injection W as <- <-.
  apply take_hex_inv in T1 as (a & -> & La & Fa & _ & ->), T2 as (b & -> & Lb & Fb & _ & ->), T3 as (c & -> & Lc & Fc & _ & ->), T4 as (d & -> & Ld & Fd & _ & ->).
  apply dash_inv in D1, D2, D3. subst s1 s3 s5. exists a, b, c, d. repeat split; assumption.
Qed.
Lemma field_take : forall w n r, n < 16 ^ N.of_nat (S w) -> take_hex (S w) 0 (hex_field (S w) n ++ r) = Some (n, r).
Proof.
  intros w n r B. assert (X := take_hex_app (hex_field (S w) n) 0 r (field_lower _ _)). rewrite field_width in X by exact B. rewrite X.
  assert (P := field_parse (S w) n n ltac:(lia)). apply parse_hex_spec in P as ((ds & Sp & Ne & Fd & E) & _).
  assert (ds = hex_field (S w) n) as ->; [|now rewrite <- E]. destruct Sp as [Sp|Sp]; [congruence|]. exfalso. assert (L := field_lower (S w) n). rewrite Sp in L. discriminate L.
Qed.
Lemma fields_show : forall w1 w2 w3 w4 v t p f, v < 16 ^ N.of_nat (S w1) -> t < 16 ^ N.of_nat (S w2) -> p < 16 ^ N.of_nat (S w3) -> f < 16 ^ N.of_nat (S w4) ->
  fields (S w1) (S w2) (S w3) (S w4) (hex_field (S w1) v ++ lit "-" ++ hex_field (S w2) t ++ lit "-" ++ hex_field (S w3) p ++ lit "-" ++ hex_field (S w4) f) = Some (Parent v t p f, []).
Proof.
  intros w1 w2 w3 w4 v t p f V T P F. unfold fields. rewrite field_take by exact V. cbn [and_then]. change (take_dash (lit "-" ++ ?x)) with (Some x). cbn [and_then].
  rewrite field_take by exact T. cbn [and_then]. change (take_dash (lit "-" ++ ?x)) with (Some x). cbn [and_then]. rewrite field_take by exact P. cbn [and_then].
  change (take_dash (lit "-" ++ ?x)) with (Some x). cbn [and_then]. rewrite <- (app_nil_r (hex_field (S w4) f)), field_take by exact F. reflexivity.
Qed.

(** Every valid header is read with the fields it has. *)
Theorem C105_read : forall h new s vs p, h_get h (lit "traceparent") = Some (s :: vs) -> w3c s = Some p ->
  context_from_headers new h = Ok (Some (Context new (w_version p) (w_trace p) (Some (w_parent p)) (w_flags p))).
Proof.
  intros h new s vs p G W. unfold context_from_headers, TRACEPARENT. rewrite G. cbn [values_first bind]. unfold w3c in W.
  destruct (fields 2 32 16 2 s) as [[q r]|] eqn:E; [|discriminate W]. apply fields_inv in E as (a & b & c & d & -> & La & Lb & Lc & Ld & Fa & Fb & Fc & Fd & Q).
  destruct (_ || _ || _); [discriminate W|].
  assert (P : exists rest, split 45 (a ++ 45 :: b ++ 45 :: c ++ 45 :: d ++ r) = a :: b :: c :: d :: rest).
  { rewrite split_app by now apply hex_no_dash. rewrite split_app by now apply hex_no_dash. rewrite split_app by now apply hex_no_dash.
    destruct r as [|x r]; [rewrite app_nil_r, split_no_char by (now apply hex_no_dash); now exists []|].
    destruct ((x =? 45) && _) eqn:X in W; [|discriminate W]. apply andb_true_iff in X as [X _]. apply N.eqb_eq in X. subst x.
    rewrite split_app by now apply hex_no_dash. eexists. reflexivity. }
  destruct P as (rest & P). assert (PE : p = q).
  { destruct r as [|x r]; [congruence|]. destruct ((x =? 45) && _) in W; [congruence|discriminate W]. }
  rewrite (four_read _ _ a b c d rest P La Lb Lc Ld Fa Fb Fc Fd), PE, Q. reflexivity.
Qed.
Print Assumptions C105_read.
Example C105_read_example :
  w3c (lit "00-0af7651916cd43dd8448eb211c80319c-00f067aa0ba902b7-01") = Some (Parent 0 14576827793038113322513871894673895836 67667974448284343 1) /\
  w3c (lit "cc-0af7651916cd43dd8448eb211c80319c-00f067aa0ba902b7-01-what the future") = Some (Parent 204 14576827793038113322513871894673895836 67667974448284343 1) /\
  w3c (lit "00-0af7651916cd43dd8448eb211c80319c-00f067aa0ba902b7-01-what") = None.
Proof. vm_compute. repeat split. Qed.

(** What is written is valid exactly when the version is not 255 and neither id is 0, and then it says what the context holds. *)
Theorem C105_written : forall c, in_types c ->
  (ctx_version c <> 255 /\ ctx_trace c <> 0 /\ ctx_id c <> 0 -> w3c (context_show c) = Some (Parent (ctx_version c) (ctx_trace c) (ctx_id c) (ctx_flags c))) /\
  (ctx_version c = 255 \/ ctx_trace c = 0 \/ ctx_id c = 0 -> w3c (context_show c) = None).
Proof.
  intros c (I & V & T & F & _).
  assert (E : w3c (context_show c) = if (ctx_version c =? 255) || (ctx_trace c =? 0) || (ctx_id c =? 0) then None else Some (Parent (ctx_version c) (ctx_trace c) (ctx_id c) (ctx_flags c))).
  { unfold w3c, context_show. rewrite (fields_show 1 31 15 1) by assumption. reflexivity. }
  rewrite E. split.
  - intros (A & B & C). destruct (N.eqb_spec (ctx_version c) 255), (N.eqb_spec (ctx_trace c) 0), (N.eqb_spec (ctx_id c) 0); try contradiction. reflexivity.
  - intros [-> |[-> | ->]]; cbn [N.eqb orb]; [reflexivity|now rewrite orb_true_r|now rewrite orb_true_r].
Qed.
Print Assumptions C105_written.
Example C105_written_example : in_types (Context 7 0 9 None 1) /\ in_types (Context 0 0 9 None 1) /\
  w3c (context_show (Context 7 0 9 None 1)) = Some (Parent 0 9 7 1) /\ w3c (context_show (Context 0 0 9 None 1)) = None.
Proof. split; [repeat split|]. split; [repeat split|]. vm_compute. auto. Qed.

(** From service to service: each reads what the one before has written.  However many there are, all have the trace id, the
    version and the flags of the first, and each names the one before as its parent. *)
Fixpoint relay (c : context) (ids : list N) : outcome (list context) :=
  match ids with
  | [] => Ok []
  | i :: ids =>
      match context_from_headers i (context_apply [] c) with
      | Ok (Some d) => let* ds := relay d ids in Ok (d :: ds)
      | Ok None => Err 0 | Err e => Err e | Panic => Panic
      end
  end.
Theorem C105_relay : forall ids c, in_types c -> Forall (fun i => i < 2 ^ 64) ids ->
  exists ds, relay c ids = Ok ds /\ map ctx_id ds = ids /\ map ctx_parent ds = map Some (removelast (ctx_id c :: ids)) /\
    Forall (fun d => ctx_trace d = ctx_trace c /\ ctx_version d = ctx_version c /\ ctx_flags d = ctx_flags c /\ sampled d = sampled c) ds.
Proof.
  induction ids as [|i ids IH]; intros c T B; [exists []; repeat split; constructor|]. inversion B as [|? ? Bi Bs]; subst. cbn [relay].
  rewrite C63_round_trip by exact T. set (d := Context i (ctx_version c) (ctx_trace c) (Some (ctx_id c)) (ctx_flags c)).
  assert (Td : in_types d) by (destruct T as (T1 & T2 & T3 & T4 & _); repeat split; assumption).
  destruct (IH d Td Bs) as (ds & E & I1 & I2 & I3). rewrite E. cbn [bind]. exists (d :: ds). split; [reflexivity|]. split; [cbn [map]; now rewrite I1|].
  split; [|constructor; [repeat split; reflexivity|exact I3]]. change (removelast (ctx_id c :: i :: ids)) with (ctx_id c :: removelast (i :: ids)). cbn [map]. f_equal. exact I2.
Qed.
Print Assumptions C105_relay.
Example C105_relay_example : exists ds, relay (context_new 5 77) [6; 7; 8] = Ok ds /\ map ctx_parent ds = [Some 5; Some 6; Some 7] /\ map ctx_trace ds = [77; 77; 77].
Proof. eexists. split; [vm_compute; reflexivity|]. vm_compute. auto. Qed.

(** Invalid headers are read too: capitals, the version "ff", ids of zeros, short fields, signs, and version "00" with a fifth field. *)
Theorem C105_lenient_refuted : exists texts, length texts = 6%nat /\
  Forall (fun s => w3c s = None /\ is_ok (context_from_headers 1 [(lit "traceparent", [s])]) = true) texts.
Proof.
  exists [lit "00-0AF7651916CD43DD8448EB211C80319C-00f067aa0ba902b7-01"; lit "ff-0af7651916cd43dd8448eb211c80319c-00f067aa0ba902b7-01";
    lit "00-00000000000000000000000000000000-0000000000000000-01"; lit "0-1-2-3"; lit "+0-+1-+2-+3";
    lit "00-0af7651916cd43dd8448eb211c80319c-00f067aa0ba902b7-01-what"].
  split; [reflexivity|]. repeat (constructor; [vm_compute; split; reflexivity|]). constructor.
Qed.
Print Assumptions C105_lenient_refuted.
(** The child of a context of a later version says that it is of that version, where the recommendation asks for the version
    that the program knows, "00". *)
Theorem C105_version_refuted : exists c, context_from_headers 2 [(lit "traceparent", [lit "cc-0af7651916cd43dd8448eb211c80319c-00f067aa0ba902b7-01-x"])] = Ok (Some c) /\
  context_show (child 7 c) = lit "cc-0af7651916cd43dd8448eb211c80319c-0000000000000007-01".
Proof. eexists. split; [vm_compute; reflexivity|]. vm_compute. reflexivity. Qed.
Print Assumptions C105_version_refuted.
(** Nothing keeps the random ids from being 0. *)
Theorem C105_new_refuted : exists id trace, id < 2 ^ 64 /\ trace < 2 ^ 128 /\ w3c (context_show (context_new id trace)) = None.
Proof. exists 0, 5. vm_compute. auto. Qed.
Print Assumptions C105_new_refuted.
