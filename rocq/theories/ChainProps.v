(** C107: a request that passes through any number of proxies, each of which adds the address it got the request from to Forwarded, and
    one that passes through any number of services, each of which makes a child of the trace context it got. *)
From Coq Require Import ZifyBool ZifyNat ZifyN Lia.
From Verif Require Import Base BaseFacts Headers HeadersFacts Typed TypedFacts Method Mime Body Message ParseUtils ParseUtilsFacts Forwarded ForwardedProps ForwardedExactProps PartsProps InteropProps Trace TraceProps.

(** What each of them does in turn. *)
Fixpoint along {A} (step : headers -> A -> outcome headers) (h : headers) (l : list A) : outcome headers :=
  match l with [] => Ok h | a :: r => let* h' := step h a in along step h' r end.

(** ** Proxies *)
(** src/headers/header.rs:15-22 [apply_header], for src/proxies/forwarded.rs:361-395. *)
Definition fw_apply (h : headers) (f : forwarded) : outcome headers := let* v := fw_value f in Ok (apply_value h FORWARDED v).
(** A proxy: [Forwarded::from_headers(&req)?.unwrap_or_default()], [add_for(addr)], [apply_header(&mut req)]. *)
Definition proxy (ipv6 : str -> option str) (h : headers) (addr : str) : outcome headers :=
  let* o := fw_from_headers ipv6 h in fw_apply h (add_for (match o with Some f => f | None => fw_new end) addr).

Section Proxies.
Context (ipv6 : str -> option str).
(** What the first proxy starts with: what it reads in the request of the client, which says nothing or only what can be written. *)
Definition starts (h : headers) (f : forwarded) : Prop :=
  (fw_from_headers ipv6 h = Ok (Some f) \/ fw_from_headers ipv6 h = Ok None /\ f = mkForwarded None [] None None) /\
  opt_token (fw_by f) /\ opt_token (fw_host f) /\ opt_token (fw_proto f) /\ Forall for_value (fw_for f).
Definition extended (f : forwarded) (addrs : list str) : forwarded := mkForwarded (fw_by f) (fw_for f ++ addrs) (fw_host f) (fw_proto f).

Lemma one_proxy : forall h f a, starts h f -> for_value a -> exists s, proxy ipv6 h a = Ok (apply_value h FORWARDED s) /\ fw_value (extended f [a]) = Ok s /\ fw_parse s = Ok (extended f [a]).
Proof.
  intros h f a (R & B & H & P & F) V. destruct (C35_round_trip_partial (extended f [a])) as (s & W & _ & S); try assumption.
  - cbn [extended fw_for]. apply Forall_app. auto.
  - left. cbn [extended fw_for]. destruct (fw_for f); discriminate.
  - exists s. split; [|auto]. unfold proxy, fw_apply. change (add_for f a) with (extended f [a]) in *.
    destruct R as [->|[-> ->]]; cbn [bind]; [change (add_for f a) with (extended f [a])|change (add_for fw_new a) with (extended (mkForwarded None [] None None) [a])]; rewrite W; reflexivity.
Qed.
Lemma proxied : forall h s f, fw_parse s = Ok f -> fw_from_headers ipv6 (apply_value h FORWARDED s) = Ok (Some f).
Proof. intros h s f S. unfold fw_from_headers, from_forwarded_header, first_value. rewrite get_apply. cbn [values_first bind]. rewrite S. reflexivity. Qed.
Lemma run : forall addrs h f a, starts h f -> Forall for_value (a :: addrs) ->
  exists h' s, along (proxy ipv6) h (a :: addrs) = Ok h' /\ h_get h' FORWARDED = Some [s] /\ fw_value (extended f (a :: addrs)) = Ok s /\
    fw_from_headers ipv6 h' = Ok (Some (extended f (a :: addrs))) /\ forall n, n <> FORWARDED -> h_get h' n = h_get h n.
Proof.
  induction addrs as [|b addrs IH]; intros h f a S V; inversion V as [|? ? Va Vr]; subst; destruct (one_proxy h f a S Va) as (s & E & W & R); assert (Q := proxied h s _ R).
  - exists (apply_value h FORWARDED s), s. cbn [along]. rewrite E. cbn [bind]. split; [reflexivity|]. split; [apply get_apply|]. split; [exact W|]. split; [exact Q|]. intros n N. now apply get_apply_other.
  - destruct (IH (apply_value h FORWARDED s) (extended f [a]) b) as (h' & s' & E' & G & W' & R' & O).
    + destruct S as (_ & B & H & P & F). split; [now left|]. cbn [extended fw_by fw_for fw_host fw_proto]. repeat (split; [assumption|]). apply Forall_app. auto.
    + exact Vr.
    + assert (X : extended (extended f [a]) (b :: addrs) = extended f (a :: b :: addrs)) by (unfold extended; cbn [fw_by fw_for fw_host fw_proto]; now rewrite <- app_assoc).
      rewrite X in W', R'. exists h', s'. change (along (proxy ipv6) h (a :: b :: addrs)) with (let* h' := proxy ipv6 h a in along (proxy ipv6) h' (b :: addrs)). rewrite E. cbn [bind].
      split; [exact E'|]. split; [exact G|]. split; [exact W'|]. split; [exact R'|]. intros n N. rewrite O by exact N. now apply get_apply_other.
Qed.

(** After the last proxy the header lists the addresses in the order of the proxies, behind those the client gave, keeps the client's
    [by], [host] and [proto], and the other headers are as they were. *)
Theorem C107_proxies : forall h f addrs, starts h f -> Forall for_value addrs -> addrs <> [] ->
  exists h', along (proxy ipv6) h addrs = Ok h' /\ fw_from_headers ipv6 h' = Ok (Some (mkForwarded (fw_by f) (fw_for f ++ addrs) (fw_host f) (fw_proto f))) /\
    forall n, n <> lit "forwarded" -> h_get h' n = h_get h n.
Proof. intros h f [|a addrs] S V N; [congruence|]. destruct (run addrs h f a S V) as (h' & s & E & _ & _ & R & O). exists h'. auto. Qed.

(** ** What [remote] and [host] say behind the proxies *)
Lemma tchar_not : forall c s, tchar c = false -> forallb tchar s = true -> no_char c s = true.
Proof.
  intros c s C. unfold no_char. apply forallb_impl. intros x X. destruct (N.eqb_spec x c) as [->|]; [congruence|reflexivity].
Qed.
Lemma piece_not : forall part key v, no_char 61 key = true -> token_str v -> eq_ignore_case key part = false -> piece_value part (key ++ 61 :: v) = None.
Proof. intros part key v K [_ V] E. unfold piece_value. rewrite split_app by exact K. rewrite split_no_char by now apply tchar_not. now rewrite E. Qed.
Lemma piece_is : forall part key v, no_char 61 key = true -> token_str v -> eq_ignore_case key part = true -> piece_value part (key ++ 61 :: v) = Some v.
Proof. intros part key v K [_ V] E. unfold piece_value. rewrite split_app by exact K. rewrite split_no_char by now apply tchar_not. now rewrite E. Qed.
Lemma fmt_token : forall v, token_str v -> fmt v = v.
Proof. intros v [_ V]. unfold fmt. now rewrite V. Qed.
Lemma fors_59 : forall l, Forall token_str l -> no_char 59 (fors_of l) = true.
Proof.
  induction 1 as [|v l V F IH]; [reflexivity|]. assert (A : no_char 59 (lit "for=" ++ fmt v) = true).
  { rewrite no_char_app. rewrite (fmt_token _ V). rewrite (tchar_not 59 v eq_refl (proj2 V)). reflexivity. }
  destruct l as [|w l]; [exact A|]. rewrite fors_cons, app_assoc, no_char_app, A, no_char_app, IH. reflexivity.
Qed.
Lemma fors_piece : forall l part, Forall token_str l -> eq_ignore_case (lit "for") part = false \/ (length l <> 1)%nat -> piece_value part (fors_of l) = None.
Proof.
  intros l part F D. destruct l as [|v [|w l]].
  - reflexivity.
  - inversion F as [|? ? V ?]; subst. unfold fors_of. cbn [map join]. rewrite (fmt_token _ V). destruct D as [D|D]; [|now elim D]. exact (piece_not part (lit "for") v eq_refl V D).
  - inversion F as [|? ? V F']; subst. inversion F' as [|? ? W ?]; subst. rewrite fors_cons. rewrite (fmt_token _ V). unfold piece_value.
    change (lit "for=" ++ v ++ lit ", " ++ fors_of (w :: l)) with (lit "for" ++ 61 :: (v ++ lit ", " ++ fors_of (w :: l))). rewrite split_app by reflexivity.
    assert (X : exists t, fors_of (w :: l) = lit "for" ++ 61 :: t).
    { destruct l as [|u l]; [exists (fmt w); reflexivity|]. rewrite fors_cons. eexists. reflexivity. }
    destruct X as (t & ->).
    assert (Y : v ++ lit ", " ++ lit "for" ++ 61 :: t = (v ++ lit ", for") ++ 61 :: t) by now rewrite <- app_assoc.
    rewrite Y, split_app by (rewrite no_char_app, (tchar_not 61 v eq_refl (proj2 V)); reflexivity).
    destruct (split 61 t) eqn:Z; [now apply split_nonempty in Z|]. reflexivity.
Qed.
Lemma find_map_app : forall A B (g : A -> option B) l m, find_map g (l ++ m) = match find_map g l with Some b => Some b | None => find_map g m end.
Proof. intros A B g l m. unfold find_map. induction l as [|a l IH]; [reflexivity|]. cbn [app fold_right]. destruct (g a); [reflexivity|exact IH]. Qed.
Ltac drop Q K := match type of Q with context [@find_map ?A ?B ?g ?l] => let E := fresh in assert (E : @find_map A B g l = None) by exact K; rewrite E in Q; clear E end.
Lemma written_part : forall h f s part, opt_token (fw_by f) -> opt_token (fw_host f) -> opt_token (fw_proto f) -> Forall token_str (fw_for f) ->
  fw_value f = Ok s -> h_get h FORWARDED = Some [s] ->
  forwarded_header_part h part = Ok (find_map (piece_value part) (fst (pieces f) ++ [fors_of (fw_for f)] ++ snd (pieces f))).
Proof.
  intros h f s part B H P F V G. rewrite forwarded_text in V. assert (s = join [59] (fst (pieces f) ++ [fors_of (fw_for f)] ++ snd (pieces f))) as -> by congruence. unfold forwarded_header_part, first_value. rewrite G. cbn [values_first bind].
  fold (piece_value part). rewrite split_join; [reflexivity|intros Z; apply app_eq_nil in Z as [_ Z]; discriminate Z|].
  assert (K : forall key o, no_char 59 key = true -> opt_token o -> Forall (fun p => no_char 59 p = true) (match o with Some v => [key ++ v] | None => [] end)).
  { intros key [v|] K T; [|constructor]. constructor; [|constructor]. rewrite no_char_app, K. cbn [opt_token] in T. now rewrite (tchar_not 59 v eq_refl (proj2 T)). }
  unfold pieces. cbn [fst snd]. apply Forall_app. split; [exact (K (lit "by=") (fw_by f) eq_refl B)|]. apply Forall_app. split; [constructor; [now apply fors_59|constructor]|].
  apply Forall_app. split; [exact (K (lit "host=") (fw_host f) eq_refl H)|exact (K (lit "proto=") (fw_proto f) eq_refl P)].
Qed.

(** The address of the client, if it is the only one; with more than one, Forwarded is not used at all: X-Forwarded-For is if there is
    one, which anyone could have written, and the address of the last proxy otherwise. *)
Theorem C107_remote : forall V (r : request V) h f addrs, starts h f -> Forall token_str (fw_for f) -> Forall token_str addrs -> addrs <> [] ->
  along (proxy ipv6) h addrs = Ok (c_headers (rq_common r)) ->
  (forall a, fw_for f ++ addrs = [a] -> remote r = Ok (Some a)) /\
  ((1 < length (fw_for f ++ addrs))%nat ->
    (h_get h (lit "x-forwarded-for") = None -> remote r = Ok (c_peer (rq_common r))) /\
    (forall v vs, h_get h (lit "x-forwarded-for") = Some (v :: vs) -> exists x, before_comma v x /\ remote r = Ok (Some x))).
Proof.
  intros V r h f addrs S Tf Ta N E. destruct addrs as [|a addrs]; [congruence|].
  assert (FV : Forall for_value (a :: addrs)) by (eapply Forall_impl; [|exact Ta]; intros x [X1 X2]; split; auto).
  destruct (run addrs h f a S FV) as (h' & s & E' & G & W & _ & O). rewrite E in E'. injection E' as E'. rewrite <- E' in G, O. clear h' E'.
  set (g := extended f (a :: addrs)) in *. destruct S as (_ & B & H & P & _).
  assert (T : Forall token_str (fw_for g)) by (apply Forall_app; auto).
  assert (Q := written_part _ g s (lit "for") B H P T W G).
  assert (K : forall key o, no_char 61 key = true -> opt_token o -> eq_ignore_case key (lit "for") = false ->
     find_map (piece_value (lit "for")) (match o with Some v => [key ++ 61 :: v] | None => [] end) = None).
  { intros key [v|] K X D; [|reflexivity]. cbn [find_map fold_right]. cbn [opt_token] in X. now rewrite piece_not. }
  assert (K1 := K (lit "by") (fw_by g) eq_refl B eq_refl). assert (K2 := K (lit "host") (fw_host g) eq_refl H eq_refl). assert (K3 := K (lit "proto") (fw_proto g) eq_refl P eq_refl).
  rewrite !find_map_app in Q. unfold pieces in Q. cbn [fst snd] in Q. rewrite find_map_app in Q.
  drop Q K1. drop Q K2. drop Q K3. cbn [find_map fold_right] in Q. change (fw_for g) with (fw_for f ++ a :: addrs) in *. split.
  - intros x X. rewrite X in Q, T. inversion T as [|? ? Tx _]; subst. unfold fors_of in Q. cbn [map join] in Q. rewrite (fmt_token _ Tx) in Q.
    assert (Y : piece_value (lit "for") (lit "for=" ++ x) = Some x) by exact (piece_is (lit "for") (lit "for") x eq_refl Tx eq_refl).
    rewrite Y in Q. unfold remote, forwarded_for. rewrite Q. reflexivity.
  - intros X. rewrite (fors_piece _ _ T) in Q by (right; lia). unfold remote, forwarded_for. rewrite Q. cbn [or_else bind]. unfold first_entry, first_value.
    rewrite O by discriminate. split.
    + intros ->. reflexivity.
    + intros v vs ->. cbn [values_first bind]. destruct (hd_split v) as (x & X1 & X2). exists x. split; [exact X2|]. rewrite X1. reflexivity.
Qed.
(** The host the client or the first proxy gave stays the host of the request. *)
Theorem C107_host : forall V (r : request V) h f addrs x, starts h f -> Forall token_str (fw_for f) -> Forall token_str addrs -> addrs <> [] ->
  along (proxy ipv6) h addrs = Ok (c_headers (rq_common r)) -> fw_host f = Some x -> host r = Ok (Some x).
Proof.
  intros V r h f addrs x S Tf Ta N E X. destruct addrs as [|a addrs]; [congruence|].
  assert (FV : Forall for_value (a :: addrs)) by (eapply Forall_impl; [|exact Ta]; intros y [X1 X2]; split; auto).
  destruct (run addrs h f a S FV) as (h' & s & E' & G & W & _ & _). rewrite E in E'. injection E' as E'. rewrite <- E' in G. clear h' E'.
  set (g := extended f (a :: addrs)) in *. destruct S as (_ & B & H & P & _).
  assert (T : Forall token_str (fw_for g)) by (apply Forall_app; auto).
  assert (Q := written_part _ g s (lit "host") B H P T W G). unfold pieces in Q. cbn [fst snd] in Q. change (fw_host g) with (fw_host f) in Q. rewrite X in *. cbn [opt_token] in H.
  assert (L1 : find_map (piece_value (lit "host")) (match fw_by g with Some v => [lit "by=" ++ v] | None => [] end) = None).
  { change (fw_by g) with (fw_by f). destruct (fw_by f) as [b|]; [|reflexivity]. cbn [find_map fold_right]. assert (Z : piece_value (lit "host") (lit "by=" ++ b) = None) by exact (piece_not (lit "host") (lit "by") b eq_refl B eq_refl). now rewrite Z. }
  assert (L2 : piece_value (lit "host") (lit "host=" ++ x) = Some x) by exact (piece_is (lit "host") (lit "host") x eq_refl H eq_refl).
  rewrite !find_map_app in Q. drop Q L1. cbn [app find_map fold_right] in Q. rewrite (fors_piece _ _ T) in Q by (left; reflexivity).
  assert (forwarded_header_part (c_headers (rq_common r)) (lit "host") = Ok (Some x)) as R by (rewrite Q; rewrite L2; reflexivity).
  unfold host. rewrite R. reflexivity.
Qed.
End Proxies.
Print Assumptions C107_proxies.
Print Assumptions C107_remote.
Print Assumptions C107_host.
(** Three proxies; the first address has to be quoted. *)
Example C107_proxies_example : let ipv6 := fun _ : str => None in let h := [(lit "x-forwarded-host", [lit "example.com"]); (lit "x-forwarded-for", [lit "192.0.2.1"])] in
  starts ipv6 h (mkForwarded None [lit "192.0.2.1"] (Some (lit "example.com")) None) /\ Forall for_value [lit "[2001:db8::1]"; lit "192.0.2.7"; lit "_hidden"] /\
  along (proxy ipv6) h [lit "[2001:db8::1]"; lit "192.0.2.7"; lit "_hidden"] =
    Ok (h ++ [(lit "forwarded", [lit "for=192.0.2.1, for=""[2001:db8::1]"", for=192.0.2.7, for=_hidden;host=example.com"])]).
Proof.
  cbv zeta. split; [|split].
  - split; [left; vm_compute; reflexivity|]. cbn [fw_by fw_for fw_host fw_proto opt_token]. split; [exact I|]. split; [split; [discriminate|reflexivity]|]. split; [exact I|].
    constructor; [split; [discriminate|left; reflexivity]|constructor].
  - constructor; [split; [discriminate|right; reflexivity]|]. constructor; [split; [discriminate|left; reflexivity]|]. constructor; [split; [discriminate|left; reflexivity]|constructor].
  - vm_compute. reflexivity.
Qed.
(** The address of the client is lost behind a second proxy: the server takes the last proxy for the client. *)
Definition behind (h : headers) : request str :=
  mkRequest M_Get (mkUrl (lit "http://url.example/") (Some (lit "url.example"))) (mkCommon h None body_empty ext_new (Some (lit "10.0.0.2:5000")) None) (mkEnds None None false).
Theorem C107_remote_refuted : exists (r : request str) client second, along (proxy (fun _ => None)) [] [client; second] = Ok (c_headers (rq_common r)) /\
  fw_from_headers (fun _ => None) (c_headers (rq_common r)) = Ok (Some (mkForwarded None [client; second] None None)) /\
  Forall token_str [client; second] /\ c_peer (rq_common r) = Some (lit "10.0.0.2:5000") /\ remote r = Ok (Some (lit "10.0.0.2:5000")).
Proof.
  exists (behind [(lit "forwarded", [lit "for=192.0.2.1, for=10.0.0.1"])]), (lit "192.0.2.1"), (lit "10.0.0.1").
  split; [vm_compute; reflexivity|]. split; [vm_compute; reflexivity|]. split; [|split; vm_compute; reflexivity].
  repeat constructor; discriminate.
Qed.
Print Assumptions C107_remote_refuted.
(** One proxy: the client; three: the last one; a host given by the client stays. *)
Example C107_remote_example : let ipv6 := fun _ : str => None in
  starts ipv6 [] (mkForwarded None [] None None) /\ Forall token_str [lit "192.0.2.1"] /\
  remote (behind [(lit "forwarded", [lit "for=192.0.2.1"])]) = Ok (Some (lit "192.0.2.1")) /\ along (proxy ipv6) [] [lit "192.0.2.1"] = Ok [(lit "forwarded", [lit "for=192.0.2.1"])] /\
  starts ipv6 [(lit "forwarded", [lit "for=a;host=example.com"])] (mkForwarded None [lit "a"] (Some (lit "example.com")) None) /\
  along (proxy ipv6) [(lit "forwarded", [lit "for=a;host=example.com"])] [lit "b"; lit "c"] = Ok [(lit "forwarded", [lit "for=a, for=b, for=c;host=example.com"])] /\
  host (behind [(lit "forwarded", [lit "for=a, for=b, for=c;host=example.com"])]) = Ok (Some (lit "example.com")).
Proof.
  cbv zeta. split; [split; [right; split; vm_compute; reflexivity|cbn; auto]|]. split; [repeat constructor; discriminate|].
  split; [vm_compute; reflexivity|]. split; [vm_compute; reflexivity|]. split; [|split; vm_compute; reflexivity].
  split; [left; vm_compute; reflexivity|]. cbn [fw_by fw_for fw_host fw_proto opt_token]. split; [exact I|]. split; [split; [discriminate|reflexivity]|]. split; [exact I|].
  constructor; [split; [discriminate|left; reflexivity]|constructor].
Qed.

(** ** Services *)
(** A service reads the context of the request ([own] is the random id it gets), makes a child ([kid] is its id) and sends it with the
    request to the next service: [from_headers], [child], [apply]; the contexts it handles are listed. *)
Fixpoint journey (h : headers) (ids : list (N * N)) : outcome (headers * list context) :=
  match ids with
  | [] => Ok (h, [])
  | (own, kid) :: r =>
    let* o := context_from_headers own h in
    match o with
    | None => Ok (h, [])
    | Some c => let* (h', cs) := journey (context_apply h (child kid c)) r in Ok (h', c :: child kid c :: cs)
    end
  end.
Lemma last_cons : forall (l : list N) x d, last (x :: l) d = last l x.
Proof. induction l as [|y l IH]; intros x d; [reflexivity|]. change (last (x :: y :: l) d) with (last (y :: l) d). rewrite (IH y d), (IH y x). reflexivity. Qed.
(** All contexts are of one trace, with the flags and version of the first; the parent of each is the one before it. *)
Theorem C107_services : forall ids h c, in_types c -> Forall (fun p => fst p < 2 ^ 64 /\ snd p < 2 ^ 64) ids ->
  exists h' cs, journey (context_apply h c) ids = Ok (h', cs) /\
    map ctx_id cs = flat_map (fun p => [fst p; snd p]) ids /\
    map ctx_parent cs = map Some (removelast (ctx_id c :: map ctx_id cs)) /\
    Forall (fun d => ctx_trace d = ctx_trace c /\ ctx_version d = ctx_version c /\ ctx_flags d = ctx_flags c /\ sampled d = sampled c) cs /\
    forall id, context_from_headers id h' = Ok (Some (Context id (ctx_version c) (ctx_trace c) (Some (last (map ctx_id cs) (ctx_id c))) (ctx_flags c))).
Proof.
  induction ids as [|[own kid] ids IH]; intros h c T F.
  - exists (context_apply h c), []. cbn [journey map flat_map last]. split; [reflexivity|]. split; [reflexivity|]. split; [reflexivity|]. split; [constructor|]. intros id. now apply C63_round_trip.
  - inversion F as [|? ? [O K] F']; subst. cbn [fst snd] in *. cbn [journey]. rewrite (C63_round_trip h c own T). cbn [bind].
    set (m := Context own (ctx_version c) (ctx_trace c) (Some (ctx_id c)) (ctx_flags c)). set (k := child kid m).
    assert (Tk : in_types k). { destruct T as (T1 & T2 & T3 & T4 & _). repeat split; cbn; auto. }
    destruct (IH (context_apply h c) k Tk F') as (h' & cs & E & I & P & A & R). rewrite E. cbn [bind]. exists h', (m :: k :: cs).
    split; [reflexivity|]. split; [cbn [map flat_map app fst snd ctx_id]; rewrite I; reflexivity|]. split; [|split].
    + cbn [map]. rewrite P. cbn [ctx_parent ctx_id m]. destruct cs; reflexivity.
    + constructor; [repeat split; reflexivity|]. constructor; [repeat split; reflexivity|]. exact A.
    + intros id. rewrite R. cbn [map]. rewrite !last_cons. reflexivity.
Qed.
Print Assumptions C107_services.
Example C107_services_example : let c := context_new 7 99 in in_types c /\
  journey (context_apply [] c) [(1, 2); (3, 4)] =
    Ok ([(lit "traceparent", [lit "00-00000000000000000000000000000063-0000000000000004-01"])],
        [Context 1 0 99 (Some 7) 1; Context 2 0 99 (Some 1) 1; Context 3 0 99 (Some 2) 1; Context 4 0 99 (Some 3) 1]).
Proof. split; [repeat split|vm_compute; reflexivity]. Qed.
