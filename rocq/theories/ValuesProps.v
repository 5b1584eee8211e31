(** C96: the values of one header as a list; and the remaining setters, getters and comparisons of messages, bodies,
    errors, media types and policies (C29, C60, C82, C87, C91, C92, C93). *)
From Coq Require Import ZifyBool ZifyNat ZifyN.
From Verif Require Import Base BaseFacts Utf8 Method StatusCode Headers HeadersFacts HeadersProps Typed TypedFacts Mime Body BodyFacts BodyProps Message
  MessageProps MessageOps MessageOpsProps Errors Float FloatFacts Negotiate NegotiateFacts NegotiateProps Compare CompareProps HttpDate Cache Other OtherProps
  RoundTripProps Clock Setters.
Open Scope N_scope.

(** ** C96 *)
(** [get], [get_mut] and [contains] by position and by value. *)
Theorem C96_list : forall vs i v,
  (values_get vs i = Some v <-> exists a b, vs = a ++ v :: b /\ length a = i) /\
  (values_get vs i = None <-> (length vs <= i)%nat) /\
  (values_contains vs v = true <-> In v vs) /\
  (forall a x b, vs = a ++ x :: b -> length a = i -> values_set vs i v = a ++ v :: b) /\
  ((length vs <= i)%nat -> values_set vs i v = vs).
Proof.
  intros vs i v. split; [|split; [|split; [|split]]].
  - unfold values_get. split; [apply nth_error_split|]. intros (a & b & -> & <-). rewrite nth_error_app2 by reflexivity. now rewrite Nat.sub_diag.
  - apply nth_error_None.
  - unfold values_contains. rewrite existsb_exists. split; [intros (x & I & E); apply seqb_eq in E; now subst x|].
    intros I. exists v. split; [exact I|apply seqb_refl].
  - intros a x b -> L. revert i L. induction a as [|y a IH]; intros i <-; [reflexivity|]. cbn [app length values_set]. f_equal. now apply IH.
  - revert i. induction vs as [|x vs IH]; intros i L; [destruct i; reflexivity|]. cbn [length] in L. destruct i as [|i]; [lia|].
    cbn [values_set]. f_equal. apply IH. lia.
Qed.
(** Any sequence of writes through [get_mut]: the number of values stays, and each position holds what was written there
    last, or what it held before. *)
Theorem C96_writes : forall (ws : list (nat * str)) vs,
  let after := fold_left (fun vs w => values_set vs (fst w) (snd w)) ws vs in
  length after = length vs /\
  (forall i, (forall v, ~ In (i, v) ws) -> values_get after i = values_get vs i) /\
  (forall a i v b, ws = a ++ (i, v) :: b -> (forall u, ~ In (i, u) b) -> (i < length vs)%nat -> values_get after i = Some v).
Proof.
  assert (L : forall vs i v, length (values_set vs i v) = length vs).
  { induction vs as [|x vs IH]; intros [|i] v; cbn [values_set length]; try reflexivity. now rewrite IH. }
  assert (O : forall vs i j v, i <> j -> values_get (values_set vs i v) j = values_get vs j).
  { unfold values_get. induction vs as [|x vs IH]; intros [|i] [|j] v D; cbn [values_set nth_error]; try reflexivity; try congruence. apply IH. congruence. }
  assert (S : forall vs i v, (i < length vs)%nat -> values_get (values_set vs i v) i = Some v).
  { unfold values_get. induction vs as [|x vs IH]; intros i v K; cbn [length] in K; [lia|]. destruct i as [|i]; cbn [values_set nth_error]; [reflexivity|].
    apply IH. lia. }
  assert (LL : forall (ws : list (nat * str)) vs, length (fold_left (fun vs w => values_set vs (fst w) (snd w)) ws vs) = length vs).
  { induction ws as [|[i v] ws IH]; intros vs; cbn [fold_left fst snd]; [reflexivity|]. now rewrite IH, L. }
  assert (OO : forall (ws : list (nat * str)) vs i, (forall v, ~ In (i, v) ws) ->
     values_get (fold_left (fun vs w => values_set vs (fst w) (snd w)) ws vs) i = values_get vs i).
  { induction ws as [|[j v] ws IH]; intros vs i N; cbn [fold_left fst snd]; [reflexivity|]. rewrite IH.
    - apply O. intros ->. apply (N v). now left.
    - intros u I. apply (N u). now right. }
  intros ws vs after. unfold after. split; [apply LL|]. split; [intros i; apply OO|].
  intros a i v b -> N K. rewrite fold_left_app. cbn [fold_left fst snd]. rewrite OO by exact N. apply S. now rewrite LL.
Qed.
(** The same through a header map: after any history and any writes to a header, its values answer so, and no other
    header is touched. *)
Theorem C96_in_map : forall ops n i v vs, is_ascii n = true -> h_get (fst (run headers_new ops)) (to_lower n) = Some vs ->
  let h := fst (run headers_new (ops ++ [OpEdit n (fun vs => values_set vs i v)])) in
  h_get h (to_lower n) = Some (values_set vs i v) /\
  forall n', n' <> to_lower n -> h_get h n' = h_get (fst (run headers_new ops)) n'.
Proof.
  intros ops n i v vs A G h. unfold h.
  assert (R : forall a o b, fst (run b (a ++ [o])) = fst (step (fst (run b a)) o)).
  { induction a as [|x a IH]; intros o b; cbn [app run].
    - cbn [fst]. now destruct (step b o).
    - destruct (step b x) as [b' r]. specialize (IH o b'). destruct (run b' (a ++ [o])), (run b' a). exact IH. }
  rewrite R. cbn [step]. unfold name_into, name_from_str. rewrite A. cbn [fst]. unfold h_edit, h_get in *. rewrite G. split.
  - now rewrite hm_get_insert_same.
  - intros n' D. now rewrite hm_get_insert_other by exact D.
Qed.
Example C96_example :
  let h := fst (run headers_new [OpInsert (lit "X-A") (TvText (lit "1")); OpAppend (lit "x-a") (TvText (lit "2")); OpAppend (lit "x-a") (TvText (lit "3"))]) in
  h_get h (lit "x-a") = Some [lit "1"; lit "2"; lit "3"] /\
  values_get [lit "1"; lit "2"; lit "3"] 1 = Some (lit "2") /\ values_get [lit "1"; lit "2"; lit "3"] 3 = None /\
  values_contains [lit "1"; lit "2"; lit "3"] (lit "3") = true /\ values_contains [lit "1"; lit "2"; lit "3"] (lit "4") = false /\
  values_set [lit "1"; lit "2"; lit "3"] 2 (lit "9") = [lit "1"; lit "2"; lit "9"].
Proof. vm_compute. auto 10. Qed.
Print Assumptions C96_list.
Print Assumptions C96_writes.
Print Assumptions C96_in_map.

(** ** C29 *)
(** [body_bytes] empties the message and returns its content. *)
Theorem C29_bytes_taken : forall V (c : common V) bs caps, (length bs < length caps)%nat ->
  let '(r, c') := body_bytes caps (set_body c (from_bytes bs)) in r = Some (Ok bs) /\ c_body c' = body_empty.
Proof.
  intros V c bs caps K. unfold body_bytes.
  destruct (take_body (set_body c (from_bytes bs))) as [b c'] eqn:E.
  destruct (C29_bodies_exchanged (set_body c (from_bytes bs)) body_empty) as (_ & _ & _ & _ & T1 & T2 & _).
  rewrite E in T1, T2. cbn [fst snd] in T1, T2. split; [|exact T2].
  destruct (C29_bodies_exchanged c (from_bytes bs)) as (_ & S2 & _). unfold set_body in T1. rewrite S2 in T1. subst b.
  unfold into_bytes. destruct (read_to_end_done caps (from_bytes bs) [] (wf_from_bytes bs)) as [r R].
  { rewrite rest_from_bytes. cbn [from_bytes waits waits_src]. rewrite stalls_chunk. lia. }
  rewrite R. apply (read_to_end_spec caps (from_bytes bs)) in R; [|apply wf_from_bytes]. rewrite rest_from_bytes in R.
  destruct R as [->|[_ F]]; [reflexivity|]. destruct F. exact (never_fails_chunk _).
Qed.
Example C29_bytes_taken_example :
  fst (body_bytes (repeat 2%nat 6) (set_body (common_new (V := str)) (from_bytes [1; 2; 255]))) = Some (Ok [1; 2; 255]).
Proof. vm_compute. reflexivity. Qed.
Print Assumptions C29_bytes_taken.
(** What a message without a Content-Type gets from each kind of body. *)
Theorem C29_kinds : forall V (c : common V) evs len bs t, h_get (c_headers c) (lit "content-type") = None ->
  h_get (c_headers (set_body c body_empty)) (lit "content-type") = Some [lit "application/octet-stream"] /\
  h_get (c_headers (set_body c (from_reader evs len))) (lit "content-type") = Some [lit "application/octet-stream"] /\
  h_get (c_headers (set_body c (from_bytes bs))) (lit "content-type") = Some [lit "application/octet-stream"] /\
  h_get (c_headers (set_body c (from_string t))) (lit "content-type") = Some [lit "text/plain;charset=utf-8"].
Proof. intros V c evs len bs t N. repeat split; (rewrite C29_content_type_set_if_absent by exact N; reflexivity). Qed.
Example C29_kinds_example : h_get (c_headers (common_new (V := str))) (lit "content-type") = None.
Proof. reflexivity. Qed.
Print Assumptions C29_kinds.

(** ** C82 *)
(** The parts of a request and a response beside those they share.  Any history of calls: the method, URL and status are
    those written last, the shared parts are as after the shared calls alone, and the channels stay. *)
Inductive rcall {V} := RMethod (m : method) | RUrl (u : url) | RShared (o : @call V).
Definition racts {V} (r : request V) (l : list (@rcall V)) : request V :=
  fold_left (fun r o => match o with
    | RMethod m => set_method r m | RUrl u => set_url r u
    | RShared o => mkRequest (rq_method r) (rq_url r) (fst (act (rq_common r) o)) (rq_trailers r) end) l r.
Definition rshared {V} (l : list (@rcall V)) : list (@call V) := flat_map (fun o => match o with RShared o => [o] | _ => [] end) l.
Theorem C82_request_history : forall V (l : list (@rcall V)) (r : request V),
  let r' := racts r l in
  rq_common r' = fst (acts (rq_common r) (rshared l)) /\ rq_trailers r' = rq_trailers r /\
  ((forall m, ~ In (RMethod m) l) -> rq_method r' = rq_method r) /\
  (forall a m b, l = a ++ RMethod m :: b -> (forall m', ~ In (RMethod m') b) -> rq_method r' = m) /\
  ((forall u, ~ In (RUrl u) l) -> rq_url r' = rq_url r) /\
  (forall a u b, l = a ++ RUrl u :: b -> (forall u', ~ In (RUrl u') b) -> rq_url r' = u).
Proof.
  intros V.
  assert (A : forall (l : list (@rcall V)) r, rq_common (racts r l) = fst (acts (rq_common r) (rshared l)) /\ rq_trailers (racts r l) = rq_trailers r).
  { induction l as [|o l IH]; intros r; [split; reflexivity|]. unfold racts, rshared. cbn [fold_left flat_map]. destruct o as [m|u|o]; cbn [app].
    - destruct (IH (set_method r m)) as [H1 H2]. split; [exact H1|exact H2].
    - destruct (IH (set_url r u)) as [H1 H2]. split; [exact H1|exact H2].
    - destruct (IH (mkRequest (rq_method r) (rq_url r) (fst (act (rq_common r) o)) (rq_trailers r))) as [H1 H2].
      split; [|exact H2]. unfold racts in H1. rewrite H1. cbn [rq_common acts]. destruct (act (rq_common r) o) as [c' a]. cbn [fst].
      fold (rshared l). now destruct (acts c' (rshared l)). }
  assert (M : forall (l : list (@rcall V)) r, (forall m, ~ In (RMethod m) l) -> rq_method (racts r l) = rq_method r).
  { induction l as [|o l IH]; intros r N; [reflexivity|]. unfold racts. cbn [fold_left]. destruct o as [m|u|o].
    - elim (N m). now left.
    - apply (IH (set_url r u)). intros m I. apply (N m). now right.
    - apply (IH (mkRequest _ _ _ _)). intros m I. apply (N m). now right. }
  assert (U : forall (l : list (@rcall V)) r, (forall u, ~ In (RUrl u) l) -> rq_url (racts r l) = rq_url r).
  { induction l as [|o l IH]; intros r N; [reflexivity|]. unfold racts. cbn [fold_left]. destruct o as [m|u|o].
    - apply (IH (set_method r m)). intros u I. apply (N u). now right.
    - elim (N u). now left.
    - apply (IH (mkRequest _ _ _ _)). intros u I. apply (N u). now right. }
  intros l r r'. unfold r'. split; [apply A|]. split; [apply A|]. split; [apply M|]. split; [|split; [apply U|]].
  - intros a m b -> N. unfold racts. rewrite fold_left_app. cbn [fold_left]. apply (M b (set_method _ m) N).
  - intros a u b -> N. unfold racts. rewrite fold_left_app. cbn [fold_left]. apply (U b (set_url _ u) N).
Qed.
Inductive scall {V} := SStatus (s : status_code) | SShared (o : @call V).
Definition sacts {V} (r : response V) (l : list (@scall V)) : response V :=
  fold_left (fun r o => match o with
    | SStatus s => set_status r s
    | SShared o => mkResponse (rs_status r) (fst (act (rs_common r) o)) (rs_trailers r) (rs_upgrade r) end) l r.
Definition sshared {V} (l : list (@scall V)) : list (@call V) := flat_map (fun o => match o with SShared o => [o] | _ => [] end) l.
Theorem C82_response_history : forall V (l : list (@scall V)) (r : response V),
  let r' := sacts r l in
  rs_common r' = fst (acts (rs_common r) (sshared l)) /\ rs_trailers r' = rs_trailers r /\ rs_upgrade r' = rs_upgrade r /\
  ((forall s, ~ In (SStatus s) l) -> rs_status r' = rs_status r) /\
  (forall a s b, l = a ++ SStatus s :: b -> (forall s', ~ In (SStatus s') b) -> rs_status r' = s).
Proof.
  intros V.
  assert (A : forall (l : list (@scall V)) r, rs_common (sacts r l) = fst (acts (rs_common r) (sshared l)) /\ rs_trailers (sacts r l) = rs_trailers r /\
    rs_upgrade (sacts r l) = rs_upgrade r).
  { induction l as [|o l IH]; intros r; [repeat split; reflexivity|]. unfold sacts, sshared. cbn [fold_left flat_map]. destruct o as [s|o]; cbn [app].
    - apply (IH (set_status r s)).
    - destruct (IH (mkResponse (rs_status r) (fst (act (rs_common r) o)) (rs_trailers r) (rs_upgrade r))) as [H1 H2].
      split; [|exact H2]. unfold sacts in H1. rewrite H1. cbn [rs_common acts]. destruct (act (rs_common r) o) as [c' a]. cbn [fst].
      fold (sshared l). now destruct (acts c' (sshared l)). }
  assert (M : forall (l : list (@scall V)) r, (forall s, ~ In (SStatus s) l) -> rs_status (sacts r l) = rs_status r).
  { induction l as [|o l IH]; intros r N; [reflexivity|]. unfold sacts. cbn [fold_left]. destruct o as [s|o].
    - elim (N s). now left.
    - apply (IH (mkResponse _ _ _ _)). intros s I. apply (N s). now right. }
  intros l r r'. unfold r'. split; [apply A|]. split; [apply A|]. split; [apply A|]. split; [apply M|].
  intros a s b -> N. unfold sacts. rewrite fold_left_app. cbn [fold_left]. apply (M b (set_status _ s) N).
Qed.
Example C82_history_example :
  let r := racts (request_new (V := str) M_Get (mkUrl (lit "http://h") (Some (lit "h"))) 0) [RShared (CVersion (Some Http1_1)); RMethod M_Put; RMethod M_Post; RShared (CPeer (Some (lit "p")))] in
  (rq_method r, c_version (rq_common r), c_peer (rq_common r)) = (M_Post, Some Http1_1, Some (lit "p")) /\
  rs_status (sacts (response_of (V := str) S_Ok 0 1) [SStatus S_NotFound; SShared CTake; SStatus S_Created; SShared (CVersion None)]) = S_Created.
Proof. vm_compute. auto. Qed.
Print Assumptions C82_request_history.
Print Assumptions C82_response_history.

(** ** C91, C92 *)
(** A Date header compares equal to an instant exactly when that is the instant it names. *)
Theorem C91_date_equals : forall h vs v d t, h_get h (lit "date") = Some (vs ++ [v]) -> date_from_headers DateHeader h = Ok (Some d) ->
  (date_eqb d t = true <-> parse_http_date (trim v) = Ok t).
Proof.
  intros h vs v d t G R. unfold date_from_headers in R. change (date_name DateHeader) with (lit "date") in R. rewrite (with_last_snoc _ _ _ _ _ _ G) in R.
  assert (X : date_parse DateHeader v = Ok d) by (destruct (date_parse DateHeader v); [cbn [bind] in R; congruence|discriminate R|discriminate R]).
  assert (Y : parse_http_date (trim v) = Ok d).
  { unfold date_parse in X. unfold parse_http_date. destruct (date_from_str (trim v)); cbn [with_status bind] in X |- *; [now rewrite X|discriminate X|discriminate X]. }
  rewrite Y. unfold date_eqb. rewrite Z.eqb_eq. split; congruence.
Qed.
Example C91_date_equals_example :
  date_from_headers DateHeader [(lit "date", [lit "Sun, 06 Nov 1994 08:49:37 GMT"])] = Ok (Some 784111777000000000%Z) /\
  date_eqb 784111777000000000%Z 784111777000000000%Z = true /\ date_eqb 784111777000000000%Z 784111777000000001%Z = false.
Proof. vm_compute. auto. Qed.
Print Assumptions C91_date_equals.

(** Two media type proposals in the range are equal exactly when they propose the same type with the same weight. *)
Theorem C92_media_equal : forall a b, good_weight (mp_weight a) -> good_weight (mp_weight b) -> (media_eqb a b = true <-> a = b).
Proof.
  intros [m w] [m' w'] G H. unfold media_eqb. cbn [mp_type mp_weight] in *. rewrite andb_true_iff, mime_eqb_iff.
  assert (W : weight_eqb w w' = true <-> w = w').
  { destruct w as [w|], w' as [w'|]; cbn [weight_eqb]; try (split; congruence).
    destruct G as (v & -> & _), H as (v' & -> & _). unfold feq. cbn [fcmp]. destruct (N.compare_spec v v') as [->|C|C]; split; try congruence.
    - intros E. injection E as ->. lia.
    - intros E. injection E as ->. lia. }
  rewrite W. split; [intros [-> ->]; reflexivity|]. intros E. injection E as -> ->. auto.
Qed.
Theorem C92_proposal_equal : forall a b, good_weight (p_weight a) -> good_weight (p_weight b) -> (proposal_eqb a b = true <-> a = b).
Proof.
  intros [m w] [m' w'] G H. unfold proposal_eqb. cbn [p_coding p_weight] in *. rewrite andb_true_iff, coding_eqb_iff.
  assert (W : weight_eqb w w' = true <-> w = w').
  { destruct w as [w|], w' as [w'|]; cbn [weight_eqb]; try (split; congruence).
    destruct G as (v & -> & _), H as (v' & -> & _). unfold feq. cbn [fcmp]. destruct (N.compare_spec v v') as [->|C|C]; split; try congruence.
    - intros E. injection E as ->. lia.
    - intros E. injection E as ->. lia. }
  rewrite W. split; [intros [-> ->]; reflexivity|]. intros E. injection E as -> ->. auto.
Qed.
Example C92_equal_example :
  good_weight (milli 500) /\ media_eqb (MediaProposal MIME_JSON (milli 500)) (MediaProposal MIME_JSON (milli 500)) = true /\
  media_eqb (MediaProposal MIME_JSON (milli 500)) (MediaProposal MIME_JSON (milli 501)) = false /\
  media_eqb (MediaProposal MIME_JSON (milli 500)) (MediaProposal MIME_HTML (milli 500)) = false /\
  media_eqb (MediaProposal MIME_JSON (milli 500)) (MediaProposal MIME_JSON None) = false.
Proof. split; [|vm_compute; auto]. eexists. split; [vm_compute; reflexivity|]. vm_compute. discriminate. Qed.
Print Assumptions C92_media_equal.
Print Assumptions C92_proposal_equal.

(** ** C87 *)
(** The debugging text of an error is that of its cause, whatever the status and name. *)
Theorem C87_debug : forall V (display debug : N -> V -> str) t v (e : @err V), e_cause e = Cause t v ->
  err_debug (Printing display debug) e = debug t v /\
  (forall c, err_debug (Printing display debug) (err_assign_status e c) = debug t v) /\
  (forall n e', err_set_status e n = Some e' -> err_debug (Printing display debug) e' = debug t v).
Proof.
  intros V display debug t v e E. unfold err_debug, err_assign_status. cbn [e_cause by_debug]. rewrite E. split; [reflexivity|]. split; [reflexivity|].
  intros n e' S. unfold err_set_status in S. destruct (expect_status n); [|discriminate]. injection S as <-. cbn [e_cause]. now rewrite E.
Qed.
Example C87_debug_example :
  err_debug (Printing (fun _ s => s) (fun _ s => lit "!" ++ s)) (Error (Cause 1 (lit "boom")) S_NotFound None) = lit "!boom".
Proof. vm_compute. reflexivity. Qed.
Print Assumptions C87_debug.

(** ** C93 *)
(** The policy a server gets by default: a year, preloaded, the sub-domains left out; that is also what is read. *)
Theorem C93_hsts_default : forall h,
  h_get (hsts_apply h hsts_policy_default) (lit "strict-transport-security") = Some [lit "max-age=31536000;preload"] /\
  hsts_from_headers (hsts_apply h hsts_policy_default) = Ok (Some hsts_policy_default).
Proof.
  intros h. split.
  - unfold hsts_apply, apply_value. change STRICT_TRANSPORT_SECURITY with (lit "strict-transport-security"). unfold h_get, h_insert, to_header_values. cbn [fst].
    rewrite hm_get_insert_same. reflexivity.
  - apply C60_round_trip_iff; [vm_compute; discriminate|split; reflexivity].
Qed.
Print Assumptions C93_hsts_default.
