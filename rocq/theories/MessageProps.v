(** Properties C29, C31, C33, C34: setting bodies, cloning, extensions, statuses. *)
From Verif Require Import Base BaseFacts Method StatusCode EnumProps Headers HeadersFacts Mime MimeFacts Utf8 Body BodyFacts Message Channel.
From Coq Require Import ZifyBool ZifyNat ZifyN.

(** ** C29 Setting a body sets Content-Type only when absent. *)
Section Messages.
Context {V : Type}.

Theorem C29_content_type_kept_if_present : forall (c : common V) b vs,
  h_get (c_headers c) (lit "content-type") = Some vs ->
  c_headers (set_body c b) = c_headers c.
Proof. intros c b vs H. unfold set_body, replace_body, copy_content_type. cbn [snd with_body c_headers c_body]. change CONTENT_TYPE with (lit "content-type"). rewrite H. reflexivity. Qed.

Theorem C29_content_type_set_if_absent : forall (c : common V) b,
  h_get (c_headers c) (lit "content-type") = None ->
  h_get (c_headers (set_body c b)) (lit "content-type") = option_map (fun m => [mime_format m]) (body_mime b).
Proof.
  intros c b H. unfold set_body, replace_body, copy_content_type. cbn [snd with_body c_headers c_body].
  change CONTENT_TYPE with (lit "content-type"). rewrite H. destruct (body_mime b) as [m|]; [|exact H].
  unfold set_content_type, h_insert. cbn [to_header_values fst with_headers c_headers]. unfold h_get. apply hm_get_insert_same.
Qed.

Theorem C29_other_headers_kept : forall (c : common V) b n, n <> lit "content-type" ->
  h_get (c_headers (set_body c b)) n = h_get (c_headers c) n.
Proof.
  intros c b n N. unfold set_body, replace_body, copy_content_type. cbn [snd with_body c_headers c_body].
  destruct (h_get (c_headers c) CONTENT_TYPE); [reflexivity|]. destruct (body_mime b) as [m|]; [|reflexivity].
  unfold set_content_type, h_insert. cbn [to_header_values fst with_headers c_headers]. unfold h_get. apply hm_get_insert_other, N.
Qed.

(** The new body is in place, the old one is returned; everything else is as before. *)
Theorem C29_bodies_exchanged : forall (c : common V) b,
  fst (replace_body c b) = c_body c /\ c_body (snd (replace_body c b)) = b /\
  fst (swap_body c b) = c_body c /\ c_body (snd (swap_body c b)) = b /\
  fst (take_body c) = c_body c /\ c_body (snd (take_body c)) = body_empty /\
  c_version (set_body c b) = c_version c /\ c_ext (set_body c b) = c_ext c /\
  c_peer (set_body c b) = c_peer c /\ c_local (set_body c b) = c_local c.
Proof.
  intros c b. unfold set_body, swap_body, take_body, replace_body, copy_content_type.
  cbn [fst snd with_body c_headers c_body body_empty body_mime].
  destruct (h_get (c_headers c) CONTENT_TYPE); cbn; [repeat apply conj; reflexivity|].
  destruct (body_mime b); cbn; repeat apply conj; reflexivity.
Qed.

(** Reading it back: a message without Content-Type takes over the media type of its body. *)
Theorem C29_content_type_reads_back : forall (c : common V) b m,
  h_get (c_headers c) (lit "content-type") = None -> body_mime b = Some m -> good_mime m ->
  content_type (set_body c b) = Ok (Some m).
Proof.
  intros c b m H E G. unfold content_type. change CONTENT_TYPE with (lit "content-type").
  rewrite C29_content_type_set_if_absent by exact H. rewrite E. cbn [option_map]. unfold values_last. cbn [rev app bind].
  rewrite mime_round_trip by exact G. reflexivity.
Qed.

(** The last value decides, and what is no media type counts as nothing. *)
Theorem C29_content_type_read : forall (c : common V),
  (h_get (c_headers c) (lit "content-type") = None -> content_type c = Ok None) /\
  (forall vs v, h_get (c_headers c) (lit "content-type") = Some (vs ++ [v]) ->
    (forall m, content_type c = Ok (Some m) <-> mime_parse v = Ok m) /\ ((forall m, mime_parse v <> Ok m) -> content_type c = Ok None)).
Proof.
  intros c. unfold content_type. change CONTENT_TYPE with (lit "content-type"). split; [intros ->; reflexivity|]. intros vs v ->.
  unfold values_last. rewrite rev_app_distr. cbn [rev app bind]. destruct (mime_parse_good v) as [(m & -> & _)| ->].
  - split; [intros m'; split; congruence|]. intros N. elim (N m eq_refl).
  - split; [intros m; split; discriminate|]. reflexivity.
Qed.

(** body_string and body_bytes empty the message and return its content. *)
Theorem C29_body_taken : forall (c : common V) s caps, valid_str s = true -> nlen (utf8_encode s) <= 2 ^ 63 - 1 ->
  (length (utf8_encode s) < length caps)%nat ->
  let '(r, c') := body_string caps (set_body c (from_string s)) in
  r = Some (Ok s) /\ c_body c' = body_empty.
Proof.
  intros c s caps W L K. unfold body_string.
  destruct (take_body (set_body c (from_string s))) as [b c'] eqn:E.
  destruct (C29_bodies_exchanged (set_body c (from_string s)) body_empty) as (_ & _ & _ & _ & T1 & T2 & _).
  rewrite E in T1, T2. cbn [fst snd] in T1, T2. split; [|exact T2].
  destruct (C29_bodies_exchanged c (from_string s)) as (_ & S2 & _). unfold set_body in T1. rewrite S2 in T1. subst b.
  unfold into_string. cbn [body_len from_string]. replace (isize_max <? nlen (utf8_encode s)) with false by (unfold isize_max; lia).
  destruct (read_to_end_done caps (from_string s) [] (wf_from_string s)) as [r R].
  { rewrite rest_from_string. cbn [from_string waits waits_src]. rewrite stalls_chunk. lia. }
  rewrite R. apply (read_to_end_spec caps (from_string s)) in R; [|apply wf_from_string]. rewrite rest_from_string in R.
  destruct R as [->|[_ F]]; [|destruct F; exact (never_fails_chunk _)].
  cbn [option_map bind app]. rewrite utf8_decode_encode by exact W. reflexivity.
Qed.
End Messages.
Print Assumptions C29_content_type_kept_if_present.
Print Assumptions C29_content_type_set_if_absent.
Print Assumptions C29_other_headers_kept.
Print Assumptions C29_bodies_exchanged.
Print Assumptions C29_content_type_reads_back.
Print Assumptions C29_content_type_read.
Print Assumptions C29_body_taken.

Example C29_example :
  let c := set_body (common_new (V := str)) (from_string (lit "hello")) in
  let c' := set_body c (from_bytes [1; 2]) in
  (h_get (c_headers c) CONTENT_TYPE, c_headers c', content_type c', fst (take_body c'))
  = (Some [lit "text/plain;charset=utf-8"], c_headers c, Ok (Some MIME_PLAIN), from_bytes [1; 2]).
Proof. vm_compute. reflexivity. Qed.
Example C29_example_read :
  let c vs := with_headers (common_new (V := unit)) [(CONTENT_TYPE, vs)] in
  content_type (c [lit "text/html"; lit "nonsense"]) = Ok None /\ content_type (c [lit "nonsense"; lit "text/css;charset=utf-8"]) = Ok (Some MIME_CSS).
Proof. vm_compute. auto. Qed.
(** Taking the body of a message without Content-Type leaves one behind. *)
Example C29_example_take : h_get (c_headers (snd (take_body (common_new (V := str))))) CONTENT_TYPE = Some [lit "application/octet-stream"].
Proof. vm_compute. reflexivity. Qed.

(** ** C31 Cloning a message. *)
Theorem C31_request_clone : forall V (r : request V),
  let r' := request_clone r in
  rq_method r' = rq_method r /\ rq_url r' = rq_url r /\ c_headers (rq_common r') = c_headers (rq_common r) /\
  c_version (rq_common r') = c_version (rq_common r) /\ c_body (rq_common r') = body_empty /\
  c_peer (rq_common r') = c_peer (rq_common r) /\ c_local (rq_common r') = c_local (rq_common r) /\
  (forall t, ext_get (c_ext (rq_common r')) t = None) /\
  e_send (rq_trailers r') = None /\ e_recv (rq_trailers r') = None /\ e_flag (rq_trailers r') = false.
Proof. intros V r. cbn. repeat apply conj; reflexivity. Qed.
Print Assumptions C31_request_clone.

Theorem C31_response_clone_partial : forall V (r : response V),
  let r' := response_clone r in
  rs_status r' = rs_status r /\ c_headers (rs_common r') = c_headers (rs_common r) /\
  c_version (rs_common r') = c_version (rs_common r) /\ c_body (rs_common r') = body_empty /\
  c_peer (rs_common r') = c_peer (rs_common r) /\ c_local (rs_common r') = c_local (rs_common r) /\
  (forall t, ext_get (c_ext (rs_common r')) t = None) /\
  e_flag (rs_trailers r') = false /\ e_flag (rs_upgrade r') = false /\
  (** the clone holds the same channels as the original *)
  e_send (rs_trailers r') = e_send (rs_trailers r) /\ e_recv (rs_trailers r') = e_recv (rs_trailers r) /\
  e_send (rs_upgrade r') = e_send (rs_upgrade r) /\ e_recv (rs_upgrade r') = e_recv (rs_upgrade r).
Proof. intros V r. cbn. repeat apply conj; reflexivity. Qed.
Print Assumptions C31_response_clone_partial.

(** A response's trailers are consumed by the receiver of its clone: the original's own receiver waits
    and then reports the end without having seen them. *)
Theorem C31_response_clone_steals_trailers_refuted : exists ops t,
  map snd (snd (@Channel.run str false world0 ops)) =
  [Handle 1; Handle 2; Handle 3; Handle 4; Handle 5; Handle 6; Sent; Got t; Waiting; Done; Closed].
Proof.
  exists [NewMsg false; CloneMsg 1; TakeSender 1; TakeReceiver 1; TakeReceiver 2; StartSend 3 (lit "a"); PollSend 6; PollRecv 5;
          PollRecv 4; DropMsg 2; PollRecv 4], (lit "a"). reflexivity.
Qed.
Print Assumptions C31_response_clone_steals_trailers_refuted.

(** The clone of a request that never sent trailers cannot send any: send_trailers panics at once. *)
Theorem C31_request_clone_cannot_send_refuted : exists ops,
  map snd (snd (@Channel.run str false world0 ops)) = [Handle 1; Handle 2; Paniced; Paniced; Handle 5].
Proof. exists [NewMsg true; CloneMsg 1; TakeSender 2; TakeReceiver 2; TakeSender 1]. reflexivity. Qed.
Print Assumptions C31_request_clone_cannot_send_refuted.

Example C31_example :
  let r := mkRequest M_Post (mkUrl (lit "http://a.b/c") (Some (lit "a.b")))
             (set_body (common_new (V := str)) (from_string (lit "x"))) (mkEnds (Some 3%nat) None true) in
  (content_type (rq_common (request_clone r)), body_len (c_body (rq_common (request_clone r))), body_len (c_body (rq_common r)))
  = (Ok (Some MIME_PLAIN), Some 0, Some 1).
Proof. vm_compute. reflexivity. Qed.

(** ** C33 Extensions behave as a type-indexed map. *)
Section Ext.
Context {V : Type}.
Inductive ext_op := XInsert (t : N) (v : V) | XRemove (t : N) | XSet (t : N) (v : V) | XGet (t : N) | XContains (t : N) | XClear.
Inductive ext_res := XVal (o : option V) | XBool (b : bool) | XUnit.
Definition ext_step (e : extensions V) (o : ext_op) : extensions V * ext_res :=
  match o with
  | XInsert t v => let '(e', r) := ext_insert e t v in (e', XVal r)
  | XRemove t => let '(e', r) := ext_remove e t in (e', XVal r)
  | XSet t v => (ext_set e t v, XUnit)
  | XGet t => (e, XVal (ext_get e t))
  | XContains t => (e, XBool (ext_contains e t))
  | XClear => (ext_clear e, XUnit)
  end.
Fixpoint ext_run (e : extensions V) (l : list ext_op) : extensions V * list ext_res :=
  match l with
  | [] => (e, [])
  | o :: l' => let '(e', r) := ext_step e o in let '(e'', rs) := ext_run e' l' in (e'', r :: rs)
  end.

(** The specification: a function from types to values. *)
Definition tmap := N -> option V.
Definition tm_set (m : tmap) (t : N) (o : option V) : tmap := fun t' => if N.eq_dec t' t then o else m t'.
Definition tm_step (m : tmap) (o : ext_op) : tmap * ext_res :=
  match o with
  | XInsert t v => (tm_set m t (Some v), XVal (m t))
  | XRemove t => (tm_set m t None, XVal (m t))
  | XSet t v => (match m t with Some _ => tm_set m t (Some v) | None => m end, XUnit)
  | XGet t => (m, XVal (m t))
  | XContains t => (m, XBool (match m t with Some _ => true | None => false end))
  | XClear => (fun _ => None, XUnit)
  end.
Fixpoint tm_run (m : tmap) (l : list ext_op) : tmap * list ext_res :=
  match l with
  | [] => (m, [])
  | o :: l' => let '(m', r) := tm_step m o in let '(m'', rs) := tm_run m' l' in (m'', r :: rs)
  end.

Lemma map_find_in : forall A (m : list (N * A)) k v, map_find m k = Some v -> In (k, v) m.
Proof.
  induction m as [|[k' v'] m IH]; intros k v H; cbn [map_find] in H; [discriminate|].
  destruct (N.eqb_spec k' k) as [->|N]; [inv H; left; reflexivity|right; auto].
Qed.
Lemma map_find_none : forall A (m : list (N * A)) k, ~ In k (map fst m) -> map_find m k = None.
Proof.
  induction m as [|[k' v'] m IH]; intros k H; cbn [map_find map fst] in *; [reflexivity|].
  destruct (N.eqb_spec k' k) as [->|N]; [exfalso; apply H; left; reflexivity|]. apply IH. intros I. apply H. right. exact I.
Qed.
Lemma map_remove_in : forall A (m : list (N * A)) k p, In p (map_remove m k) -> In p m.
Proof.
  induction m as [|[k' v'] m IH]; intros k p H; cbn [map_remove] in H; [exact H|].
  destruct (k' =? k); [right; exact H|]. destruct H as [H|H]; [left; exact H|right; eapply IH; exact H].
Qed.
Lemma map_remove_fst : forall A (m : list (N * A)) k, NoDup (map fst m) ->
  NoDup (map fst (map_remove m k)) /\ ~ In k (map fst (map_remove m k)).
Proof.
  induction m as [|[k' v'] m IH]; intros k D; cbn [map_remove map fst] in *; [split; [constructor|auto]|].
  inv D. destruct (N.eqb_spec k' k) as [->|N]; [split; assumption|]. destruct (IH k H2) as [D1 D2]. cbn [map fst].
  split; [constructor; [|exact D1]|intros [E|E]; [congruence|auto]].
  intros I. apply in_map_iff in I as [p [E I]]. apply map_remove_in in I. apply H1. rewrite <- E. apply in_map, I.
Qed.
Lemma map_find_remove_other : forall A (m : list (N * A)) k j, j <> k -> map_find (map_remove m k) j = map_find m j.
Proof.
  induction m as [|[k' v'] m IH]; intros k j N; cbn [map_remove map_find]; [reflexivity|].
  destruct (N.eqb_spec k' k) as [->|E].
  - destruct (N.eqb_spec k j); [congruence|reflexivity].
  - cbn [map_find]. rewrite IH by exact N. reflexivity.
Qed.

Definition ext_ok (e : extensions V) : Prop :=
  match e with Some m => NoDup (map fst m) /\ forall k a, In (k, a) m -> fst a = k | None => True end.

Lemma ext_ok_insert : forall m t v, NoDup (map fst m) -> (forall k a, In (k, a) m -> fst a = k) ->
  ext_ok (Some (map_insert m t (t, v))).
Proof.
  intros m t v D K. cbn. destruct (map_remove_fst _ m t D) as [D1 D2]. split; [constructor; assumption|].
  intros k a [E|I]; [inv E; reflexivity|]. apply K. eapply map_remove_in, I.
Qed.
Lemma ext_get_found : forall (m : list (N * any V)) t a, (forall k a, In (k, a) m -> fst a = k) -> map_find m t = Some a -> downcast t a = Some (snd a).
Proof. intros m t a K F. apply map_find_in in F. apply K in F. unfold downcast. rewrite F, N.eqb_refl. reflexivity. Qed.
Lemma find_insert : forall (m : list (N * any V)) t v t', obind (map_find (map_insert m t (t, v)) t') (downcast t')
  = if N.eq_dec t' t then Some v else obind (map_find m t') (downcast t').
Proof.
  intros m t v t'. unfold map_insert. cbn [map_find]. destruct (N.eqb_spec t t') as [->|N].
  - cbn. unfold downcast. cbn. rewrite N.eqb_refl. destruct (N.eq_dec t' t'); [reflexivity|congruence].
  - destruct (N.eq_dec t' t); [congruence|]. rewrite map_find_remove_other by congruence. reflexivity.
Qed.

Lemma ext_step_ok : forall e m o, ext_ok e -> (forall t, ext_get e t = m t) ->
  ext_ok (fst (ext_step e o)) /\ (forall t, ext_get (fst (ext_step e o)) t = fst (tm_step m o) t) /\
  snd (ext_step e o) = snd (tm_step m o).
Proof.
  intros e m o K R. destruct o as [t v|t|t v|t|t|]; cbn [ext_step tm_step].
  - unfold ext_insert. cbn [fst snd]. split; [|split].
    + destruct e as [l|]; [apply ext_ok_insert; apply K|apply (ext_ok_insert []); [constructor|intros ? ? []]].
    + intros t'. unfold ext_get. cbn [obind]. rewrite find_insert. unfold tm_set. destruct (N.eq_dec t' t); [reflexivity|].
      rewrite <- R. destruct e; reflexivity.
    + rewrite <- R. destruct e; reflexivity.
  - unfold ext_remove. destruct e as [l|]; cbn [fst snd].
    + destruct K as [D K]. destruct (map_remove_fst _ l t D) as [D1 D2]. split; [|split].
      * split; [exact D1|]. intros k a I. apply K. eapply map_remove_in, I.
      * intros t'. unfold ext_get, tm_set. cbn [obind]. destruct (N.eq_dec t' t) as [->|N].
        -- rewrite map_find_none by exact D2. reflexivity.
        -- rewrite map_find_remove_other by exact N. rewrite <- R. reflexivity.
      * rewrite <- R. reflexivity.
    + split; [exact I|]. split; [|rewrite <- R; reflexivity]. intros t'. unfold tm_set. rewrite <- R. destruct (N.eq_dec t' t); reflexivity.
  - cbn [fst snd]. rewrite <- R. unfold ext_set, ext_get. destruct e as [l|]; cbn [obind].
    + destruct (obind (map_find l t) (downcast t)) as [old|] eqn:F.
      * split; [apply ext_ok_insert; apply K|]. split; [|reflexivity]. intros t'. cbn [obind]. rewrite find_insert. unfold tm_set.
        destruct (N.eq_dec t' t); [reflexivity|]. rewrite <- R. reflexivity.
      * split; [exact K|]. split; [exact R|reflexivity].
    + split; [exact I|]. split; [exact R|reflexivity].
  - cbn [fst snd]. rewrite R. auto.
  - cbn [fst snd]. split; [exact K|]. split; [exact R|]. rewrite <- R. unfold ext_contains, ext_get. destruct e as [l|]; [|reflexivity]. cbn [obind].
    destruct (map_find l t) as [a|] eqn:F; [|reflexivity]. cbn [obind]. destruct K as [_ K]. rewrite (ext_get_found l t a K F). reflexivity.
  - cbn. repeat apply conj; auto.
Qed.

Theorem C33_extensions_refine_type_map : forall l,
  snd (ext_run ext_new l) = snd (tm_run (fun _ => None) l) /\
  forall t, ext_get (fst (ext_run ext_new l)) t = fst (tm_run (fun _ => None) l) t.
Proof.
  intros l.
  assert (G : forall l e m, ext_ok e -> (forall t, ext_get e t = m t) ->
     snd (ext_run e l) = snd (tm_run m l) /\ forall t, ext_get (fst (ext_run e l)) t = fst (tm_run m l) t).
  { clear l. induction l as [|o l IH]; intros e m K R; cbn [ext_run tm_run]; [auto|].
    destruct (ext_step_ok e m o K R) as (K' & R' & E). destruct (ext_step e o) as [e' r], (tm_step m o) as [m' r']. cbn [fst snd] in *.
    destruct (IH e' m' K' R') as [A B]. destruct (ext_run e' l), (tm_run m' l). cbn [fst snd] in *. subst. auto. }
  apply G; [exact I|reflexivity].
Qed.
End Ext.
Print Assumptions C33_extensions_refine_type_map.

Example C33_example :
  snd (ext_run ext_new [XInsert 1 (lit "a"); XInsert 2 (lit "b"); XInsert 1 (lit "c"); XGet 1; XSet 2 (lit "d"); XRemove 2; XContains 2; XGet 1; XClear; XGet 1])
  = [XVal None; XVal None; XVal (Some (lit "a")); XVal (Some (lit "c")); XUnit; XVal (Some (lit "d")); XBool false; XVal (Some (lit "c")); XUnit; XVal None].
Proof. reflexivity. Qed.

(** ** C34 Errors carry the status they were given. *)
(** A valid status number ends up in the error, with the original error inside. *)
Theorem C34_failure_carries_status : forall T E (e : E) n c (f : unit -> option N),
  code_try_from n = Ok c -> f tt = Some n ->
  @status_std T E (inr e) n = RErr (c, e) /\ @with_status_std T E (inr e) f = RErr (c, e) /\
  @status_opt T None n = RErr (c, lit "NoneError") /\ @with_status_opt T None f = RErr (c, lit "NoneError") /\
  (forall c0, @status_err T E (RErr (c0, e)) n = RErr (c, e) /\ @with_status_err T E (RErr (c0, e)) f = RErr (c, e)) /\
  code_u16 c = n.
Proof.
  intros T E e n c f C F. unfold status_std, with_status_std, status_opt, with_status_opt, status_err, with_status_err, error_set_status, error_new, expect_status.
  rewrite F, C. cbn. repeat apply conj; auto. apply code_try_from_inv in C. symmetry. exact C.
Qed.
Print Assumptions C34_failure_carries_status.

(** Successes pass through whatever the status, even an invalid one, and without calling the closure. *)
Theorem C34_success_untouched : forall T E (t : T) n (f : unit -> option N),
  @status_std T E (inl t) n = ROk t /\ @with_status_std T E (inl t) f = ROk t /\
  status_opt (Some t) n = ROk t /\ with_status_opt (Some t) f = ROk t /\
  @status_err T E (ROk t) n = ROk t /\ @with_status_err T E (ROk t) f = ROk t.
Proof. intros. repeat apply conj; reflexivity. Qed.
Print Assumptions C34_success_untouched.

(** An invalid status panics, exactly on failure. *)
Theorem C34_invalid_status_panics : forall T E (e : E) n, (forall c, code_u16 c <> n) ->
  @status_std T E (inr e) n = RPanic /\ @status_opt T None n = RPanic /\ forall c, @status_err T E (RErr (c, e)) n = RPanic.
Proof.
  intros T E e n H. unfold status_std, status_opt, status_err, error_set_status, error_new, expect_status.
  assert (K : forall c, code_try_from n <> Ok c) by (intros c K; apply code_try_from_inv in K; symmetry in K; exact (H c K)).
  destruct (code_try_from n) as [c| |]; [destruct (K c eq_refl)| |]; repeat apply conj; reflexivity.
Qed.
Print Assumptions C34_invalid_status_panics.

(** Through a closure: a failure panics exactly if the closure panics or gives an invalid status. *)
Theorem C34_closures_panic : forall T E (e : E) c0 (f : unit -> option N),
  let bad := forall c, f tt <> Some (code_u16 c) in
  (@with_status_std T E (inr e) f = RPanic <-> bad) /\ (@with_status_opt T None f = RPanic <-> bad) /\ (@with_status_err T E (RErr (c0, e)) f = RPanic <-> bad).
Proof.
  intros T E e c0 f bad. unfold bad, with_status_std, with_status_opt, with_status_err, error_set_status, error_new, expect_status. cbn [snd].
  destruct (f tt) as [n|].
  - assert (K : (forall c, Some n <> Some (code_u16 c)) <-> forall c, code_try_from n <> Ok c).
    { split; intros H c X.
      - apply code_try_from_inv in X. exact (H c (f_equal Some X)).
      - injection X as ->. apply (H c). destruct c; reflexivity. }
    rewrite K. destruct (code_try_from n) as [c| |]; refine (conj _ (conj _ _)); (split; [intros X; try discriminate X; intros d Y; discriminate Y|intros X; try reflexivity; destruct (X c eq_refl)]).
  - refine (conj _ (conj _ _)); (split; [intros _ c X; discriminate X|reflexivity]).
Qed.
Print Assumptions C34_closures_panic.

(** A chain of valid statuses: the last one wins. *)
Theorem C34_last_status_wins : forall T E (e : E) ns n c,
  (forall k, In k ns -> exists d, code_try_from k = Ok d) -> code_try_from n = Ok c ->
  fold_left (@status_err T E) (ns ++ [n]) (RErr (error_from e)) = RErr (c, e).
Proof.
  intros T E e ns n c V C. rewrite fold_left_app. cbn [fold_left].
  assert (G : forall ns d, (forall k, In k ns -> exists d, code_try_from k = Ok d) ->
     exists d', fold_left (@status_err T E) ns (RErr (d, e)) = RErr (d', e)).
  { induction ns0 as [|k ks IH]; intros d W; cbn [fold_left]; [eauto|]. destruct (W k (or_introl eq_refl)) as [d' D].
    cbn [status_err]. unfold error_set_status, error_new, expect_status. rewrite D. cbn [snd]. apply IH. intros j J. apply W. right. exact J. }
  destruct (G ns S_InternalServerError V) as [d G']. unfold error_from. rewrite G'. cbn. unfold error_set_status, error_new, expect_status. rewrite C. reflexivity.
Qed.
Print Assumptions C34_last_status_wins.

Theorem C34_std_error_is_500 : forall E (e : E), code_u16 (fst (error_from e)) = 500 /\ snd (error_from e) = e.
Proof. intros. split; reflexivity. Qed.
Print Assumptions C34_std_error_is_500.

Example C34_example :
  status_err (status_std (T := N) (inr (lit "disk")) 404) 503 = RErr (S_ServiceUnavailable, lit "disk") /\
  with_status_opt (Some 7) (fun _ => None) = ROk 7 /\ status_std (E := str) (inl 7) 600 = ROk 7 /\
  status_std (T := N) (inr (lit "disk")) 600 = RPanic /\ with_status_std (T := N) (inr (lit "disk")) (fun _ => None) = RPanic.
Proof. repeat apply conj; reflexivity. Qed.
