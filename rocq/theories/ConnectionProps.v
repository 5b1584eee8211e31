(** C113: messages that follow each other on one connection.  Each has a Content-Length header; its body is made with [Body::from_reader] from
    what is left of the connection and the length, and read to its end.  Nothing of one message gets into the next. *)
From Verif Require Import Base BaseFacts Headers HeadersFacts Utf8 Mime MimeFacts Body BodyFacts BodyProps Typed TypedFacts Method Message MessageProps Other OtherProps
  Hyperium HyperiumProps LastProps TripProps.
From Coq Require Import ZifyBool ZifyNat ZifyN.

(** The receiver: for each message's headers, the length is taken from them, the body is polled with buffers of any (positive) sizes until it
    reports its end, and what is left of the connection is for the next message.  [got] are the contents received. *)
Inductive received : list headers -> list event -> list (list N) -> list event -> Prop :=
| received_none : forall evs, received [] evs [] evs
| received_one : forall h hs evs n caps rs m l k evs' got left,
    length_from_headers h = Ok (Some n) ->
    reads (from_reader evs (Some n)) (map S caps) = (rs, Body (Stream evs') m l k) -> In (Ready []) rs ->
    received hs evs' got left -> received (h :: hs) evs (delivered rs :: got) left.

Lemma stream_reads : forall caps evs m len k rs b', reads (Body (Stream evs) m len k) caps = (rs, b') ->
  exists evs' k', b' = Body (Stream evs') m len k' /\ script_data evs = delivered rs ++ script_data evs' /\ (never_fails evs -> never_fails evs').
Proof.
  induction caps as [|c caps IH]; intros evs m len k rs b' R; cbn [reads] in R.
  - inv R. exists evs, k. auto.
  - destruct (poll_read (Body (Stream evs) m len k) c) as [r b1] eqn:P. destruct (reads b1 caps) as [rs1 b2] eqn:Q. inv R.
    assert (S : exists evs1 k1, b1 = Body (Stream evs1) m len k1 /\ script_data evs = bytes_of r ++ script_data evs1 /\ (never_fails evs -> never_fails evs1)).
    { cbn [poll_read] in P. destruct (limit_buf len k c) as [x|cap'] eqn:L.
      - inv P. exists evs, k. split; [reflexivity|]. split; [|auto]. unfold limit_buf in L. destruct len as [n|]; [|discriminate L]. destruct (n =? k); [inv L; reflexivity|]. destruct (n <? k); inv L. reflexivity.
      - cbn [src_read] in P. destruct (stream_read evs cap') as [x evs1] eqn:T. destruct (stream_read_spec _ _ _ _ T) as [F D].
        rewrite !script_data_data. destruct x as [|bs|e|]; inv P; cbn [bytes_of app]; eexists _, _; split; try reflexivity; rewrite ?script_data_data; (split; [|exact F]).
        + symmetry. apply D.
        + apply D.
        + symmetry. apply D.
        + destruct D. }
    destruct S as (evs1 & k1 & -> & D & F). destruct (IH _ _ _ _ _ _ Q) as (evs' & k' & -> & D' & F').
    exists evs', k'. split; [reflexivity|]. split; [|auto]. rewrite D, D', app_assoc. f_equal. destruct r; reflexivity.
Qed.

Lemma delivered_firstn : forall i rs, exists more, delivered rs = delivered (firstn i rs) ++ more.
Proof.
  induction i as [|i IH]; intros rs; [exists (delivered rs); reflexivity|]. destruct rs as [|r rs]; [exists []; reflexivity|].
  destruct (IH rs) as [more E]. exists more. cbn [firstn]. destruct r; cbn [delivered]; rewrite E; rewrite ?app_assoc; reflexivity.
Qed.

Lemma reads_length : forall caps b, length (fst (reads b caps)) = length caps.
Proof.
  induction caps as [|c caps IH]; intros b; [reflexivity|]. cbn [reads]. destruct (poll_read b c) as [r b1]. specialize (IH b1). destruct (reads b1 caps) as [rs b2]. cbn in *. now rewrite IH.
Qed.

(** One body read to its end. *)
Lemma one_message : forall evs n caps rs b', reads (from_reader evs (Some n)) (map S caps) = (rs, b') -> In (Ready []) rs ->
  delivered rs = firstn (N.to_nat n) (script_data evs).
Proof.
  intros evs n caps rs b' R I. apply In_nth_error in I as [i E].
  assert (H := holds_reader evs (Some n)). cbn [at_most] in H.
  assert (L : (i < length caps)%nat).
  { assert (X := reads_length (map S caps) (from_reader evs (Some n))). rewrite R, map_length in X. cbn [fst] in X. rewrite <- X. apply nth_error_Some. congruence. }
  destruct (nth_error caps i) as [c|] eqn:C; [|apply nth_error_None in C; lia].
  assert (A := C24_eof_means_everything _ _ _ _ _ i c H R ltac:(rewrite nth_error_map, C; reflexivity) E).
  destruct (C24_reads_deliver_content _ _ _ _ _ H R) as (left & B & _). destruct (delivered_firstn i rs) as [more D].
  rewrite D, A in B. rewrite D, A. clear - B. assert (Z : length more = O).
  { apply (f_equal (@length N)) in B. rewrite !app_length in B. lia. }
  destruct more; [apply app_nil_r|discriminate Z].
Qed.

(** The data of the connection, cut into pieces of the given lengths. *)
Fixpoint slices (ns : list N) (d : list N) : list (list N) :=
  match ns with [] => [] | n :: ns' => firstn (N.to_nat n) d :: slices ns' (skipn (N.to_nat n) d) end.

(** What is received depends on the data and the lengths only: not on how the data arrives in chunks, on waiting, on errors that the reader
    recovers from, or on the buffers. *)
Theorem C113_cut : forall hs ns evs got left, Forall2 (fun h n => length_from_headers h = Ok (Some n)) hs ns ->
  received hs evs got left -> got = slices ns (script_data evs) /\ script_data evs = concat got ++ script_data left.
Proof.
  intros hs ns evs got left F R. revert ns F. induction R as [evs|h hs evs n caps rs m l k evs' got left L E I R IH]; intros ns F; inversion F as [|? n' ? ns' Hn F' X Y]; subst; clear F.
  - auto.
  - rewrite L in Hn. injection Hn as <-. destruct (IH _ F') as [-> D]. clear IH.
    assert (O := one_message _ _ _ _ _ E I). destruct (stream_reads _ _ _ _ _ _ _ E) as (e2 & k2 & Eb & S & _). injection Eb as <- _ _ _.
    cbn [slices concat]. rewrite O in *. assert (Q : script_data evs' = skipn (N.to_nat n) (script_data evs)).
    { apply (app_inv_head (firstn (N.to_nat n) (script_data evs))). rewrite <- S. symmetry. apply firstn_skipn. }
    rewrite Q in *. split; [reflexivity|]. rewrite <- app_assoc, <- D. symmetry. apply firstn_skipn.
Qed.

(** And it is received, whatever the connection does, if it is polled long enough. *)
Theorem C113_progress : forall hs evs, (forall h, In h hs -> exists n, length_from_headers h = Ok (Some n)) -> exists got left, received hs evs got left.
Proof.
  induction hs as [|h hs IH]; intros evs H; [exists [], evs; constructor|].
  destruct (H h (or_introl eq_refl)) as [n L].
  set (caps := repeat O (S (length (at_most (Some n) (script_data evs)) + stalls evs))).
  destruct (reads (from_reader evs (Some n)) (map S caps)) as [rs b'] eqn:R.
  destruct (stream_reads _ _ _ _ _ _ _ R) as (evs' & k' & -> & _ & _).
  destruct (IH evs' (fun g I => H g (or_intror I))) as (got & left & G).
  exists (delivered rs :: got), left. eapply received_one; eauto.
  destruct (C24_eof_is_reached evs (Some n) caps rs _ R) as [i E]; [unfold caps; rewrite repeat_length; lia|]. eapply nth_error_In, E.
Qed.

(** Senders that write the length of what they send are understood: each content arrives whole, and the rest of the connection is untouched. *)
Theorem C113_messages : forall cs hs evs more got left, Forall2 (fun c h => exists h0, h = length_apply h0 (nlen c)) cs hs -> Forall (fun c => nlen c <= u64_max) cs ->
  script_data evs = concat cs ++ more -> received hs evs got left -> got = cs /\ script_data left = more.
Proof.
  intros cs hs evs more got left W B D R.
  assert (F : Forall2 (fun h n => length_from_headers h = Ok (Some n)) hs (map nlen cs)).
  { clear - W B. induction W as [|c h cs hs (h0 & ->) W IH]; cbn [map]; [constructor|]. inv B. constructor; [now apply C55_round_trip|auto]. }
  destruct (C113_cut _ _ _ _ _ F R) as [-> E]. clear F R W B.
  assert (S : slices (map nlen cs) (concat cs ++ more) = cs).
  { clear. induction cs as [|c cs IH]; [reflexivity|]. cbn [map slices concat]. assert (X : N.to_nat (nlen c) = length c) by (unfold nlen; lia). rewrite X, <- app_assoc, firstn_app, skipn_app, firstn_all, skipn_all, Nat.sub_diag, firstn_O, skipn_O, app_nil_r. cbn [app]. now rewrite IH. }
  rewrite D in *. rewrite S in *. split; [reflexivity|]. now apply app_inv_head in E.
Qed.

(** A message cut short: less than the declared length is received exactly when the connection held less; it is not an error. *)
Theorem C113_short : forall h n evs c left, length_from_headers h = Ok (Some n) -> received [h] evs [c] left ->
  (nlen c < n <-> nlen (script_data evs) < n) /\ (nlen c < n -> c = script_data evs).
Proof.
  intros h n evs c left L R. destruct (C113_cut [h] [n] evs [c] left) as [E _]; auto. cbn [slices] in E. injection E as ->.
  unfold nlen. rewrite firstn_length. split; [lia|]. intros X. apply firstn_all2. lia.
Qed.
Theorem C113_short_refuted : exists evs n caps bs, into_bytes caps (from_reader evs (Some n)) = Some (Ok bs) /\ never_fails evs /\ nlen bs < n.
Proof.
  exists [EData 1 [2]], 5, [9; 9]%nat, [1; 2]. split; [reflexivity|]. split; [|reflexivity]. intros e [X|[]]. discriminate X.
Qed.
(** Read through AsyncBufRead, a body runs over its end and takes the next message. *)
Theorem C113_buffered_refuted : exists c1 c2 rs b', buf_reads (from_reader (chunk (c1 ++ c2)) (Some (nlen c1))) [9; 9]%nat = (rs, b') /\ c2 <> [] /\ delivered rs = c1 ++ c2.
Proof. exists [1; 2], [3; 4]. eexists _, _. split; [vm_compute; reflexivity|]. split; [discriminate|vm_compute; reflexivity]. Qed.

(** Two Content-Length headers: before and after the http crate the message has different ends, so that what is content for one is the next
    message for the other. *)
Definition two_lengths : headers := [(lit "content-length", [lit "2"; lit "5"])].
Theorem C113_two_lengths_refuted : exists (r r' : request unit) evs got got' left left', proper (c_headers (rq_common r)) /\
  request_trip toy_name Some (fun _ => Some toy_url) r r' /\
  received [c_headers (rq_common r)] evs got left /\ received [c_headers (rq_common r')] evs got' left' /\ got <> got' /\ script_data left <> script_data left'.
Proof.
  exists (toy_request two_lengths). eexists. exists [EData 1 [2; 3; 4; 5]], [[1; 2; 3; 4; 5]], [[1; 2]], [], [EData 3 [4; 5]].
  split; [|split; [eexists; exists 0%nat; split; [vm_compute; reflexivity|vm_compute; reflexivity]|]].
  - split; [repeat constructor; cbn; intuition discriminate|]. intros n vs [E|[]]; injection E as <- <-; reflexivity.
  - split; [|split; [|split; discriminate]].
    + eapply (received_one _ [] _ 5 [9; 9]%nat [Ready [1; 2; 3; 4; 5]; Ready []]); [vm_compute; reflexivity|vm_compute; reflexivity|right; now left|constructor].
    + eapply (received_one _ [] _ 2 [9; 9]%nat [Ready [1; 2]; Ready []]); [vm_compute; reflexivity|vm_compute; reflexivity|right; now left|constructor].
Qed.

(** A whole message with a text: the receiver puts the body it makes into a message with the headers that were sent, and reads it as a string. *)
Theorem C113_text : forall V (c d : common V) s evs more n caps r c', valid_str s = true -> nlen (utf8_encode s) <= 2 ^ 63 - 1 ->
  h_get (c_headers c) (lit "content-type") = None ->
  let sent := length_apply (c_headers (set_body c (from_string s))) (nlen (utf8_encode s)) in
  length_from_headers sent = Ok (Some n) -> script_data evs = utf8_encode s ++ more -> never_fails evs ->
  let arrived := set_body (with_headers d sent) (from_reader evs (Some n)) in
  body_string caps arrived = (Some r, c') -> r = Ok s /\ content_type arrived = Ok (Some MIME_PLAIN).
Proof.
  intros V c d s evs more n caps r c' VS B NT sent L D NF arrived R.
  assert (U : nlen (utf8_encode s) <= u64_max) by (unfold u64_max; change (2 ^ 63 - 1) with 9223372036854775807 in B; lia).
  unfold sent in L. rewrite C55_round_trip in L by exact U. injection L as <-.
  assert (CT : h_get sent (lit "content-type") = Some [mime_format MIME_PLAIN]).
  { unfold sent, length_apply. rewrite get_apply_other by discriminate. rewrite C29_content_type_set_if_absent by exact NT. reflexivity. }
  assert (KH : c_headers arrived = sent) by (apply (C29_content_type_kept_if_present (with_headers d sent) _ _ CT)).
  split.
  - unfold body_string in R. destruct (take_body arrived) as [b c2] eqn:T. injection R as R _.
    assert (b = from_reader evs (Some (nlen (utf8_encode s)))) as ->.
    { apply (f_equal fst) in T. cbn [fst] in T. rewrite <- T. unfold arrived.
      destruct (C29_bodies_exchanged (set_body (with_headers d sent) (from_reader evs (Some (nlen (utf8_encode s))))) body_empty) as (_ & _ & _ & _ & X & _). rewrite X.
      apply (C29_bodies_exchanged (with_headers d sent) (from_reader evs (Some (nlen (utf8_encode s))))). }
    unfold into_string in R. cbn [body_len from_reader] in R. rewrite usize_ok in R by exact B.
    destruct (read_to_end caps (from_reader evs (Some (nlen (utf8_encode s)))) []) as [x|] eqn:E; [|discriminate R].
    apply read_to_end_spec in E; [|apply wf_from_reader].
    assert (RS : rest (from_reader evs (Some (nlen (utf8_encode s)))) = utf8_encode s).
    { destruct (holds_rest _ _ (holds_reader evs (Some (nlen (utf8_encode s))))) as [_ X]. rewrite X. cbn [at_most]. rewrite D. unfold nlen. rewrite Nat2N.id, firstn_app, firstn_all, Nat.sub_diag, firstn_O. apply app_nil_r. }
    rewrite RS in E. destruct E as [->|[_ E]]; [|elim E; exact NF]. cbn [option_map bind app] in R. rewrite utf8_decode_encode in R by exact VS. cbn in R. injection R as <-. reflexivity.
  - destruct (C29_content_type_read arrived) as [_ X]. rewrite KH in X. apply (X [] _ CT). vm_compute. reflexivity.
Qed.

(** Three messages of which the second is empty, arriving in odd chunks with waits. *)
Example C113_example :
  let evs := [EPending; EData 1 []; EData 2 [3; 7]; EPending; EData 8 [9; 10]] in
  let hs := [length_apply [] 3; length_apply [] 0; length_apply [] 4] in
  received hs evs [[1; 2; 3]; []; [7; 8; 9; 10]] [] /\ script_data evs = concat [[1; 2; 3]; []; [7; 8; 9; 10]] ++ [].
Proof.
  cbv zeta. split; [|reflexivity].
  eapply (received_one _ _ _ 3 [4; 4; 4; 4]%nat [Pending; Ready [1]; Ready [2; 3]; Ready []]); [vm_compute; reflexivity|vm_compute; reflexivity|cbn; auto 10|].
  eapply (received_one _ _ _ 0 [0]%nat [Ready []]); [vm_compute; reflexivity|vm_compute; reflexivity|cbn; auto 10|].
  eapply (received_one _ _ _ 4 [0; 9; 9; 9]%nat [Ready [7]; Pending; Ready [8; 9; 10]; Ready []]); [vm_compute; reflexivity|vm_compute; reflexivity|cbn; auto 10|].
  constructor.
Qed.
Example C113_text_example :
  let s := [104; 233; 8364] in
  let sent := length_apply (c_headers (set_body (V := unit) common_new (from_string s))) (nlen (utf8_encode s)) in
  let evs := [EData 104 [195]; EPending; EData 169 [226; 130; 172; 1; 1]] in
  valid_str s = true /\ length_from_headers sent = Ok (Some 6) /\ script_data evs = utf8_encode s ++ [1; 1] /\ never_fails evs /\
  fst (body_string [0; 0; 0; 0; 0; 0; 0; 0]%nat (set_body (with_headers (V := unit) common_new sent) (from_reader evs (Some 6)))) = Some (Ok s).
Proof. cbv zeta. repeat split; try (vm_compute; reflexivity). intros e [X|[X|[X|[]]]]; discriminate X. Qed.
Print Assumptions C113_cut.
Print Assumptions C113_progress.
Print Assumptions C113_messages.
Print Assumptions C113_short.
Print Assumptions C113_short_refuted.
Print Assumptions C113_buffered_refuted.
Print Assumptions C113_two_lengths_refuted.
Print Assumptions C113_text.
