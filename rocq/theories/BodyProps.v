(** Properties C24-C28: message bodies. *)
From Verif Require Import Base BaseFacts Utf8 Mime Body BodyFacts.
From Coq Require Import ZifyBool ZifyNat ZifyN.

(** ** Specification: which bytes a body built and used in some way still has to deliver. *)
Fixpoint script_data (evs : list event) : list N :=
  match evs with
  | [] => []
  | EData b bs :: evs' => b :: bs ++ script_data evs'
  | _ :: evs' => script_data evs'
  end.
Definition at_most (len : option N) (c : list N) : list N :=
  match len with Some l => firstn (N.to_nat l) c | None => c end.
Definition bytes_of (r : poll (list N)) : list N := match r with Ready bs => bs | _ => [] end.

Inductive holds : body -> list N -> Prop :=
| holds_reader : forall evs len, holds (from_reader evs len) (at_most len (script_data evs))
| holds_empty : holds body_empty []
| holds_bytes : forall bs, holds (from_bytes bs) bs
| holds_string : forall s, holds (from_string s) (utf8_encode s)
| holds_json : forall bs, holds (from_json_bytes bs) bs
| holds_form : forall s, holds (from_form_text s) (utf8_encode s)
| holds_mime : forall b c m, holds b c -> holds (set_mime m b) c
| holds_chain : forall b1 c1 b2 c2 b, holds b1 c1 -> holds b2 c2 -> chain b1 b2 = Ok b -> holds b (c1 ++ c2)
| holds_read : forall b c cap r b', holds b c -> poll_read b cap = (r, b') ->
    holds b' (skipn (length (bytes_of r)) c).

Lemma script_data_data : forall evs, script_data evs = data evs.
Proof. induction evs as [|[| |b bs] evs IH]; cbn; rewrite ?IH; reflexivity. Qed.

Lemma rest_bound : forall b l, body_len b = Some l -> (length (rest b) <= N.to_nat (l - body_read b))%nat.
Proof. intros [s m l' r] l E. cbn in *. subst l'. cbn [limit]. rewrite firstn_length. lia. Qed.

Lemma chain_rest : forall b1 b2 b, wf b1 -> wf b2 -> chain b1 b2 = Ok b -> rest b = rest b1 ++ rest b2.
Proof.
  intros b1 b2 b W1 W2 H. unfold chain in H.
  destruct (body_len b1) as [l1|] eqn:E1; [destruct (body_len b2) as [l2|] eqn:E2|].
  - destruct ((l1 <? body_read b1) || (l2 <? body_read b2)) eqn:U; [discriminate|]. inv H.
    cbn [rest rest_src]. destruct (_ <=? u64_max); [|reflexivity]. cbn [limit].
    apply rest_bound in E1. apply rest_bound in E2. apply firstn_all2. rewrite app_length. lia.
  - inv H. reflexivity.
  - inv H. reflexivity.
Qed.

Lemma holds_rest : forall b c, holds b c -> wf b /\ rest b = c.
Proof.
  induction 1.
  - split; [apply wf_from_reader|]. rewrite script_data_data. unfold from_reader. cbn [rest rest_src].
    destruct len as [l|]; [cbn; rewrite N.sub_0_r|]; reflexivity.
  - split; [apply wf_empty|reflexivity].
  - split; [apply wf_from_bytes|apply rest_from_bytes].
  - split; [apply wf_from_string|apply rest_from_string].
  - split; [apply (wf_from_bytes bs)|apply (rest_from_bytes bs)].
  - split; [apply (wf_from_string s)|apply (rest_from_string s)].
  - destruct b as [s m' l r]. exact IHholds.
  - destruct IHholds1 as [W1 R1], IHholds2 as [W2 R2]. destruct (chain_ok b1 b2 W1 W2) as (b' & E & W & _).
    rewrite H1 in E. inv E. split; [exact W|]. apply chain_rest; assumption.
  - destruct IHholds as [W R]. apply poll_read_post in H0; [|exact W]. destruct H0 as (P1 & P2 & P3 & P4 & P5).
    split; [exact P1|]. subst c. destruct r as [|bs|e|]; cbn [bytes_of length skipn].
    + apply P5.
    + destruct P5 as (-> & _). rewrite skipn_app, skipn_all, Nat.sub_diag. reflexivity.
    + apply P5.
    + contradiction.
Qed.

(** ** C24 Reading a body yields its content. *)
(** The results of the first [i] polls. *)
Lemma reads_firstn : forall caps b rs b' i, reads b caps = (rs, b') ->
  exists bi, reads b (firstn i caps) = (firstn i rs, bi) /\
    (forall c, nth_error caps i = Some c -> nth_error rs i = Some (fst (poll_read bi c))).
Proof.
  induction caps as [|c cs IH]; intros b rs b' i H; cbn [reads] in H.
  - inv H. exists b'. destruct i; cbn; split; auto; discriminate.
  - destruct (poll_read b c) as [r b1] eqn:P. destruct (reads b1 cs) as [rs1 b2] eqn:Q. inv H.
    destruct i as [|i]; cbn [firstn reads nth_error].
    + exists b. split; [reflexivity|]. intros c' E. inv E. rewrite P. reflexivity.
    + destruct (IH _ _ _ i Q) as (bi & A & B). exists bi. rewrite P, A. split; [reflexivity|exact B].
Qed.

Theorem C24_reads_deliver_content : forall b content caps rs b',
  holds b content -> reads b caps = (rs, b') ->
  exists left, content = delivered rs ++ left /\ holds b' left.
Proof.
  intros b c caps rs b' H. revert rs b' c H. revert b. induction caps as [|n ns IH]; intros b rs b' c H R; cbn [reads] in R.
  - inv R. exists c. auto.
  - destruct (poll_read b n) as [r b1] eqn:P. destruct (reads b1 ns) as [rs1 b2] eqn:Q. inv R.
    assert (H1 := holds_read _ _ _ _ _ H P).
    destruct (IH _ _ _ _ H1 Q) as (left & E & L). exists left. split; [|exact L].
    destruct (holds_rest _ _ H) as [W Hr]. apply poll_read_post in P; [|exact W].
    destruct P as (_ & _ & _ & _ & P). subst c. destruct r as [|bs|e|]; cbn [bytes_of length skipn delivered] in *; try assumption.
    destruct P as (P & _). rewrite P in E |- *. rewrite skipn_app, skipn_all, Nat.sub_diag in E. cbn [app skipn] in E.
    rewrite E, app_assoc. reflexivity.
Qed.
Print Assumptions C24_reads_deliver_content.
Example C24_reads_deliver_content_case : holds (from_reader [EData 1 [2; 3]; EPending; EFail 9; EData 4 [5]] (Some 4)) [1; 2; 3; 4] /\
  delivered (fst (reads (from_reader [EData 1 [2; 3]; EPending; EFail 9; EData 4 [5]] (Some 4)) [2; 2; 2; 2; 2; 2]%nat)) = [1; 2; 3; 4].
Proof. split; [exact (holds_reader [EData 1 [2; 3]; EPending; EFail 9; EData 4 [5]] (Some 4))|vm_compute; reflexivity]. Qed.

(** Each poll fits its buffer and never panics. *)
Theorem C24_each_read_fits : forall b content caps rs b', holds b content -> reads b caps = (rs, b') ->
  ~ In Panicked rs /\
  forall i cap bs, nth_error caps i = Some cap -> nth_error rs i = Some (Ready bs) -> (length bs <= cap)%nat.
Proof.
  intros b c caps rs b' H R. apply holds_rest in H as [W _]. split; [apply (reads_spec _ _ _ _ W R)|].
  intros i cap bs Ec Er. destruct (reads_firstn _ _ _ _ i R) as (bi & A & B).
  assert (Wi := reads_spec _ _ _ _ W A). destruct Wi as [Wi _]. rewrite (B _ Ec) in Er. inv Er.
  destruct (poll_read bi cap) as [r bj] eqn:P. cbn in H0. subst r. apply poll_read_post in P; [|exact Wi].
  apply P.
Qed.
Print Assumptions C24_each_read_fits.

(** End-of-file (no bytes for a non-empty buffer) is reported only when everything has been delivered. *)
Theorem C24_eof_means_everything : forall b content caps rs b' i cap,
  holds b content -> reads b caps = (rs, b') ->
  nth_error caps i = Some (S cap) -> nth_error rs i = Some (Ready []) ->
  delivered (firstn i rs) = content.
Proof.
  intros b c caps rs b' i cap H R Ec Er. destruct (reads_firstn _ _ _ _ i R) as (bi & A & B).
  destruct (C24_reads_deliver_content _ _ _ _ _ H A) as (left & E & L). rewrite (B _ Ec) in Er. inv Er.
  destruct (poll_read bi (S cap)) as [r bj] eqn:P. cbn in H1. subst r.
  apply holds_rest in L as [W Q]. apply poll_read_post in P; [|exact W]. destruct P as (_ & _ & _ & _ & P).
  destruct P as (_ & _ & _ & _ & [P|P]); [reflexivity|discriminate|]. rewrite <- Q, P, app_nil_r. reflexivity.
Qed.
Print Assumptions C24_eof_means_everything.

(** And it is reported eventually: a poll can come back empty-handed only as often as the reader stalls. *)
Theorem C24_eof_is_reached : forall evs len caps rs b',
  let b := from_reader evs len in
  reads b (map S caps) = (rs, b') ->
  (length (at_most len (script_data evs)) + stalls evs < length caps)%nat ->
  exists i, nth_error rs i = Some (Ready []).
Proof.
  intros evs len caps rs b' b R L.
  assert (G : forall caps b rs b', wf b -> reads b (map S caps) = (rs, b') ->
              (length (rest b) + waits b < length caps)%nat -> exists i, nth_error rs i = Some (Ready [])).
  { clear. induction caps as [|c cs IH]; intros b rs b' W R L; cbn [length] in L; [lia|].
    cbn [map reads] in R. destruct (poll_read b (S c)) as [r b1] eqn:P.
    destruct (reads b1 (map S cs)) as [rs1 b2] eqn:Q. inv R. apply poll_read_post in P; [|exact W].
    destruct P as (P1 & _ & _ & _ & P). destruct r as [|[|y ys]|e|].
    - destruct (IH _ _ _ P1 Q) as [i Hi]; [destruct P as (-> & P & _); lia|]. exists (S i). exact Hi.
    - exists O. reflexivity.
    - destruct P as (P & _ & P' & _). assert (E := f_equal (@length N) P). rewrite app_length in E. cbn [length] in E.
      destruct (IH _ _ _ P1 Q) as [i Hi]; [lia|]. exists (S i). exact Hi.
    - destruct (IH _ _ _ P1 Q) as [i Hi]; [destruct P as (-> & P & _); lia|]. exists (S i). exact Hi.
    - contradiction. }
  apply (G caps b rs b'); [apply wf_from_reader|exact R|].
  destruct (holds_rest _ _ (holds_reader evs len)) as [_ E]. unfold b. rewrite E. cbn [waits from_reader waits_src].
  exact L.
Qed.
Print Assumptions C24_eof_is_reached.

Example C24_example :
  let b := from_reader [EData 1 [2]; EPending; EFail 9; EData 3 [4; 5; 6]] (Some 5) in
  fst (reads b [1; 0; 7; 3; 3; 2; 8; 8]%nat)
  = [Ready [1]; Ready []; Ready [2]; Pending; Failed 9; Ready [3; 4]; Ready [5]; Ready []].
Proof. reflexivity. Qed.

(** ** C25 Body length accounting. *)
Theorem C25_length_fixed_and_never_exceeded : forall b content caps rs b' l,
  holds b content -> reads b caps = (rs, b') ->
  body_len b' = body_len b /\ body_is_empty b' = body_is_empty b /\ body_mime b' = body_mime b /\
  (body_len b = Some l -> body_read b = 0 -> nlen (delivered rs) <= l).
Proof.
  intros b c caps rs b' l H R. apply holds_rest in H as [W _].
  destruct (reads_spec _ _ _ _ W R) as (W' & A & B & _ & _ & _ & D). repeat apply conj; auto.
  - unfold body_is_empty. rewrite A. reflexivity.
  - intros E Z. rewrite <- A in E. apply wf_len in E; [|exact W']. lia.
Qed.
Print Assumptions C25_length_fixed_and_never_exceeded.

(** The length is what the body was built with: the declared one, or the size of the data. *)
Theorem C25_initial_length : forall evs len bs s,
  body_len (from_reader evs len) = len /\
  body_len (from_bytes bs) = Some (nlen bs) /\ body_len (from_json_bytes bs) = Some (nlen bs) /\
  body_len (from_string s) = Some (nlen (utf8_encode s)) /\
  body_len (from_form_text s) = Some (nlen (utf8_encode s)) /\
  body_len body_empty = Some 0 /\
  body_is_empty (from_bytes bs) = Some (match bs with [] => true | _ => false end).
Proof.
  intros evs len bs s. repeat apply conj; try reflexivity. destruct bs as [|b bs]; [reflexivity|].
  cbn. unfold nlen. cbn [length]. reflexivity.
Qed.
Print Assumptions C25_initial_length.

Example C25_example :
  let b := from_string [104; 233] in  (* "hé" is three bytes long *)
  let '(rs, b') := reads b [2; 2; 2]%nat in
  (body_len b, body_len b', rs) = (Some 3, Some 3, [Ready [104; 195]; Ready [169]; Ready []]).
Proof. reflexivity. Qed.

(** ** C26 Chaining bodies concatenates. *)
Theorem C26_chain_concatenates : forall b1 c1 b2 c2, holds b1 c1 -> holds b2 c2 ->
  exists b, chain b1 b2 = Ok b /\ holds b (c1 ++ c2) /\
    body_len b = match body_len b1, body_len b2 with
                 | Some l1, Some l2 =>
                     let l := (l1 - body_read b1) + (l2 - body_read b2) in
                     if l <? 2 ^ 64 then Some l else None
                 | _, _ => None
                 end.
Proof.
  intros b1 c1 b2 c2 H1 H2. destruct (holds_rest _ _ H1) as [W1 _], (holds_rest _ _ H2) as [W2 _].
  destruct (chain_ok _ _ W1 W2) as (b & E & _). exists b. split; [exact E|]. split; [eapply holds_chain; eassumption|].
  unfold chain in E. destruct (body_len b1) as [l1|]; [destruct (body_len b2) as [l2|]|]; [|inv E; reflexivity|inv E; reflexivity].
  destruct (_ || _); inv E. cbn [body_len].
  change u64_max with 18446744073709551615. change (2 ^ 64) with 18446744073709551616.
  match goal with |- (if ?x then _ else _) = (if ?y then _ else _) => replace x with y by lia end. reflexivity.
Qed.
Print Assumptions C26_chain_concatenates.
Example C26_chain_concatenates_case : exists b, chain (from_string [104; 233]) (from_reader [EData 7 [8]] None) = Ok b /\ holds b [104; 195; 169; 7; 8] /\ body_len b = None.
Proof. destruct (C26_chain_concatenates _ _ _ _ (holds_string [104; 233]) (holds_reader [EData 7 [8]] None)) as (b & E & H & L). exists b. split; [exact E|]. split; [exact H|exact L]. Qed.

(** Read two bodies for a while, chain them, read the chain to the end: the second parts come out. *)
Theorem C26_rest_then_rest : forall b1 c1 b2 c2 caps1 caps2 rs1 rs2 b1' b2',
  holds b1 c1 -> holds b2 c2 ->
  reads b1 caps1 = (rs1, b1') -> reads b2 caps2 = (rs2, b2') ->
  exists b, chain b1' b2' = Ok b /\
    forall caps r, read_to_end caps b [] = Some (Ok r) ->
      delivered rs1 ++ r = c1 ++ skipn (length (delivered rs2)) c2.
Proof.
  intros b1 c1 b2 c2 caps1 caps2 rs1 rs2 b1' b2' H1 H2 R1 R2.
  destruct (C24_reads_deliver_content _ _ _ _ _ H1 R1) as (l1 & E1 & L1).
  destruct (C24_reads_deliver_content _ _ _ _ _ H2 R2) as (l2 & E2 & L2).
  destruct (C26_chain_concatenates _ _ _ _ L1 L2) as (b & E & L & _). exists b. split; [exact E|].
  intros caps r Hr. apply holds_rest in L as [W Q].
  destruct (read_to_end_spec _ _ _ _ W Hr) as [D|[D _]]; [|discriminate]. inv D. cbn [app].
  rewrite Q. rewrite skipn_app, skipn_all, Nat.sub_diag. cbn [app skipn]. rewrite app_assoc. reflexivity.
Qed.
Print Assumptions C26_rest_then_rest.

(** The length of a chain of two unread bodies of known length is the sum. *)
Theorem C26_length_is_remaining : forall b1 c1 b2 c2 caps rs b1' l1 l2 b,
  holds b1 c1 -> holds b2 c2 -> body_read b1 = 0 -> body_read b2 = 0 ->
  body_len b1 = Some l1 -> body_len b2 = Some l2 -> l1 + l2 < 2 ^ 64 ->
  reads b1 caps = (rs, b1') -> chain b1' b2 = Ok b ->
  body_len b = Some (l1 - nlen (delivered rs) + l2).
Proof.
  intros b1 c1 b2 c2 caps rs b1' l1 l2 b H1 H2 Z1 Z2 E1 E2 L R C.
  destruct (C24_reads_deliver_content _ _ _ _ _ H1 R) as (left & _ & H1').
  apply holds_rest in H1 as [W1 _]. destruct (reads_spec _ _ _ _ W1 R) as (_ & A & _ & _ & _ & _ & D).
  destruct (C26_chain_concatenates _ _ _ _ H1' H2) as (b' & E & _ & F). rewrite C in E. inv E.
  rewrite F, A, E1, E2, D, Z1, Z2. cbv zeta.
  change (2 ^ 64) with 18446744073709551616 in *.
  replace (l1 - (0 + nlen (delivered rs)) + (l2 - 0) <? 18446744073709551616) with true by lia. f_equal. lia.
Qed.
Print Assumptions C26_length_is_remaining.

(** The media type of a chain: the common one, else application/octet-stream. *)
Theorem C26_chain_mime : forall b1 b2 b, chain b1 b2 = Ok b ->
  (body_mime b1 = body_mime b2 -> body_mime b = body_mime b1) /\
  (body_mime b1 <> body_mime b2 -> body_mime b = Some MIME_BYTE_STREAM).
Proof.
  intros b1 b2 b E. unfold chain in E.
  set (m := if opt_mime_eqb (body_mime b1) (body_mime b2) then body_mime b1 else Some MIME_BYTE_STREAM) in E.
  assert (M : (body_mime b1 = body_mime b2 -> m = body_mime b1) /\ (body_mime b1 <> body_mime b2 -> m = Some MIME_BYTE_STREAM)).
  { assert (Q : opt_mime_eqb (body_mime b1) (body_mime b2) = true <-> body_mime b1 = body_mime b2).
    { unfold opt_mime_eqb. destruct (body_mime b1) as [x|], (body_mime b2) as [y|]; try (split; congruence). destruct (mime_dec x y); split; congruence. }
    unfold m. destruct (opt_mime_eqb _ _); split; intros H; try reflexivity; [destruct H; now apply Q|apply Q in H; discriminate H]. }
  assert (body_mime b = m) as ->; [|exact M].
  destruct (body_len b1), (body_len b2); try (inv E; reflexivity).
  destruct (_ || _); inv E. reflexivity.
Qed.
Print Assumptions C26_chain_mime.

Example C26_example :
  let '(_, b1) := reads (from_bytes [1; 2; 3]) [1]%nat in
  match chain b1 (from_reader [EPending; EData 4 [5]; EData 6 []] (Some 2)) with
  | Ok b => (body_len b, read_to_end [0; 9; 9; 9; 9; 9]%nat b []) = (Some 4, Some (Ok [2; 3; 4; 5]))
  | _ => False
  end.
Proof. reflexivity. Qed.

(** ** C27 into_bytes/into_string return exactly the content. *)
Theorem C27_into_bytes : forall bs caps,
  (forall r, into_bytes caps (from_bytes bs) = Some r -> r = Ok bs) /\
  ((length bs < length caps)%nat -> into_bytes caps (from_bytes bs) = Some (Ok bs)).
Proof.
  intros bs caps.
  assert (A : forall r, into_bytes caps (from_bytes bs) = Some r -> r = Ok bs).
  { intros r H. unfold into_bytes in H. destruct (read_to_end caps (from_bytes bs) []) as [x|] eqn:E; [|discriminate].
    inv H. apply read_to_end_spec in E; [|apply wf_from_bytes]. rewrite rest_from_bytes in E.
    destruct E as [->|[_ E]]; [reflexivity|]. destruct E. exact (never_fails_chunk bs). }
  split; [exact A|]. intros L.
  destruct (read_to_end_done caps (from_bytes bs) [] (wf_from_bytes bs)) as [r E].
  { rewrite rest_from_bytes. cbn [from_bytes waits waits_src]. rewrite stalls_chunk. lia. }
  assert (F : into_bytes caps (from_bytes bs) = Some (with_status 422 r)) by (unfold into_bytes; rewrite E; reflexivity).
  rewrite F. f_equal. apply A, F.
Qed.
Print Assumptions C27_into_bytes.

(** Any body: the content or a 422, never a panic; a 422 only if the reader failed. *)
Theorem C27_into_bytes_any : forall b content caps r, holds b content -> into_bytes caps b = Some r ->
  r = Ok content \/ (r = Err 422 /\ ~ sound b).
Proof.
  intros b c caps r H E. unfold into_bytes in E. destruct (read_to_end caps b []) as [x|] eqn:R; [|discriminate].
  inv E. apply holds_rest in H as [W <-]. apply read_to_end_spec in R; [|exact W].
  destruct R as [->|[-> F]]; [left|right]; auto.
Qed.
Print Assumptions C27_into_bytes_any.

Lemma usize_ok : forall s, nlen (utf8_encode s) <= isize_max -> isize_max <? nlen (utf8_encode s) = false.
Proof. intros. lia. Qed.

(** Strings: every string short enough to exist ([isize::MAX] bytes). *)
Theorem C27_into_string : forall s caps, valid_str s = true -> nlen (utf8_encode s) <= 2 ^ 63 - 1 ->
  (forall r, into_string caps (from_string s) = Some r -> r = Ok s) /\
  ((length (utf8_encode s) < length caps)%nat -> into_string caps (from_string s) = Some (Ok s)) /\
  body_mime (from_string s) = Some MIME_PLAIN.
Proof.
  intros s caps V L. assert (U : into_string caps (from_string s)
    = option_map (fun r => with_status 422 (let* bs := r in ok_or 500 (utf8_decode bs)))
         (read_to_end caps (from_string s) [])).
  { unfold into_string. cbn [body_len from_string]. rewrite usize_ok by exact L. reflexivity. }
  assert (A : forall r, into_string caps (from_string s) = Some r -> r = Ok s).
  { intros r H. rewrite U in H. destruct (read_to_end caps (from_string s) []) as [x|] eqn:E; [|discriminate].
    inv H. apply read_to_end_spec in E; [|apply wf_from_string]. rewrite rest_from_string in E.
    destruct E as [->|[_ E]]; [|destruct E; exact (never_fails_chunk _)].
    cbn [bind app]. rewrite utf8_decode_encode by exact V. reflexivity. }
  split; [exact A|]. split; [|reflexivity]. intros C.
  destruct (read_to_end_done caps (from_string s) [] (wf_from_string s)) as [r E].
  { rewrite rest_from_string. cbn [from_string waits waits_src]. rewrite stalls_chunk. lia. }
  rewrite E in U. cbn [option_map] in U. rewrite U. f_equal. apply A. exact U.
Qed.
Print Assumptions C27_into_string.

(** Any body of reasonable length: its content decoded, or 422 when reading fails or it is not UTF-8. *)
Theorem C27_into_string_any : forall b content caps r, holds b content ->
  (forall l, body_len b = Some l -> l <= 2 ^ 63 - 1) -> into_string caps b = Some r ->
  (exists s, r = Ok s /\ utf8_encode s = content /\ valid_str s = true) \/ r = Err 422.
Proof.
  intros b c caps r H L E. unfold into_string in E.
  assert (Z : isize_max <? match body_len b with Some l => l | None => 0 end = false).
  { destruct (body_len b) as [l|]; [|reflexivity]. specialize (L l eq_refl). unfold isize_max. lia. }
  rewrite Z in E. destruct (read_to_end caps b []) as [x|] eqn:R; [|discriminate].
  inv E. apply holds_rest in H as [W <-]. apply read_to_end_spec in R; [|exact W].
  destruct R as [->|[-> F]]; [|right; reflexivity]. cbn [bind app].
  destruct (utf8_decode (rest b)) as [s|] eqn:D; [left|right; reflexivity].
  exists s. split; [reflexivity|]. apply utf8_decode_sound, D.
Qed.
Print Assumptions C27_into_string_any.

(** A declared length above [isize::MAX] makes into_string panic whatever the reader holds. *)
Theorem C27_into_string_panics_refuted : exists evs len caps, into_string caps (from_reader evs (Some len)) = Some Panic
  /\ into_bytes caps (from_reader evs (Some len)) = Some (Ok (lit "Nori")).
Proof. exists [EData 78 [111; 114; 105]], (2 ^ 63), [9; 9]%nat. vm_compute. split; reflexivity. Qed.
Print Assumptions C27_into_string_panics_refuted.

(** Read failures are 422 for bytes and strings but 500 for JSON. *)
Theorem C27_json_read_failure_refuted : exists evs caps,
  into_bytes caps (from_reader evs None) = Some (Err 422) /\
  into_string caps (from_reader evs None) = Some (Err 422) /\
  forall T (parse : list N -> option T), into_json parse caps (from_reader evs None) = Some (Err 500).
Proof. exists [EData 1 []; EFail 0], [9; 9]%nat. vm_compute. repeat apply conj; auto. Qed.
Print Assumptions C27_json_read_failure_refuted.

(** JSON and forms: whatever serde writes and reads back comes back. *)
Theorem C27_json_form_round_trip : forall T (v : T) bs s (jparse : list N -> option T) (fparse : str -> option T) caps,
  jparse bs = Some v -> fparse s = Some v -> valid_str s = true -> nlen (utf8_encode s) <= 2 ^ 63 - 1 ->
  (length bs < length caps)%nat -> (length (utf8_encode s) < length caps)%nat ->
  into_json jparse caps (from_json_bytes bs) = Some (Ok v) /\ body_mime (from_json_bytes bs) = Some MIME_JSON /\
  into_form fparse caps (from_form_text s) = Some (Ok v) /\ body_mime (from_form_text s) = Some MIME_FORM.
Proof.
  intros T v bs s jp fp caps J F V L1 L2 L3. repeat apply conj; try reflexivity.
  - assert (W : wf (from_json_bytes bs)) by apply (wf_from_bytes bs).
    assert (R : rest (from_json_bytes bs) = bs) by apply (rest_from_bytes bs).
    unfold into_json. destruct (read_to_end_done caps (from_json_bytes bs) [] W) as [r E].
    { rewrite R. cbn [from_json_bytes waits waits_src]. rewrite stalls_chunk. lia. }
    rewrite E. apply read_to_end_spec in E; [|exact W]. rewrite R in E.
    destruct E as [->|[_ E]]; [cbn [option_map bind app]; rewrite J; reflexivity|destruct E; exact (never_fails_chunk _)].
  - assert (W : wf (from_form_text s)) by apply (wf_from_string s).
    assert (R : rest (from_form_text s) = utf8_encode s) by apply (rest_from_string s).
    unfold into_form, into_string. cbn [from_form_text from_string set_mime body_len]. rewrite usize_ok by exact L1.
    change (Body (Stream (chunk (utf8_encode s))) (Some MIME_FORM) (Some (nlen (utf8_encode s))) 0) with (from_form_text s).
    destruct (read_to_end_done caps (from_form_text s) [] W) as [r E].
    { rewrite R. cbn [from_form_text set_mime from_string waits waits_src]. rewrite stalls_chunk. lia. }
    rewrite E. apply read_to_end_spec in E; [|exact W]. rewrite R in E.
    destruct E as [->|[_ E]]; [|destruct E; exact (never_fails_chunk _)].
    cbn [option_map bind app]. rewrite utf8_decode_encode by exact V. cbn. rewrite F. reflexivity.
Qed.
Print Assumptions C27_json_form_round_trip.

Example C27_example :
  into_string [0; 0; 0; 0; 9]%nat (from_string [104; 233]) = Some (Ok [104; 233]) /\
  into_string [9; 9]%nat (from_bytes [255]) = Some (Err 422) /\
  into_bytes [9; 0; 9; 9]%nat (from_reader [EPending; EData 7 [8; 9]] (Some 2)) = Some (Ok [7; 8]).
Proof. vm_compute. repeat apply conj; reflexivity. Qed.

(** ** C28 Buffered reading respects the declared length. *)
(** It does not: poll_fill_buf hands out bytes beyond the length. *)
Theorem C28_buffered_read_ignores_length_refuted : exists evs len,
  let b := from_reader evs (Some len) in
  delivered (fst (reads b [9; 9]%nat)) = [1; 2] /\
  delivered (fst (buf_reads b [9; 9]%nat)) = [1; 2; 3] /\ body_len b = Some 2.
Proof. exists [EData 1 [2; 3]], 2. vm_compute. repeat apply conj; reflexivity. Qed.
Print Assumptions C28_buffered_read_ignores_length_refuted.

(** Nor is it counted: a body drained through AsyncBufRead still claims its bytes when chained. *)
Theorem C28_buffered_read_not_counted_refuted : exists bs cs b,
  let '(_, b1) := buf_reads (from_bytes bs) [9]%nat in
  chain b1 (from_bytes cs) = Ok b /\ body_len b = Some 4 /\ into_bytes [9; 9; 9]%nat b = Some (Ok [4]).
Proof. exists [1; 2; 3], [4]. eexists. vm_compute. repeat apply conj; reflexivity. Qed.
Print Assumptions C28_buffered_read_not_counted_refuted.

(** Partial: bodies whose readers do not hold more than the declared length.  There, any mixture of both
    ways of reading delivers the content in order.  Missing: readers holding more. *)
Inductive exact : body -> list N -> Prop :=
| exact_reader : forall evs len, (forall l, len = Some l -> nlen (script_data evs) <= l) ->
    exact (from_reader evs len) (script_data evs)
| exact_bytes : forall bs, exact (from_bytes bs) bs
| exact_string : forall s, exact (from_string s) (utf8_encode s)
| exact_mime : forall b c m, exact b c -> exact (set_mime m b) c
| exact_chain : forall b1 c1 b2 c2 b, exact b1 c1 -> exact b2 c2 -> chain b1 b2 = Ok b -> exact b (c1 ++ c2).

Inductive access := ARead (cap : nat) | ABuf (amt : nat).
Fixpoint accesses (b : body) (l : list access) : list (poll (list N)) * body :=
  match l with
  | [] => ([], b)
  | ARead cap :: l' => let '(r, b') := poll_read b cap in let '(rs, b'') := accesses b' l' in (r :: rs, b'')
  | ABuf amt :: l' =>
      match poll_fill_buf b with
      | (Ready bs, b') => let '(rs, b'') := accesses (consume b' (Nat.min amt (length bs))) l' in
                          (Ready (firstn amt bs) :: rs, b'')
      | (r, b') => let '(rs, b'') := accesses b' l' in (r :: rs, b'')
      end
  end.

(** The data behind a body, ignoring every limit, and the limits not being in the way. *)
Fixpoint raw (b : body) : list N := match b with Body s _ _ _ => raw_src s end
with raw_src (s : source) : list N :=
  match s with
  | Stream evs => data evs
  | Chained b1 b2 true => raw b2
  | Chained b1 b2 false => raw b1 ++ raw b2
  end.
Fixpoint roomy (b : body) : Prop :=
  match b with
  | Body s _ len rd => match len with Some l => rd + nlen (raw_src s) <= l | None => True end /\ roomy_src s
  end
with roomy_src (s : source) : Prop :=
  match s with Stream _ => True | Chained b1 b2 true => roomy b2 | Chained b1 b2 false => roomy b1 /\ roomy b2 end.

Lemma raw_limit : forall len rd (l : list N), match len with Some n => rd + nlen l <= n | None => True end -> limit len rd l = l.
Proof. intros [n|] rd l H; [|reflexivity]. cbn. unfold nlen in H. apply firstn_all2. lia. Qed.

Lemma roomy_rest : (forall b, roomy b -> rest b = raw b) /\ (forall s, roomy_src s -> rest_src s = raw_src s).
Proof.
  apply body_source_ind.
  - intros s IH m len rd [A B]. cbn [rest raw]. rewrite IH by exact B. apply raw_limit, A.
  - reflexivity.
  - intros b1 IH1 b2 IH2 [|] H; cbn [rest_src raw_src]; [apply IH2, H|]. destruct H. rewrite IH1, IH2; auto.
Qed.

Lemma nlen_app : forall (a b : list N), nlen (a ++ b) = nlen a + nlen b.
Proof. intros. unfold nlen. rewrite app_length. lia. Qed.

(** One poll_read keeps the limits out of the way. *)
Definition rpost (x : list N) (r : poll (list N)) (cap : nat) (x' : list N) : Prop :=
  match r with
  | Ready bs => x = bs ++ x' /\ (length bs <= cap)%nat /\ (bs = [] -> cap = O \/ x = [])
  | Pending | Failed _ => x' = x
  | Panicked => False
  end.
Lemma roomy_read :
  (forall b cap r b', roomy b -> poll_read b cap = (r, b') -> roomy b' /\ rpost (raw b) r cap (raw b')) /\
  (forall s cap r s', roomy_src s -> src_read s cap = (r, s') -> roomy_src s' /\ rpost (raw_src s) r cap (raw_src s')).
Proof.
  apply body_source_ind.
  - intros s IH m len rd cap r b' [A B] H. cbn [poll_read] in H.
    destruct (limit_buf len rd cap) as [x|cap'] eqn:L.
    + unfold limit_buf in L. destruct len as [l|]; [|discriminate]. destruct (N.eqb_spec l rd) as [->|Nl].
      * inv L. inv H. split; [split; assumption|]. cbn. repeat apply conj; auto; [lia|]. intros _. right.
        unfold nlen in A. destruct (raw_src s); [reflexivity|cbn in A; lia].
      * destruct (l <? rd) eqn:E; [lia|discriminate].
    + assert (C : (cap' <= cap)%nat /\ (cap' = O -> cap = O)).
      { unfold limit_buf in L. destruct len as [l|]; [|inv L; auto].
        destruct (N.eqb_spec l rd); [discriminate|]. destruct (l <? rd) eqn:E; [discriminate|]. inv L. lia. }
      destruct (src_read s cap') as [x s'] eqn:R. apply IH in R; [|exact B]. destruct R as [R1 R2].
      destruct x as [|bs|e|]; inv H; cbn [roomy raw rpost] in *.
      * rewrite R2. auto.
      * destruct R2 as (R2 & R3 & R4). rewrite R2 in A. rewrite nlen_app in A.
        split; [split; [destruct len; lia|exact R1]|]. repeat apply conj; [exact R2|lia|].
        intros Z. destruct (R4 Z); [left; tauto|right; assumption].
      * rewrite R2. auto.
      * contradiction.
  - intros evs cap r s' _ H. cbn [src_read] in H. destruct (stream_read evs cap) as [x evs'] eqn:E. inv H.
    split; [exact I|]. apply stream_read_spec in E as [_ E]. cbn [raw_src]. destruct r; cbn; tauto.
  - intros b1 IH1 b2 IH2 [|] cap r s' W H; cbn [src_read] in H.
    + destruct (poll_read b2 cap) as [x b2'] eqn:E. inv H. apply IH2 in E; [|exact W]. exact E.
    + destruct W as [W1 W2]. destruct (poll_read b1 cap) as [x b1'] eqn:E1. apply IH1 in E1 as [A P]; [|exact W1].
      destruct x as [|[|c bs]|e|]; cbn [rpost] in P.
      * inv H. cbn. rewrite P. auto.
      * destruct cap as [|k].
        -- inv H. split; [split; assumption|]. cbn [rpost raw_src]. destruct P as (P & _). rewrite P. repeat apply conj; auto.
        -- destruct (poll_read b2 (S k)) as [y b2'] eqn:E2. inv H. apply IH2 in E2 as [A2 P2]; [|exact W2].
           destruct P as (_ & _ & [P|P]); [reflexivity|discriminate|]. cbn [raw_src roomy_src]. rewrite P. auto.
      * inv H. split; [split; assumption|]. cbn [rpost raw_src]. destruct P as (P & Q & _). rewrite P.
        repeat apply conj; [rewrite app_assoc; reflexivity|exact Q|discriminate].
      * inv H. cbn. rewrite P. auto.
      * contradiction.
Qed.

(** One buffered step does too, and delivers the next bytes. *)
Definition fpost (x : list N) (r : poll (list N)) : Prop :=
  match r with
  | Ready bs => exists t, x = bs ++ t /\ (bs = [] -> x = [])
  | Pending | Failed _ => True
  | Panicked => False
  end.
Lemma roomy_shrink : forall len rd (x x' y : list N), x = y ++ x' ->
  match len with Some l => rd + nlen x <= l | None => True end -> match len with Some l => rd + nlen x' <= l | None => True end.
Proof. intros [l|] rd x x' y -> H; [rewrite nlen_app in H; lia|exact I]. Qed.

Lemma fill_spec :
  (forall b r b', roomy b -> poll_fill_buf b = (r, b') -> roomy b' /\ raw b' = raw b /\ fpost (raw b) r /\
     forall bs n, r = Ready bs -> (n <= length bs)%nat -> roomy (consume b' n) /\ raw b = firstn n bs ++ raw (consume b' n)) /\
  (forall s r s', roomy_src s -> src_fill s = (r, s') -> roomy_src s' /\ raw_src s' = raw_src s /\ fpost (raw_src s) r /\
     forall bs n, r = Ready bs -> (n <= length bs)%nat ->
       roomy_src (src_consume s' n) /\ raw_src s = firstn n bs ++ raw_src (src_consume s' n)).
Proof.
  apply body_source_ind.
  - intros s IH m len rd r b' [A B] H. cbn [poll_fill_buf] in H. destruct (src_fill s) as [x s'] eqn:E. inv H.
    destruct (IH _ _ B eq_refl) as (E1 & E2 & E3 & E4). cbn [roomy raw consume].
    split; [split; [rewrite E2; exact A|exact E1]|]. split; [exact E2|]. split; [exact E3|].
    intros bs n Z L. destruct (E4 bs n Z L) as [F G]. split; [split; [eapply roomy_shrink; [exact G|exact A]|exact F]|exact G].
  - intros evs r s' _ H. cbn [src_fill] in H. destruct (stream_fill evs) as [x evs'] eqn:E. inv H.
    split; [exact I|]. cbn [raw_src src_consume]. destruct evs as [|[|e|b bs] evs]; inv E; cbn [fpost].
    + split; [reflexivity|]. split; [exists []; auto|]. intros bs n Z L. inv Z. split; [exact I|]. destruct n; reflexivity.
    + split; [reflexivity|]. split; [exact I|]. intros; discriminate.
    + split; [reflexivity|]. split; [exact I|]. intros; discriminate.
    + split; [reflexivity|]. split; [exists (data evs); split; [reflexivity|discriminate]|].
      intros bs' n Z L. inv Z. split; [exact I|]. cbn [stream_consume]. rewrite data_app, data_chunk, app_assoc, firstn_skipn.
      reflexivity.
  - intros b1 IH1 b2 IH2 [|] r s' W H; cbn [src_fill] in H.
    + destruct (poll_fill_buf b2) as [x b2'] eqn:E. inv H. exact (IH2 _ _ W eq_refl).
    + destruct W as [W1 W2]. destruct (poll_fill_buf b1) as [x b1'] eqn:E1.
      destruct (IH1 _ _ W1 eq_refl) as (A & P & Q & R). destruct x as [|[|c bs]|e|].
      * inv H. cbn [roomy_src raw_src fpost]. rewrite P. repeat apply conj; auto. intros; discriminate.
      * destruct (poll_fill_buf b2) as [y b2'] eqn:E2. inv H.
        destruct Q as (t & _ & Q). cbn [roomy_src raw_src src_consume]. rewrite Q by reflexivity. exact (IH2 _ _ W2 eq_refl).
      * inv H. cbn [roomy_src raw_src src_consume]. rewrite P. split; [auto|]. split; [reflexivity|]. split.
        -- destruct Q as (t & Q & _). cbn [fpost]. exists (t ++ raw b2). rewrite Q, app_assoc. split; [reflexivity|discriminate].
        -- intros bs' n Z L. destruct (R bs' n Z L) as [F G]. split; [auto|]. rewrite G, app_assoc. reflexivity.
      * inv H. cbn [roomy_src raw_src fpost]. rewrite P. repeat apply conj; auto. intros; discriminate.
      * contradiction.
Qed.

Lemma exact_roomy : forall b c, exact b c -> wf b /\ roomy b /\ raw b = c.
Proof.
  induction 1.
  - rewrite script_data_data in *. split; [apply wf_from_reader|]. cbn. split; [split; [|exact I]|reflexivity].
    destruct len as [l|]; [|exact I]. apply H. reflexivity.
  - split; [apply wf_from_bytes|]. cbn. rewrite data_chunk. repeat apply conj; auto; lia.
  - split; [apply wf_from_string|]. cbn. rewrite data_chunk. repeat apply conj; auto; lia.
  - destruct b as [s m' l r]. exact IHexact.
  - destruct IHexact1 as (W1 & R1 & <-), IHexact2 as (W2 & R2 & <-).
    destruct (chain_ok b1 b2 W1 W2) as (b' & E & W & S & Z). rewrite H1 in E. inv E. split; [exact W|].
    assert (B := chain_rest _ _ _ W1 W2 H1). assert (Q1 := proj1 roomy_rest b1 R1). assert (Q2 := proj1 roomy_rest b2 R2).
    destruct b' as [s m l r]. cbn [body_source] in S. subst s. cbn [raw raw_src roomy roomy_src body_read] in *. subst r.
    split; [|reflexivity]. split; [|auto]. unfold chain in H1.
    assert (K : forall b l, roomy b -> body_len b = Some l -> nlen (raw b) <= l - body_read b).
    { clear. intros [s m l' r] l [A _] E. cbn in *. subst l'. lia. }
    destruct (body_len b1) as [l1|] eqn:L1; [destruct (body_len b2) as [l2|] eqn:L2|].
    + apply K in L1; [|exact R1]. apply K in L2; [|exact R2]. rewrite nlen_app.
      destruct (_ || _); [discriminate|]. inv H1.
      match goal with |- context [if ?x then _ else _] => destruct x end; [lia|exact I].
    + inv H1. exact I.
    + inv H1. exact I.
Qed.

Theorem C28_buffered_read_partial : forall b content l rs b', exact b content -> accesses b l = (rs, b') ->
  (exists left, content = delivered rs ++ left) /\ ~ In Panicked rs /\
  forall i, nth_error rs i = Some (Ready []) -> (forall a, nth_error l i = Some a -> a <> ARead 0 /\ a <> ABuf 0) ->
    (i < length l)%nat -> delivered (firstn i rs) = content.
Proof.
  intros b c l rs b' H. apply exact_roomy in H as (_ & R & <-). revert b R rs b'.
  induction l as [|a l IH]; intros b R rs b' H; cbn [accesses] in H.
  - inv H. split; [eexists; reflexivity|]. split; [auto|]. cbn. lia.
  - assert (G : exists r b1 rs1, rs = r :: rs1 /\ accesses b1 l = (rs1, b') /\ roomy b1 /\ r <> Panicked /\
      raw b = bytes_of r ++ raw b1 /\ (r = Ready [] -> a <> ARead 0 -> a <> ABuf 0 -> raw b = [])).
    { destruct a as [cap|amt].
      - destruct (poll_read b cap) as [r b1] eqn:P. destruct (accesses b1 l) as [rs1 b2] eqn:Q. inv H.
        apply (proj1 roomy_read) in P as [R1 P]; [|exact R].
        exists r, b1, rs1. split; [reflexivity|]. split; [exact Q|]. split; [exact R1|].
        destruct r as [|bs|e|]; cbn [rpost bytes_of] in *.
        + split; [discriminate|]. split; [symmetry; exact P|discriminate].
        + split; [discriminate|]. split; [apply P|]. intros Z N1 _. inv Z. destruct P as (_ & _ & [->|P]); auto. congruence.
        + split; [discriminate|]. split; [symmetry; exact P|discriminate].
        + contradiction.
      - destruct (poll_fill_buf b) as [r b1] eqn:P. apply (proj1 fill_spec) in P; [|exact R].
        destruct P as (R1 & P1 & P2 & P3). destruct r as [|bs|e|].
        + destruct (accesses b1 l) as [rs1 b2] eqn:Q. inv H. exists Pending, b1, rs1. repeat apply conj; auto; discriminate.
        + destruct (accesses (consume b1 (Nat.min amt (length bs))) l) as [rs1 b2] eqn:Q. inv H.
          destruct (P3 bs (Nat.min amt (length bs)) eq_refl ltac:(lia)) as [F G].
          exists (Ready (firstn amt bs)), (consume b1 (Nat.min amt (length bs))), rs1.
          repeat apply conj; auto; [discriminate| |].
          * cbn [bytes_of]. rewrite G at 1. f_equal. destruct (Nat.min_dec amt (length bs)) as [M|M]; rewrite M; [reflexivity|].
            rewrite firstn_all. rewrite firstn_all2 by lia. reflexivity.
          * intros Z _ N. destruct P2 as (t & P2 & P4). apply P4. destruct amt; [congruence|]. destruct bs; [reflexivity|discriminate].
        + destruct (accesses b1 l) as [rs1 b2] eqn:Q. inv H. exists (Failed e), b1, rs1. repeat apply conj; auto; discriminate.
        + contradiction. }
    destruct G as (r & b1 & rs1 & -> & Q & R1 & NP & E & Z). clear H.
    destruct (IH _ R1 _ _ Q) as ((left & A) & B & C). 
    assert (D : delivered (r :: rs1) = bytes_of r ++ delivered rs1) by (destruct r; reflexivity).
    split; [exists left; rewrite D, E, A, app_assoc; reflexivity|]. split; [intros [X|X]; [congruence|auto]|].
    intros i Hi Ha Li. destruct i as [|i]; cbn [nth_error firstn length] in *.
    + inv Hi. cbn. symmetry. apply Z; [reflexivity| |]; apply (Ha a eq_refl).
    + assert (D' : forall x, delivered (r :: x) = bytes_of r ++ delivered x) by (intros; destruct r; reflexivity).
      rewrite D', E. f_equal. apply C; auto. lia.
Qed.
Print Assumptions C28_buffered_read_partial.

(** What buffered reading does instead, for every body: it hands out everything its readers hold, in order and whatever the declared
    lengths are, never panics, and leaves both the length and the number of bytes read as they were. *)
Inductive supply : body -> list N -> Prop :=
| supply_reader : forall evs len, supply (from_reader evs len) (script_data evs)
| supply_bytes : forall bs, supply (from_bytes bs) bs
| supply_string : forall s, supply (from_string s) (utf8_encode s)
| supply_mime : forall b c m, supply b c -> supply (set_mime m b) c
| supply_chain : forall b1 c1 b2 c2 b, supply b1 c1 -> supply b2 c2 -> chain b1 b2 = Ok b -> supply b (c1 ++ c2).
Lemma fill_raw :
  (forall b r b', poll_fill_buf b = (r, b') -> raw b' = raw b /\ fpost (raw b) r /\
     forall bs n, r = Ready bs -> (n <= length bs)%nat -> raw b = firstn n bs ++ raw (consume b' n)) /\
  (forall s r s', src_fill s = (r, s') -> raw_src s' = raw_src s /\ fpost (raw_src s) r /\
     forall bs n, r = Ready bs -> (n <= length bs)%nat -> raw_src s = firstn n bs ++ raw_src (src_consume s' n)).
Proof.
  apply body_source_ind.
  - intros s IH m len rd r b' H. cbn [poll_fill_buf] in H. destruct (src_fill s) as [x s'] eqn:E. inv H. exact (IH _ _ eq_refl).
  - intros evs r s' H. cbn [src_fill] in H. destruct (stream_fill evs) as [x evs'] eqn:E. inv H.
    cbn [raw_src src_consume]. destruct evs as [|[|e|b bs] evs]; inv E; cbn [fpost].
    + split; [reflexivity|]. split; [exists []; auto|]. intros bs n Z L. inv Z. destruct n; reflexivity.
    + split; [reflexivity|]. split; [exact I|]. intros; discriminate.
    + split; [reflexivity|]. split; [exact I|]. intros; discriminate.
    + split; [reflexivity|]. split; [exists (data evs); split; [reflexivity|discriminate]|].
      intros bs' n Z L. inv Z. cbn [stream_consume]. rewrite data_app, data_chunk, app_assoc, firstn_skipn. reflexivity.
  - intros b1 IH1 b2 IH2 [|] r s' H; cbn [src_fill] in H.
    + destruct (poll_fill_buf b2) as [x b2'] eqn:E. inv H. exact (IH2 _ _ eq_refl).
    + destruct (poll_fill_buf b1) as [x b1'] eqn:E1.
      destruct (IH1 _ _ eq_refl) as (P & Q & R). destruct x as [|[|c bs]|e|].
      * inv H. cbn [raw_src fpost]. rewrite P. repeat apply conj; auto. intros; discriminate.
      * destruct (poll_fill_buf b2) as [y b2'] eqn:E2. inv H.
        destruct Q as (t & _ & Q). cbn [raw_src src_consume]. rewrite Q by reflexivity. exact (IH2 _ _ eq_refl).
      * inv H. cbn [raw_src src_consume]. rewrite P. split; [reflexivity|]. split.
        -- destruct Q as (t & Q & _). cbn [fpost]. exists (t ++ raw b2). rewrite Q, app_assoc. split; [reflexivity|discriminate].
        -- intros bs' n Z L. rewrite (R bs' n Z L), app_assoc. reflexivity.
      * inv H. cbn [raw_src fpost]. rewrite P. repeat apply conj; auto. intros; discriminate.
      * contradiction.
Qed.
Lemma supply_raw : forall b c, supply b c -> raw b = c.
Proof.
  induction 1 as [evs len|bs|s|[s m' l r] c m H IH|b1 c1 b2 c2 b H1 IH1 H2 IH2 E].
  - rewrite script_data_data. reflexivity.
  - cbn. apply data_chunk.
  - cbn. apply data_chunk.
  - exact IH.
  - rewrite <- IH1, <- IH2. unfold chain in E. destruct (body_len b1), (body_len b2); try (inv E; reflexivity).
    destruct (_ || _); inv E. reflexivity.
Qed.
Theorem C28_buffered_read_is_unlimited : forall b content amts rs b', supply b content -> buf_reads b amts = (rs, b') ->
  (exists left, content = delivered rs ++ left) /\ ~ In Panicked rs /\ length rs = length amts /\
  body_len b' = body_len b /\ body_read b' = body_read b /\ body_mime b' = body_mime b /\
  forall i, nth_error rs i = Some (Ready []) -> nth_error amts i <> Some O -> delivered (firstn i rs) = content.
Proof.
  intros b c amts rs b' H. apply supply_raw in H. subst c. revert b rs b'.
  induction amts as [|a l IH]; intros b rs b' H; cbn [buf_reads] in H.
  - inv H. split; [eexists; reflexivity|]. repeat (split; [auto|]). intros [|i] X; discriminate X.
  - assert (G : exists r b1 rs1, rs = r :: rs1 /\ buf_reads b1 l = (rs1, b') /\ r <> Panicked /\
      raw b = bytes_of r ++ raw b1 /\ (r = Ready [] -> a <> O -> raw b = []) /\
      body_len b1 = body_len b /\ body_read b1 = body_read b /\ body_mime b1 = body_mime b).
    { assert (K : forall r b1, poll_fill_buf b = (r, b1) -> body_len b1 = body_len b /\ body_read b1 = body_read b /\ body_mime b1 = body_mime b).
      { intros r b1 P. destruct b as [s m len rd]. cbn [poll_fill_buf] in P. destruct (src_fill s). inv P. auto. }
      assert (K' : forall b1 n, body_len (consume b1 n) = body_len b1 /\ body_read (consume b1 n) = body_read b1 /\ body_mime (consume b1 n) = body_mime b1)
        by (intros [s m len rd] n; auto).
      destruct (poll_fill_buf b) as [r b1] eqn:P. destruct (K _ _ eq_refl) as (L1 & L2 & L3). apply (proj1 fill_raw) in P. destruct P as (P1 & P2 & P3). destruct r as [|bs|e|].
      - destruct (buf_reads b1 l) as [rs1 b2] eqn:Q. inv H. exists Pending, b1, rs1. repeat apply conj; auto; discriminate.
      - destruct (buf_reads (consume b1 (Nat.min a (length bs))) l) as [rs1 b2] eqn:Q. inv H.
        exists (Ready (firstn a bs)), (consume b1 (Nat.min a (length bs))), rs1. destruct (K' b1 (Nat.min a (length bs))) as (-> & -> & ->).
        repeat apply conj; auto; [discriminate| |].
        + cbn [bytes_of]. rewrite (P3 bs (Nat.min a (length bs)) eq_refl ltac:(lia)) at 1. f_equal. destruct (Nat.min_dec a (length bs)) as [M|M]; rewrite M; [reflexivity|].
          rewrite firstn_all. rewrite firstn_all2 by lia. reflexivity.
        + intros Z N. destruct P2 as (t & P2 & P4). apply P4. destruct a; [congruence|]. destruct bs; [reflexivity|discriminate].
      - destruct (buf_reads b1 l) as [rs1 b2] eqn:Q. inv H. exists (Failed e), b1, rs1. repeat apply conj; auto; discriminate.
      - contradiction. }
    destruct G as (r & b1 & rs1 & -> & Q & NP & E & Z & L1 & L2 & L3). clear H.
    destruct (IH _ _ _ Q) as ((left & A) & B & C & D1 & D2 & D3 & F).
    assert (D : forall x, delivered (r :: x) = bytes_of r ++ delivered x) by (intros; destruct r; reflexivity).
    split; [exists left; rewrite D, E, A, app_assoc; reflexivity|]. split; [intros [X|X]; [congruence|auto]|].
    split; [cbn [length]; congruence|]. repeat (split; [congruence|]).
    intros i Hi Ha. destruct i as [|i]; cbn [nth_error firstn] in *.
    + inv Hi. cbn. symmetry. apply Z; [reflexivity|congruence].
    + rewrite D, E. f_equal. apply F; auto.
Qed.
Print Assumptions C28_buffered_read_is_unlimited.
Example C28_unlimited_example :
  let b := from_reader [EData 1 [2; 3]; EPending; EFail 5; EData 4 []] (Some 2) in
  supply b [1; 2; 3; 4] /\ fst (buf_reads b [2; 9; 9; 9; 9; 9]%nat) = [Ready [1; 2]; Ready [3]; Pending; Failed 5; Ready [4]; Ready []].
Proof. cbn zeta. split; [apply supply_reader|]. reflexivity. Qed.

Example C28_example :
  fst (accesses (from_reader [EData 1 [2; 3]; EPending; EData 4 []] (Some 4)) [ABuf 1; ARead 1; ABuf 5; ABuf 5; ARead 2; ABuf 3; ARead 1]%nat)
  = [Ready [1]; Ready [2]; Ready [3]; Pending; Ready [4]; Ready []; Ready []].
Proof. reflexivity. Qed.
