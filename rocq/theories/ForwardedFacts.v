(** Lemmas about Forwarded parsing. *)
From Verif Require Import Base BaseFacts ParseUtils ParseUtilsFacts Headers Message Forwarded.
From Coq Require Import ZifyBool ZifyNat ZifyN.

Definition suffix (r s : str) : Prop := exists p, s = p ++ r.
Lemma suffix_refl s : suffix s s.
Proof. exists []. reflexivity. Qed.
Lemma suffix_trans a b c : suffix a b -> suffix b c -> suffix a c.
Proof. intros [p ->] [q ->]. exists (q ++ p). rewrite app_assoc. reflexivity. Qed.
Lemma suffix_cons c s : suffix s (c :: s).
Proof. exists [c]. reflexivity. Qed.
Lemma suffix_length r s : suffix r s -> (length r <= length s)%nat.
Proof. intros [p ->]. rewrite app_length. lia. Qed.
Lemma suffix_ascii r s : suffix r s -> is_ascii s = true -> is_ascii r = true.
Proof. intros [p ->]. rewrite is_ascii_app. intros H. apply andb_true_iff in H. tauto. Qed.
Lemma suffix_drop_while p s : suffix (drop_while p s) s.
Proof. destruct (drop_while_suffix p s) as (a & H & _). exists a. exact H. Qed.

Lemma is_ascii_cons c s : is_ascii (c :: s) = true <-> (c <? 128) = true /\ is_ascii s = true.
Proof. unfold is_ascii. cbn [forallb]. apply andb_true_iff. Qed.

(** ASCII quoted strings: no panic; what is left is a proper suffix. *)
Lemma qs_ascii : forall n s, (length s <= n)%nat -> is_ascii s = true ->
  qs s = QNo \/ exists v r, qs s = QYes v r /\ suffix r s /\ (length r < length s)%nat.
Proof.
  induction n as [|n IH]; intros s L A; (destruct s as [|c s]; [left; reflexivity|]); cbn [length] in L; [lia|].
  apply is_ascii_cons in A as [A1 A2]. cbn [qs].
  assert (P : forall x s', (length s' <= n)%nat -> is_ascii s' = true -> suffix s' s ->
    qcons x (qs s') = QNo \/ exists v r, qcons x (qs s') = QYes v r /\ suffix r (c :: s) /\ (length r < length (c :: s))%nat).
  { intros x s' L' A' S'. destruct (IH s' L' A') as [->|(v & r & -> & S1 & S2)]; [left; reflexivity|]. right. exists (x :: v), r.
    split; [reflexivity|]. split; [eapply suffix_trans; [exact S1|]; eapply suffix_trans; [exact S'|apply suffix_cons]|].
    apply suffix_length in S'. cbn [length]. lia. }
  rewrite (low_byte_small c A1). destruct (c =? 92).
  - destruct s as [|d s]; [left; reflexivity|]. destruct (vchar d); [|left; reflexivity].
    apply is_ascii_cons in A2 as [_ A2]. apply P; [cbn [length] in L; lia|exact A2|apply suffix_cons].
  - destruct (c =? 34). { right. exists [], s. split; [reflexivity|]. split; [apply suffix_cons|cbn [length]; lia]. }
    destruct (qdtext c); [|left; reflexivity]. apply P; [lia|exact A2|apply suffix_refl].
Qed.

Lemma parse_quoted_ascii s : is_ascii s = true ->
  parse_quoted_string s = Ok (None, s) \/
  exists v r, parse_quoted_string s = Ok (Some v, r) /\ suffix r s /\ (length r < length s)%nat.
Proof.
  intros A. rewrite parse_quoted_spec. destruct s as [|c s]; [auto|]. apply is_ascii_cons in A as [_ A].
  destruct (N.eqb_spec c 34) as [->|N].
  - destruct (qs_ascii (length s) s (le_n _) A) as [->|(v & r & -> & S1 & S2)]; [auto|]. right. exists v, r.
    split; [reflexivity|]. split; [eapply suffix_trans; [exact S1|apply suffix_cons]|cbn [length]; lia].
  - left. destruct c as [|p]; [reflexivity|]. repeat (destruct p as [p|p|]; try reflexivity). destruct N. reflexivity.
Qed.

Lemma parse_token_cases s : (parse_token s = Ok (None, s) /\ take_while tchar s = []) \/
  exists t r, parse_token s = Ok (Some t, r) /\ s = t ++ r /\ t <> [] /\ forallb tchar t = true.
Proof.
  rewrite parse_token_spec. assert (E := take_drop_while tchar s). assert (F := take_while_all tchar s).
  destruct (take_while tchar s) as [|c t]; [left; cbn in *; rewrite E; auto|]. right. exists (c :: t), (drop_while tchar s).
  split; [reflexivity|]. split; [symmetry; exact E|]. split; [discriminate|exact F].
Qed.

Lemma parse_value_ascii s : is_ascii s = true ->
  (exists r, parse_value s = Ok (None, r)) \/
  exists v r, parse_value s = Ok (Some v, r) /\ suffix r s /\ (length r < length s)%nat.
Proof.
  intros A. unfold parse_value. destruct (parse_token_cases s) as [[-> _]|(t & r & -> & E & N & _)]; cbn [bind].
  - destruct (parse_quoted_ascii s A) as [H|H]; eauto.
  - right. exists t, r. split; [reflexivity|]. split; [exists t; exact E|]. rewrite E, app_length. destruct t; [congruence|cbn; lia].
Qed.

Lemma blen_for : blen (lit "for=") = 4.
Proof. reflexivity. Qed.

(** The only panic on ASCII text: a comma of a [for] list with fewer than four characters after it. *)
Definition commas_ok (s : str) : Prop := forall p r, s = p ++ 44 :: r -> (4 <= length (trim_start r))%nat.
Lemma commas_suffix r s : suffix r s -> commas_ok s -> commas_ok r.
Proof. intros [p ->] C q r' ->. apply (C (p ++ q)). rewrite <- app_assoc. reflexivity. Qed.

Lemma parse_for_ok : forall fuel f s, is_ascii s = true -> commas_ok s -> (4 <= length s)%nat -> (length s <= fuel)%nat ->
  (exists e, parse_for fuel f s = Err e) \/
  exists f' r, parse_for fuel f s = Ok (f', r) /\ suffix r s /\ (length r < length s)%nat.
Proof.
  induction fuel as [|fuel IH]; intros f s A C L K; [lia|]. cbn [parse_for]. unfold match_ignore_case. rewrite blen_for.
  change 4 with (N.of_nat 4). rewrite (split_at_ascii s 4 A L). cbn [bind]. destruct (eq_ignore_case (firstn 4 s) (lit "for=")); cbn [bind]; [|eauto].
  assert (S4 : suffix (skipn 4 s) s) by (exists (firstn 4 s); symmetry; apply firstn_skipn).
  assert (L4 : (length (skipn 4 s) = length s - 4)%nat) by apply skipn_length.
  destruct (parse_value_ascii (skipn 4 s)) as [[r ->]|(v & r & -> & S1 & S2)]; [eapply suffix_ascii; [exact S4|exact A]|cbn; eauto|].
  cbn [bind]. destruct r as [|c r].
  - right. exists (add_for f v), []. split; [reflexivity|]. split; [exists s; rewrite app_nil_r; reflexivity|cbn [length]; lia].
  - assert (Sr : suffix r s). { eapply suffix_trans; [apply suffix_cons|]. eapply suffix_trans; eassumption. }
    cbn [length] in S2. destruct (N.eqb_spec c 44) as [->|N].
    + assert (St : suffix (trim_start r) s) by (eapply suffix_trans; [apply suffix_drop_while|exact Sr]).
      assert (Lt := suffix_length _ _ (suffix_drop_while is_ws r)). unfold trim_start, trim_start_matches in *.
      assert (Q : suffix (44 :: r) s) by (eapply suffix_trans; eassumption).
      destruct (IH (add_for f v) (drop_while is_ws r)) as [H|(f' & r' & H & H1 & H2)].
      * eapply suffix_ascii; eassumption.
      * eapply commas_suffix; eassumption.
      * destruct Q as [p Q]. exact (C p r Q).
      * lia.
      * auto.
      * right. exists f', r'. split; [exact H|]. split; [eapply suffix_trans; eassumption|lia].
    + destruct (c =? 59); [|eauto]. right. exists (add_for f v), r. split; [reflexivity|]. split; [exact Sr|lia].
Qed.

Lemma parse_pair_ok f s : is_ascii s = true ->
  (exists e, parse_forwarded_pair f s = Err e) \/
  exists f' r, parse_forwarded_pair f s = Ok (f', r) /\ suffix r s /\ (length r < length s)%nat.
Proof.
  intros A. unfold parse_forwarded_pair. destruct (parse_token_cases s) as [[-> _]|(t & r & -> & E & N & _)]; cbn [bind]; [eauto|].
  destruct (strip_prefix (lit "=") r) as [r1|] eqn:P; [|eauto]. apply strip_prefix_some in P. change (lit "=") with [61] in P. cbn [app] in P.
  assert (S1 : suffix r1 s). { exists (t ++ [61]). rewrite E, P, <- app_assoc. reflexivity. }
  assert (L1 : (length r1 < length s)%nat). { rewrite E, P, app_length. cbn [length]. lia. }
  destruct (parse_value_ascii r1) as [[r2 ->]|(v & r2 & -> & S2 & L2)]; [eapply suffix_ascii; eassumption|cbn; eauto|]. cbn [bind].
  assert (Fin : forall f' : forwarded, (exists e, Ok (f', match strip_prefix (lit ";") r2 with Some r => r | None => r2 end) = Err e) \/
    exists f'' r, Ok (f', match strip_prefix (lit ";") r2 with Some r => r | None => r2 end) = Ok (f'', r) /\ suffix r s /\ (length r < length s)%nat).
  { intros f'. right. eexists _, _. split; [reflexivity|]. destruct (strip_prefix (lit ";") r2) as [r3|] eqn:Q.
    - apply strip_prefix_some in Q. change (lit ";") with [59] in Q. cbn [app] in Q. subst r2. cbn [length] in L2. split; [|lia].
      eapply suffix_trans; [apply suffix_cons|]. eapply suffix_trans; eassumption.
    - split; [eapply suffix_trans; eassumption|lia]. }
  destruct (seqb t (lit "by")); [destruct (fw_by f); cbn [bind]; eauto|].
  destruct (seqb t (lit "host")); [destruct (fw_host f); cbn [bind]; eauto|].
  destruct (seqb t (lit "proto")); [destruct (fw_proto f); cbn [bind]; eauto|]. cbn [bind]. auto.
Qed.

Lemma starts_ascii s : is_ascii s = true -> starts_with_ignore_case (lit "for=") s =
  Ok ((4 <=? length s)%nat && eq_ignore_case (firstn 4 s) (lit "for=")).
Proof.
  intros A. unfold starts_with_ignore_case. rewrite blen_for, (blen_ascii s A).
  destruct (4 <=? length s)%nat eqn:L; [replace (4 <=? N.of_nat (length s)) with true by lia|replace (4 <=? N.of_nat (length s)) with false by lia; reflexivity].
  change 4 with (N.of_nat 4). rewrite (split_at_ascii s 4 A) by lia. reflexivity.
Qed.

Lemma parse_loop_ok : forall fuel f s, is_ascii s = true -> commas_ok s -> (length s <= fuel)%nat -> parse_loop fuel f s <> Panic.
Proof.
  induction fuel as [|fuel IH]; intros f s A C L; (destruct s as [|c s]; [discriminate|]); [cbn in L; lia|].
  cbn [parse_loop]. remember (c :: s) as t eqn:Et. rewrite (starts_ascii t A). cbn [bind].
  destruct ((4 <=? length t)%nat && eq_ignore_case (firstn 4 t) (lit "for=")) eqn:B.
  - apply andb_true_iff in B as [B _].
    destruct (parse_for_ok (length t) f t A C ltac:(lia) (le_n _)) as [[e ->]|(f' & r & -> & S1 & S2)]; [discriminate|].
    cbn [bind]. apply IH; [eapply suffix_ascii; eassumption|eapply commas_suffix; eassumption|lia].
  - destruct (parse_pair_ok f t A) as [[e ->]|(f' & r & -> & S1 & S2)]; [discriminate|].
    cbn [bind]. apply IH; [eapply suffix_ascii; eassumption|eapply commas_suffix; eassumption|lia].
Qed.

(** ** Syntax of supported headers. *)

(** The inside of a quoted string and what it denotes. *)
Inductive qbody (qd : N -> bool) : str -> str -> Prop :=
| QB_nil : qbody qd [] []
| QB_text c e v : qd c = true -> qbody qd e v -> qbody qd (c :: e) (c :: v)
| QB_pair c e v : (c =? 9) || ((32 <=? c) && (c <=? 126)) = true -> qbody qd e v -> qbody qd (92 :: c :: e) (c :: v).

(** ASCII part of the accepted qdtext. *)
Definition code_qdtext (c : N) : bool := (c <? 128) && qdtext c.

Lemma qbody_qs e v r : qbody code_qdtext e v -> qs (e ++ 34 :: r) = QYes v r.
Proof.
  induction 1 as [|c e v Q B IH|c e v Q B IH]; cbn [app qs].
  - reflexivity.
  - apply andb_true_iff in Q as [Q1 Q2]. rewrite (low_byte_small c Q1). unfold qdtext in Q2.
    replace (c =? 92) with false by lia. replace (c =? 34) with false by lia. unfold qdtext. rewrite Q2, IH. reflexivity.
  - change (92 =? 92) with true. cbn iota. unfold vchar. assert (A : (c <? 128) = true) by lia. rewrite (low_byte_small c A).
    replace ((c =? 9) || (32 <=? c) && (c <=? 126) || (128 <=? c)) with true by lia. rewrite IH. reflexivity.
Qed.
Lemma qs_qbody : forall n s v r, (length s <= n)%nat -> is_ascii s = true -> qs s = QYes v r ->
  exists e, s = e ++ 34 :: r /\ qbody code_qdtext e v.
Proof.
  induction n as [|n IH]; intros s v r L A H; (destruct s as [|c s]; [discriminate|]); cbn [length] in L; [lia|].
  apply is_ascii_cons in A as [A1 A2]. cbn [qs] in H. rewrite (low_byte_small c A1) in H.
  destruct (N.eqb_spec c 92) as [->|N92].
  - destruct s as [|d s]; [discriminate|]. apply is_ascii_cons in A2 as [A2 A3]. destruct (vchar d) eqn:V; [|discriminate].
    destruct (qs s) as [| |v' r'] eqn:Q; try discriminate. inv H. apply IH in Q as (e & -> & Q); [|cbn [length] in L; lia|exact A3].
    exists (92 :: d :: e). split; [reflexivity|]. constructor; [|exact Q]. unfold vchar in V. rewrite (low_byte_small d A2) in V. lia.
  - destruct (N.eqb_spec c 34) as [->|N34].
    + inv H. exists []. split; [reflexivity|constructor].
    + destruct (qdtext c) eqn:Q; [|discriminate]. destruct (qs s) as [| |v' r'] eqn:Q'; try discriminate. inv H.
      apply IH in Q' as (e & -> & Q'); [|lia|exact A2]. exists (c :: e). split; [reflexivity|].
      constructor; [unfold code_qdtext; rewrite A1, Q; reflexivity|exact Q'].
Qed.

Inductive evalue := Tok (t : str) | Quo (e v : str).
Definition ev_ok (x : evalue) : Prop :=
  match x with Tok t => t <> [] /\ forallb tchar t = true | Quo e v => qbody code_qdtext e v end.
Definition ev_text (x : evalue) : str := match x with Tok t => t | Quo e _ => 34 :: e ++ [34] end.
Definition ev_val (x : evalue) : str := match x with Tok t => t | Quo _ v => v end.

Definition stops (r : str) : bool := match r with [] => true | c :: _ => negb (tchar c) end.
Lemma parse_value_text x r : ev_ok x -> stops r = true -> parse_value (ev_text x ++ r) = Ok (Some (ev_val x), r).
Proof.
  intros O S. unfold parse_value. destruct x as [t|e v]; cbn [ev_ok ev_text ev_val] in *.
  - destruct O as [N T]. rewrite parse_token_app by assumption. reflexivity.
  - rewrite parse_token_none by reflexivity. cbn [bind]. rewrite parse_quoted_spec. cbn [app]. rewrite <- app_assoc. cbn [app].
    rewrite (qbody_qs e v r O). reflexivity.
Qed.

Inductive section :=
| SFor (k : str) (x : evalue) (more : list (str * str * evalue))
| SPair (key : str) (x : evalue).
Definition for_ok (k : str) : Prop := to_lower k = lit "for=".
Definition more_ok (m : str * str * evalue) : Prop :=
  let '(w, k, x) := m in forallb is_ws w = true /\ is_ascii w = true /\ for_ok k /\ ev_ok x.
Definition sec_ok (s : section) : Prop :=
  match s with
  | SFor k x more => for_ok k /\ ev_ok x /\ Forall more_ok more
  | SPair key x => key <> [] /\ forallb tchar key = true /\ to_lower key <> lit "for" /\ ev_ok x
  end.
Definition more_text (m : str * str * evalue) : str := let '(w, k, x) := m in 44 :: w ++ k ++ ev_text x.
Definition sec_text (s : section) : str :=
  match s with
  | SFor k x more => k ++ ev_text x ++ flat_map more_text more
  | SPair key x => key ++ 61 :: ev_text x
  end.
Definition fw_text (l : list section) : str := join [59] (map sec_text l).

(** What the header says. *)
Definition sec_fors (s : section) : list str :=
  match s with SFor _ x more => ev_val x :: map (fun m => ev_val (snd m)) more | SPair _ _ => [] end.
Definition fors (l : list section) : list str := flat_map sec_fors l.
Definition given (key : str) (l : list section) : list str :=
  flat_map (fun s => match s with SPair k x => if str_eq_dec k key then [ev_val x] else [] | SFor _ _ _ => [] end) l.

Lemma qbody_ascii e v : qbody code_qdtext e v -> is_ascii e = true.
Proof.
  unfold is_ascii. induction 1 as [|c e v Q B IH|c e v Q B IH]; cbn [forallb]; [reflexivity| |].
  - rewrite IH. apply andb_true_iff in Q as [-> _]. reflexivity.
  - rewrite IH. replace (c <? 128) with true by lia. reflexivity.
Qed.
Lemma tchars_ascii t : forallb tchar t = true -> is_ascii t = true.
Proof. apply forallb_impl, tchar_ascii. Qed.
Lemma ev_ascii x : ev_ok x -> is_ascii (ev_text x) = true.
Proof.
  destruct x as [t|e v]; cbn [ev_ok ev_text]; [intros [_ T]; apply tchars_ascii, T|]. intros Q. apply qbody_ascii in Q.
  change (34 :: e ++ [34]) with ([34] ++ e ++ [34]). rewrite !is_ascii_app, Q. reflexivity.
Qed.
Lemma for_ascii k : for_ok k -> is_ascii k = true /\ length k = 4%nat.
Proof.
  unfold for_ok. intros H. split; [rewrite <- is_ascii_to_lower, H; reflexivity|]. rewrite <- to_lower_length, H. reflexivity.
Qed.
Lemma more_ascii m : more_ok m -> is_ascii (more_text m) = true.
Proof.
  destruct m as [[w k] x]. cbn [more_ok more_text]. intros (_ & W & K & X). change (44 :: w ++ k ++ ev_text x) with ([44] ++ w ++ k ++ ev_text x).
  rewrite !is_ascii_app, W, (ev_ascii x X), (proj1 (for_ascii k K)). reflexivity.
Qed.
Lemma sec_ascii s : sec_ok s -> is_ascii (sec_text s) = true.
Proof.
  destruct s as [k x more|key x]; cbn [sec_ok sec_text].
  - intros (K & X & M). rewrite !is_ascii_app, (proj1 (for_ascii k K)), (ev_ascii x X). cbn [andb].
    induction M as [|m more M1 M2 IH]; [reflexivity|]. cbn [flat_map]. rewrite is_ascii_app, (more_ascii m M1), IH. reflexivity.
  - intros (_ & K & _ & X). change (key ++ 61 :: ev_text x) with (key ++ [61] ++ ev_text x).
    rewrite !is_ascii_app, (ev_ascii x X), (tchars_ascii key K). reflexivity.
Qed.

Lemma add_fors_nil f : mkForwarded (fw_by f) (fw_for f ++ []) (fw_host f) (fw_proto f) = f.
Proof. destruct f. cbn. rewrite app_nil_r. reflexivity. Qed.
Definition add_fors (f : forwarded) (vs : list str) : forwarded := mkForwarded (fw_by f) (fw_for f ++ vs) (fw_host f) (fw_proto f).

(** What may follow a [for] list: the end, or a semicolon. *)
Inductive tail_of : str -> str -> Prop :=
| T_end : tail_of [] []
| T_semi r : tail_of (59 :: r) r.

Lemma not_ws_for k t : for_ok k -> drop_while is_ws (k ++ t) = k ++ t.
Proof.
  intros K. destruct k as [|c k]; [discriminate|]. cbn [app drop_while].
  replace (is_ws c) with false; [reflexivity|]. unfold for_ok, to_lower in K. cbn [map] in K. injection K as K _. change (lower_char c = 102) in K.
  unfold lower_char, is_upper, is_ws in *. destruct ((65 <=? c) && (c <=? 90)) eqn:E; lia.
Qed.

Lemma parse_for_text : forall more fuel f k x tail r, for_ok k -> ev_ok x -> Forall more_ok more -> tail_of tail r ->
  (length more < fuel)%nat ->
  parse_for fuel f (k ++ ev_text x ++ flat_map more_text more ++ tail) =
  Ok (add_fors f (ev_val x :: map (fun m => ev_val (snd m)) more), r).
Proof.
  induction more as [|[[w k'] x'] more IH]; intros fuel f k x tail r K X M T L; (destruct fuel as [|fuel]; [cbn in L; lia|]);
    cbn [parse_for]; unfold match_ignore_case; rewrite blen_for;
    (rewrite split_at_at; [|destruct (for_ascii k K) as [A1 A2]; rewrite (blen_ascii k A1), A2; reflexivity]); cbn [bind];
    (replace (eq_ignore_case k (lit "for=")) with true by (unfold eq_ignore_case; rewrite K; reflexivity)); cbn [bind].
  - cbn [flat_map app]. rewrite parse_value_text; [|exact X|destruct T; reflexivity]. cbn [bind]. destruct T; reflexivity.
  - inv M. destruct H1 as (W & _ & K' & X'). cbn [flat_map more_text app]. rewrite parse_value_text; [|exact X|reflexivity]. cbn [bind].
    change (44 =? 44) with true. cbn iota. unfold trim_start, trim_start_matches. rewrite <- !app_assoc.
    rewrite drop_while_app_all by exact W. rewrite not_ws_for by exact K'.
    rewrite (IH fuel (add_for f (ev_val x)) k' x' tail r K' X' H2 T) by (cbn [length] in L; lia).
    cbn [map snd]. unfold add_fors, add_for. cbn [fw_by fw_for fw_host fw_proto]. rewrite <- app_assoc. reflexivity.
Qed.

(** One more pair, if its key is new. *)
Definition put (f : forwarded) (key v : str) : option forwarded :=
  if str_eq_dec key (lit "by") then match fw_by f with Some _ => None | None => Some (set_by f v) end
  else if str_eq_dec key (lit "host") then match fw_host f with Some _ => None | None => Some (set_host f v) end
  else if str_eq_dec key (lit "proto") then match fw_proto f with Some _ => None | None => Some (set_proto f v) end
  else Some f.
Definition apply_sec (f : forwarded) (s : section) : option forwarded :=
  match s with SFor _ _ _ => Some (add_fors f (sec_fors s)) | SPair key x => put f key (ev_val x) end.
Fixpoint apply_all (f : forwarded) (l : list section) : option forwarded :=
  match l with [] => Some f | s :: l' => obind (apply_sec f s) (fun f' => apply_all f' l') end.

Lemma parse_pair_text f key x tail r : sec_ok (SPair key x) -> tail_of tail r ->
  parse_forwarded_pair f (key ++ 61 :: ev_text x ++ tail) =
  match put f key (ev_val x) with Some f' => Ok (f', r) | None => Err 500 end.
Proof.
  intros (N & K & _ & X) T. unfold parse_forwarded_pair. rewrite parse_token_app; [|exact K|exact N|reflexivity]. cbn [bind].
  change (strip_prefix (lit "=") (61 :: ev_text x ++ tail)) with (Some (ev_text x ++ tail)). cbn iota.
  rewrite parse_value_text; [|exact X|destruct T; reflexivity]. cbn [bind].
  assert (E : match strip_prefix (lit ";") tail with Some r => r | None => tail end = r) by (destruct T; reflexivity). rewrite E.
  unfold put. destruct (str_eq_dec key (lit "by")) as [->|N1]; [cbn [seqb]; destruct (fw_by f); reflexivity|].
  rewrite (proj2 (seqb_neq _ _) N1). destruct (str_eq_dec key (lit "host")) as [->|N2]; [destruct (fw_host f); reflexivity|].
  rewrite (proj2 (seqb_neq _ _) N2). destruct (str_eq_dec key (lit "proto")) as [->|N3]; [destruct (fw_proto f); reflexivity|].
  rewrite (proj2 (seqb_neq _ _) N3). reflexivity.
Qed.

Lemma lower_tchar_not_eq c : tchar c = true -> lower_char c <> 61.
Proof.
  intros T E. assert (c = 61) as -> by (unfold lower_char, is_upper in E; destruct ((65 <=? c) && (c <=? 90)) eqn:F; lia).
  discriminate T.
Qed.

Lemma pair_not_for key r : key <> [] -> forallb tchar key = true -> to_lower key <> lit "for" ->
  eq_ignore_case (firstn 4 (key ++ 61 :: r)) (lit "for=") = false.
Proof.
  intros N K F. apply seqb_neq. intros E. unfold to_lower in *.
  destruct key as [|a [|b [|c [|d key]]]]; [congruence| | | |]; cbn [app firstn map lit list_ascii_of_string] in E.
  - injection E as E1 E2. discriminate.
  - injection E as E1 E2 E3. discriminate.
  - injection E as E1 E2 E3. apply F. cbn [map]. rewrite E1, E2, E3. reflexivity.
  - injection E as E1 E2 E3 E4. cbn [forallb] in K. apply (lower_tchar_not_eq d); [|exact E4].
    destruct (tchar d); [reflexivity|]. rewrite !andb_false_r in K. discriminate K.
Qed.

Lemma for_starts k t : for_ok k -> (4 <=? length (k ++ t))%nat && eq_ignore_case (firstn 4 (k ++ t)) (lit "for=") = true.
Proof.
  intros K. destruct (for_ascii k K) as [_ L]. rewrite app_length, L. replace (4 <=? 4 + length t)%nat with true by lia. cbn [andb].
  rewrite <- L at 1. rewrite firstn_app, Nat.sub_diag, firstn_all. cbn [firstn]. rewrite app_nil_r. unfold eq_ignore_case. rewrite K. reflexivity.
Qed.

Lemma sec_nonempty s : sec_ok s -> sec_text s <> [].
Proof.
  destruct s as [k x more|key x]; cbn [sec_ok sec_text].
  - intros (K & _). destruct k; discriminate.
  - intros _. destruct key; discriminate.
Qed.
Lemma more_length more : (length more <= length (flat_map more_text more))%nat.
Proof. induction more as [|[[w k] x] more IH]; [reflexivity|]. cbn [flat_map length more_text app]. rewrite app_length. lia. Qed.

(** One round of the main loop. *)
Lemma loop_step fuel f s tail r : sec_ok s -> tail_of tail r -> is_ascii tail = true ->
  parse_loop (S fuel) f (sec_text s ++ tail) =
  match apply_sec f s with Some f' => parse_loop fuel f' r | None => Err 500 end.
Proof.
  intros O T A. assert (A' : is_ascii (sec_text s ++ tail) = true) by (rewrite is_ascii_app, (sec_ascii s O), A; reflexivity).
  assert (N := sec_nonempty s O).
  assert (U : forall input, input <> [] -> parse_loop (S fuel) f input =
     (let* b := starts_with_ignore_case (lit "for=") input in
      let* (f', rest) := if b then parse_for (length input) f input else parse_forwarded_pair f input in parse_loop fuel f' rest)).
  { intros [|c i] H; [congruence|reflexivity]. }
  rewrite U by (destruct (sec_text s); [congruence|discriminate]). rewrite starts_ascii by exact A'. cbn [bind].
  destruct s as [k x more|key x]; cbn [sec_text apply_sec].
  - destruct O as (K & X & M). rewrite <- !app_assoc. rewrite for_starts by exact K.
    rewrite (parse_for_text more _ f k x tail r K X M T).
    + reflexivity.
    + assert (H := more_length more). rewrite !app_length. destruct (for_ascii k K) as [_ ->]. lia.
  - assert (O' := O). destruct O as (N' & K & F & X). rewrite <- app_assoc. cbn [app]. rewrite (pair_not_for key _ N' K F), andb_false_r.
    rewrite (parse_pair_text f key x tail r O' T). destruct (put f key (ev_val x)); reflexivity.
Qed.

Definition trail (b : bool) : str := if b then [59] else [].
Lemma join_ascii l : Forall sec_ok l -> is_ascii (fw_text l) = true.
Proof.
  unfold fw_text. induction l as [|s l IH]; intros H; [reflexivity|]. inv H. cbn [map]. destruct (map sec_text l) as [|y ys] eqn:E.
  - cbn [join]. apply sec_ascii, H2.
  - change (join [59] (sec_text s :: y :: ys)) with (sec_text s ++ [59] ++ join [59] (y :: ys)). rewrite !is_ascii_app, (sec_ascii s H2), IH by exact H3. reflexivity.
Qed.

Lemma parse_text : forall l fuel f b, Forall sec_ok l -> l <> [] -> (length (fw_text l ++ trail b) <= fuel)%nat ->
  parse_loop fuel f (fw_text l ++ trail b) = match apply_all f l with Some f' => Ok f' | None => Err 500 end.
Proof.
  induction l as [|s l IH]; intros fuel f b O N L; [congruence|]. inv O. assert (NE := sec_nonempty s H1).
  destruct fuel as [|fuel]; [|destruct l as [|s2 l]].
  - exfalso. revert L. unfold fw_text. cbn [map]. rewrite app_length. destruct l as [|s2 l]; cbn [map join];
      (destruct (sec_text s) as [|? ?]; [congruence|cbn [app length]; lia]).
  - unfold fw_text. cbn [map join apply_all]. rewrite (loop_step fuel f s (trail b) [] H1).
    + destruct (apply_sec f s); cbn [obind]; [destruct fuel; reflexivity|reflexivity].
    + destruct b; constructor.
    + destruct b; reflexivity.
  - assert (E : fw_text (s :: s2 :: l) ++ trail b = sec_text s ++ 59 :: fw_text (s2 :: l) ++ trail b).
    { unfold fw_text. cbn [map]. change (join [59] (sec_text s :: sec_text s2 :: map sec_text l)) with (sec_text s ++ [59] ++ join [59] (sec_text s2 :: map sec_text l)).
      rewrite <- !app_assoc. reflexivity. }
    rewrite E in L |- *. rewrite (loop_step fuel f s _ (fw_text (s2 :: l) ++ trail b) H1 (T_semi _)).
    + cbn [apply_all]. destruct (apply_sec f s) as [f'|]; cbn [obind]; [|reflexivity]. apply (IH fuel f' b H2); [discriminate|].
      rewrite app_length in L. cbn [length] in L. lia.
    + change (59 :: fw_text (s2 :: l) ++ trail b) with ([59] ++ fw_text (s2 :: l) ++ trail b). rewrite !is_ascii_app, join_ascii by exact H2.
      destruct b; reflexivity.
Qed.

(** What applying the sections gives, in terms of the whole list. *)
Definition merge (o : option str) (vs : list str) : option (option str) :=
  match o, vs with
  | _, [] => Some o
  | None, [v] => Some (Some v)
  | _, _ => None
  end.
Lemma given_cons key s l : given key (s :: l) = given key [s] ++ given key l.
Proof. unfold given. cbn [flat_map]. rewrite app_nil_r. reflexivity. Qed.
Lemma fors_cons s l : fors (s :: l) = sec_fors s ++ fors l.
Proof. reflexivity. Qed.
Ltac opts := repeat match goal with |- context [match ?x with Some _ => _ | None => _ end] => destruct x end; reflexivity.
Lemma apply_all_spec : forall l f, apply_all f l =
  match merge (fw_by f) (given (lit "by") l), merge (fw_host f) (given (lit "host") l), merge (fw_proto f) (given (lit "proto") l) with
  | Some b, Some h, Some p => Some (mkForwarded b (fw_for f ++ fors l) h p)
  | _, _, _ => None
  end.
Proof.
  induction l as [|s l IH]; intros f.
  - cbn. destruct f as [b fs h p]. cbn. rewrite app_nil_r. destruct b, h, p; reflexivity.
  - cbn [apply_all]. rewrite fors_cons, !(given_cons _ s l). destruct s as [k x more|key x].
    + cbn [apply_sec obind]. rewrite IH. cbn [given flat_map app]. unfold add_fors. cbn [fw_by fw_for fw_host fw_proto].
      rewrite <- app_assoc. reflexivity.
    + cbn [apply_sec sec_fors app]. unfold put, given. cbn [flat_map]. rewrite !app_nil_r.
      destruct (str_eq_dec key (lit "by")) as [->|N1].
      { destruct (str_eq_dec (lit "by") (lit "host")) as [E|_]; [discriminate E|]. destruct (str_eq_dec (lit "by") (lit "proto")) as [E|_]; [discriminate E|].
        cbn [app]. destruct (fw_by f) as [b|] eqn:B; cbn [obind]; [cbn [merge]; opts|].
        rewrite IH. unfold set_by. cbn [fw_by fw_for fw_host fw_proto]. fold (given (lit "by") l).
        destruct (given (lit "by") l); reflexivity. }
      destruct (str_eq_dec key (lit "host")) as [->|N2].
      { destruct (str_eq_dec (lit "host") (lit "proto")) as [E|_]; [discriminate E|].
        cbn [app]. fold (given (lit "by") l) (given (lit "host") l) (given (lit "proto") l). destruct (fw_host f) as [b|] eqn:B; cbn [obind]; [cbn [merge]; opts|].
        rewrite IH. unfold set_host. cbn [fw_by fw_for fw_host fw_proto].
        destruct (given (lit "host") l); cbn [merge]; [reflexivity|]. opts. }
      destruct (str_eq_dec key (lit "proto")) as [->|N3].
      { cbn [app]. fold (given (lit "by") l) (given (lit "host") l) (given (lit "proto") l). destruct (fw_proto f) as [b|] eqn:B; cbn [obind]; [cbn [merge]; opts|].
        rewrite IH. unfold set_proto. cbn [fw_by fw_for fw_host fw_proto].
        destruct (given (lit "proto") l); cbn [merge]; [reflexivity|]. opts. }
      cbn [obind app]. rewrite IH. reflexivity.
Qed.
