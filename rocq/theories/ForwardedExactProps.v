(** C36 and C37 continued: exactly which ASCII texts Forwarded parsing accepts, and with what result, and on which
    it panics. *)
From Verif Require Import Base BaseFacts ParseUtils ParseUtilsFacts Method Headers Body Message Forwarded ForwardedFacts ForwardedProps.
From Coq Require Import ZifyBool ZifyNat ZifyN.

(** ** Inversion of the parsers. *)
Lemma parse_value_inv s v r : is_ascii s = true -> parse_value s = Ok (Some v, r) ->
  exists x, ev_ok x /\ ev_val x = v /\ s = ev_text x ++ r /\ (stops r = true \/ exists e, x = Quo e v).
Proof.
  intros A H. unfold parse_value in H. destruct (parse_token_cases s) as [[E _]|(t & r' & E & S & N & T)]; rewrite E in H; cbn [bind] in H.
  - destruct (C38_quoted_string_decoded_partial s A) as [C _]. apply C in H as (e & -> & Q).
    exists (Quo e v). split.
    + cbn [ev_ok]. apply is_ascii_cons in A as [_ A]. rewrite is_ascii_app in A. apply andb_true_iff in A as [A _].
      eapply qbody_ext; [|exact Q]. intros c I. unfold is_ascii in A. rewrite forallb_forall in A. specialize (A c I). unfold lax_qdtext, code_qdtext, qdtext. lia.
    + split; [reflexivity|]. split; [cbn [ev_text app]; rewrite <- app_assoc; reflexivity|]. right. exists e. reflexivity.
  - injection H as <- <-. exists (Tok t). split; [split; assumption|]. split; [reflexivity|]. split; [exact S|]. left.
    rewrite parse_token_spec in E. destruct (drop_while tchar s) as [|c d] eqn:D.
    + destruct (take_while tchar s); [discriminate E|]. injection E as _ <-. reflexivity.
    + destruct (take_while tchar s); [discriminate E|]. injection E as _ <-. cbn [stops]. apply drop_while_head in D. rewrite D. reflexivity.
Qed.
Lemma parse_value_cases s : is_ascii s = true -> (exists r, parse_value s = Ok (None, r)) \/ exists v r, parse_value s = Ok (Some v, r).
Proof. intros A. destruct (parse_value_ascii s A) as [H|(v & r & H & _)]; eauto. Qed.

Lemma eq_lower a b : eq_ignore_case a b = true <-> to_lower a = to_lower b.
Proof. unfold eq_ignore_case. apply seqb_eq. Qed.

(** A list of [for] elements that is broken off: a comma and fewer than four characters after the white space. *)
Definition broken (s : str) : Prop := exists k x more r,
  sec_ok (SFor k x more) /\ s = sec_text (SFor k x more) ++ 44 :: r /\ (length (trim_start r) < 4)%nat.

Lemma parse_for_inv : forall fuel f s, is_ascii s = true -> (length s < fuel)%nat -> (4 <= length s)%nat ->
  match parse_for fuel f s with
  | Ok (f', r) => exists k x more tail, sec_ok (SFor k x more) /\ s = sec_text (SFor k x more) ++ tail /\ tail_of tail r /\
                    f' = add_fors f (sec_fors (SFor k x more))
  | Err e => e = 500
  | Panic => broken s
  end.
Proof.
  induction fuel as [|fuel IH]; intros f s A L K; [lia|]. cbn [parse_for]. unfold match_ignore_case. rewrite blen_for.
  change 4 with (N.of_nat 4). rewrite (split_at_ascii s 4 A K). cbn [bind].
  destruct (eq_ignore_case (firstn 4 s) (lit "for=")) eqn:F; cbn [bind]; [|reflexivity].
  assert (FO : for_ok (firstn 4 s)) by (apply eq_lower in F; exact F).
  assert (L4 : (length (skipn 4 s) = length s - 4)%nat) by apply skipn_length.
  assert (A4 : is_ascii (skipn 4 s) = true) by (eapply suffix_ascii; [|exact A]; exists (firstn 4 s); symmetry; apply firstn_skipn).
  assert (S4 : s = firstn 4 s ++ skipn 4 s) by (symmetry; apply firstn_skipn).
  destruct (parse_value_cases (skipn 4 s) A4) as [(r & ->)|(v & r & V)]; [reflexivity|]. rewrite V. cbn [bind].
  destruct (parse_value_inv _ _ _ A4 V) as (x & X & <- & E & _). rewrite E in S4. clear E V F.
  destruct r as [|c r].
  - exists (firstn 4 s), x, [], []. cbn [sec_ok sec_text flat_map sec_fors map]. rewrite !app_nil_r in *. repeat split; auto; constructor.
  - assert (Ar : is_ascii r = true).
    { rewrite S4 in A. rewrite !is_ascii_app in A. apply andb_true_iff in A as [_ A]. apply andb_true_iff in A as [_ A]. apply is_ascii_cons in A. tauto. }
    assert (Lr : (length r < length s)%nat) by (apply (f_equal (@length N)) in S4; rewrite !app_length in S4; cbn [length] in S4; lia).
    destruct (N.eqb_spec c 44) as [->|N].
    + assert (Lt := suffix_length _ _ (suffix_drop_while is_ws r)).
      assert (At : is_ascii (drop_while is_ws r) = true) by (eapply suffix_ascii; [apply suffix_drop_while|exact Ar]).
      destruct (le_lt_dec 4 (length (drop_while is_ws r))) as [G|G].
      * specialize (IH (add_for f (ev_val x)) (drop_while is_ws r) At ltac:(lia) G). unfold trim_start, trim_start_matches.
        destruct (drop_while_suffix is_ws r) as (w & W1 & W2).
        assert (Aw : is_ascii w = true) by (rewrite W1 in Ar; rewrite is_ascii_app in Ar; apply andb_true_iff in Ar; tauto).
        destruct (parse_for fuel (add_for f (ev_val x)) (drop_while is_ws r)) as [[f' r']| |].
        -- destruct IH as (k & y & more & tail & (O1 & O2 & O3) & S & T & ->). exists (firstn 4 s), x, ((w, k, y) :: more), tail.
           split; [|split; [|split]].
           ++ cbn [sec_ok]. repeat split; auto. constructor; [|exact O3]. cbn [more_ok]. auto.
           ++ rewrite S4 at 1. cbn [sec_text flat_map more_text]. rewrite W1, S. cbn [sec_text app]. rewrite <- ?app_assoc. cbn [app]. rewrite <- ?app_assoc. reflexivity.
           ++ exact T.
           ++ cbn [sec_fors map snd]. unfold add_fors, add_for. cbn [fw_by fw_for fw_host fw_proto]. rewrite <- app_assoc. reflexivity.
        -- exact IH.
        -- destruct IH as (k & y & more & r' & (O1 & O2 & O3) & S & T). exists (firstn 4 s), x, ((w, k, y) :: more), r'.
           split; [|split; [|exact T]].
           ++ cbn [sec_ok]. repeat split; auto. constructor; [|exact O3]. cbn [more_ok]. auto.
           ++ rewrite S4 at 1. cbn [sec_text flat_map more_text]. rewrite W1, S. cbn [sec_text app]. rewrite <- ?app_assoc. cbn [app]. rewrite <- ?app_assoc. reflexivity.
      * assert (P : parse_for fuel (add_for f (ev_val x)) (trim_start r) = Panic).
        { destruct fuel as [|fuel]; [reflexivity|]. cbn [parse_for]. unfold match_ignore_case. rewrite blen_for.
          unfold trim_start, trim_start_matches. destruct (drop_while is_ws r) as [|a [|b [|d [|e z]]]]; cbn [length] in G; try lia;
          rewrite ?is_ascii_cons in At; unfold split_at, clen; 
          repeat match goal with H : _ /\ _ |- _ => destruct H end;
          repeat match goal with H : (?c <? 128) = true |- _ => rewrite H; clear H end; reflexivity. }
        rewrite P. exists (firstn 4 s), x, [], r. cbn [sec_ok sec_text flat_map]. rewrite app_nil_r. split; [repeat split; auto|]. split; [|exact G].
        rewrite <- app_assoc. exact S4.
    + destruct (N.eqb_spec c 59) as [->|N'].
      * exists (firstn 4 s), x, [], (59 :: r). cbn [sec_ok sec_text flat_map sec_fors map]. rewrite !app_nil_r. split; [repeat split; auto|].
        split; [rewrite <- app_assoc; exact S4|]. split; [constructor|reflexivity].
      * reflexivity.
Qed.

(** What may follow a pair: the end, a semicolon, or directly the next one if the value is quoted. *)
Lemma parse_pair_inv f s : is_ascii s = true -> (4 <=? length s)%nat && eq_ignore_case (firstn 4 s) (lit "for=") = false ->
  match parse_forwarded_pair f s with
  | Ok (f', r) => exists key x tail, sec_ok (SPair key x) /\ s = sec_text (SPair key x) ++ tail /\ put f key (ev_val x) = Some f' /\
                    (tail_of tail r \/ (tail = r /\ r <> [] /\ (stops r = true \/ exists e, x = Quo e (ev_val x))))
  | Err e => e = 500
  | Panic => False
  end.
Proof.
  intros A NF. unfold parse_forwarded_pair. destruct (parse_token_cases s) as [[-> _]|(t & r & -> & E & N & T)]; cbn [bind]; [reflexivity|].
  destruct (strip_prefix (lit "=") r) as [r1|] eqn:P; [|reflexivity]. apply strip_prefix_some in P. change (lit "=") with [61] in P. cbn [app] in P.
  assert (A1 : is_ascii r1 = true) by (rewrite E, P, is_ascii_app in A; apply andb_true_iff in A as [_ A]; apply is_ascii_cons in A; tauto).
  destruct (parse_value_cases r1 A1) as [(r2 & ->)|(v & r2 & V)]; [reflexivity|]. rewrite V. cbn [bind].
  destruct (parse_value_inv _ _ _ A1 V) as (x & X & <- & E1 & ST).
  assert (O : sec_ok (SPair t x)).
  { cbn [sec_ok]. split; [exact N|]. split; [exact T|]. split; [|exact X]. intros F. rewrite E, P in NF. clear - F NF.
    assert (LT : length t = 3%nat) by (rewrite <- to_lower_length, F; reflexivity).
    destruct t as [|a [|b [|c [|d t]]]]; try discriminate LT. cbn [app length firstn] in NF.
    unfold eq_ignore_case in NF. change (to_lower [a; b; c; 61]) with (to_lower [a; b; c] ++ [61]) in NF. rewrite F in NF. 
    replace (4 <=? S (S (S (S (length r1)))))%nat with true in NF by lia. discriminate NF. }
  assert (Fin : forall f', put f t (ev_val x) = Some f' -> exists key x' tail, sec_ok (SPair key x') /\ s = sec_text (SPair key x') ++ tail /\ put f key (ev_val x') = Some f' /\
     (tail_of tail (match strip_prefix (lit ";") r2 with Some r => r | None => r2 end) \/
      (tail = (match strip_prefix (lit ";") r2 with Some r => r | None => r2 end) /\ (match strip_prefix (lit ";") r2 with Some r => r | None => r2 end) <> [] /\
       (stops (match strip_prefix (lit ";") r2 with Some r => r | None => r2 end) = true \/ exists e, x' = Quo e (ev_val x'))))).
  { intros f' PU. exists t, x, r2. split; [exact O|]. split; [cbn [sec_text]; rewrite <- app_assoc; cbn [app]; rewrite <- E1, <- P; exact E|]. split; [exact PU|].
    destruct (strip_prefix (lit ";") r2) as [r3|] eqn:Q.
    - apply strip_prefix_some in Q. change (lit ";") with [59] in Q. cbn [app] in Q. subst r2. left. constructor.
    - destruct r2 as [|c r2]; [left; constructor|]. right. split; [reflexivity|]. split; [discriminate|exact ST]. }
  assert (PU : (if seqb t (lit "by") then match fw_by f with Some _ => Err 500 | None => Ok (set_by f (ev_val x)) end
                else if seqb t (lit "host") then match fw_host f with Some _ => Err 500 | None => Ok (set_host f (ev_val x)) end
                else if seqb t (lit "proto") then match fw_proto f with Some _ => Err 500 | None => Ok (set_proto f (ev_val x)) end
                else Ok f) = match put f t (ev_val x) with Some f' => Ok f' | None => Err 500 end).
  { unfold put. destruct (str_eq_dec t (lit "by")) as [->|N1]; [change (seqb (lit "by") (lit "by")) with true; destruct (fw_by f); reflexivity|].
    rewrite (proj2 (seqb_neq _ _) N1). destruct (str_eq_dec t (lit "host")) as [->|N2]; [change (seqb (lit "host") (lit "host")) with true; destruct (fw_host f); reflexivity|].
    rewrite (proj2 (seqb_neq _ _) N2). destruct (str_eq_dec t (lit "proto")) as [->|N3]; [change (seqb (lit "proto") (lit "proto")) with true; destruct (fw_proto f); reflexivity|].
    rewrite (proj2 (seqb_neq _ _) N3). reflexivity. }
  rewrite PU. destruct (put f t (ev_val x)) as [f'|]; cbn [bind]; [apply Fin; reflexivity|reflexivity].
Qed.

(** ** Texts as the code accepts them: sections, each with or without a semicolon after it; without one it must be the
    last, or a pair with a quoted value. *)
Definition ltext (l : list (section * bool)) : str := flat_map (fun p => sec_text (fst p) ++ trail (snd p)) l.
Definition open_ended (s : section) : Prop := exists key e v, s = SPair key (Quo e v).
(** [last]: whether the final section may lack its semicolon in any case. *)
Fixpoint lax_ok (last : bool) (l : list (section * bool)) : Prop :=
  match l with
  | [] => True
  | (s, b) :: l' => sec_ok s /\ (b = true \/ open_ended s \/ (l' = [] /\ last = true)) /\ lax_ok last l'
  end.

Lemma loop_stops fuel f s : is_ascii s = true -> s <> [] -> stops s = true -> parse_loop (S fuel) f s = Err 500.
Proof.
  intros A N S. destruct s as [|c s]; [congruence|]. cbn [stops] in S. cbn [parse_loop]. rewrite starts_ascii by exact A. cbn [bind].
  assert (B : eq_ignore_case (firstn 4 (c :: s)) (lit "for=") = false).
  { apply seqb_neq. intros E. unfold to_lower in E. cbn [firstn map] in E. change (map lower_char (lit "for=")) with [102; 111; 114; 61] in E. injection E as E _.
    unfold tchar, is_lower, is_upper, lower_char, is_upper in *. destruct ((65 <=? c) && (c <=? 90)) eqn:Q; lia. }
  rewrite B, andb_false_r. unfold parse_forwarded_pair. rewrite parse_token_none by (cbn [stops]; exact S). reflexivity.
Qed.

Definition meaning (l : list (section * bool)) (f : forwarded) : option forwarded := apply_all f (map fst l).

Lemma loop_inv : forall fuel f s, is_ascii s = true -> (length s <= fuel)%nat ->
  match parse_loop fuel f s with
  | Ok f' => exists l, lax_ok true l /\ s = ltext l /\ meaning l f = Some f'
  | Err e => e = 500
  | Panic => exists l t, lax_ok false l /\ s = ltext l ++ t /\ broken t /\ meaning l f <> None
  end.
Proof.
  induction fuel as [|fuel IH]; intros f s A L; (destruct s as [|c s]; [exists []; cbn; auto|]); [cbn in L; lia|].
  cbn [parse_loop]. remember (c :: s) as t eqn:Et. rewrite (starts_ascii t A). cbn [bind].
  destruct ((4 <=? length t)%nat && eq_ignore_case (firstn 4 t) (lit "for=")) eqn:B.
  - apply andb_true_iff in B as [B B'].
    (* the loop gives exactly the length as fuel; one more does not matter *)
    assert (PF : parse_for (length t) f t = parse_for (S (length t)) f t).
    { clear - A. assert (G : forall n m f t, is_ascii t = true -> (length t <= n)%nat -> (length t <= m)%nat -> (4 <= length t)%nat -> parse_for n f t = parse_for m f t).
      { induction n as [|n IH]; intros m g t0 A0 L1 L2 L3; [lia|]. destruct m as [|m]; [lia|]. cbn [parse_for]. unfold match_ignore_case. rewrite blen_for.
        change 4 with (N.of_nat 4). rewrite (split_at_ascii t0 4 A0 L3). cbn [bind]. destruct (eq_ignore_case (firstn 4 t0) (lit "for=")); cbn [bind]; [|reflexivity].
        assert (L4 : (length (skipn 4 t0) = length t0 - 4)%nat) by apply skipn_length.
        assert (A4 : is_ascii (skipn 4 t0) = true) by (eapply suffix_ascii; [|exact A0]; exists (firstn 4 t0); symmetry; apply firstn_skipn).
        destruct (parse_value_ascii (skipn 4 t0) A4) as [(r & ->)|(v & r & -> & S1 & S2)]; [reflexivity|]. cbn [bind].
        destruct r as [|c r]; [reflexivity|]. destruct (c =? 44); [|reflexivity]. cbn [length] in S2.
        assert (Ar : is_ascii r = true) by (eapply suffix_ascii; [|exact A4]; eapply suffix_trans; [apply suffix_cons|exact S1]).
        assert (Lt := suffix_length _ _ (suffix_drop_while is_ws r)).
        assert (At : is_ascii (drop_while is_ws r) = true) by (eapply suffix_ascii; [apply suffix_drop_while|exact Ar]).
        unfold trim_start, trim_start_matches. destruct (le_lt_dec 4 (length (drop_while is_ws r))) as [G|G]; [apply IH; auto; lia|].
        assert (P : forall fuel, parse_for fuel (add_for g v) (drop_while is_ws r) = Panic).
        { intros [|fu]; [reflexivity|]. cbn [parse_for]. unfold match_ignore_case. rewrite blen_for.
          destruct (drop_while is_ws r) as [|a [|b [|d [|e z]]]]; cbn [length] in G; try lia;
          rewrite ?is_ascii_cons in At; unfold split_at, clen; 
          repeat match goal with H : _ /\ _ |- _ => destruct H end;
          repeat match goal with H : (?c <? 128) = true |- _ => rewrite H; clear H end; reflexivity. }
        rewrite !P. reflexivity. }
      destruct (le_lt_dec 4 (length t)) as [X|X]; [apply G; auto; lia|].
      assert (P : forall fuel, parse_for fuel f t = Panic).
      { intros [|fu]; [reflexivity|]. cbn [parse_for]. unfold match_ignore_case. rewrite blen_for.
        destruct t as [|a [|b [|d [|e z]]]]; cbn [length] in X; try lia;
        rewrite ?is_ascii_cons in A; unfold split_at, clen; 
        repeat match goal with H : _ /\ _ |- _ => destruct H end;
        repeat match goal with H : (?c <? 128) = true |- _ => rewrite H; clear H end; reflexivity. }
      rewrite !P. reflexivity. }
    rewrite PF. assert (I := parse_for_inv (S (length t)) f t A ltac:(lia) ltac:(lia)).
    destruct (parse_for (S (length t)) f t) as [[f' r]| |]; cbn [bind].
    + destruct I as (k & x & more & tail & O & S & T & ->).
      assert (Ar : is_ascii r = true) by (rewrite S, is_ascii_app in A; apply andb_true_iff in A as [_ A]; destruct T; [exact A|apply is_ascii_cons in A; tauto]).
      assert (Lr : (length r <= fuel)%nat).
      { apply (f_equal (@length N)) in S. rewrite app_length in S. assert (NE := sec_nonempty _ O). destruct (sec_text (SFor k x more)); [congruence|]. cbn [length] in S.
        destruct T; cbn [length] in *; lia. }
      specialize (IH (add_fors f (sec_fors (SFor k x more))) r Ar Lr). destruct (parse_loop fuel _ r) as [f'| |].
      * destruct IH as (l & O' & E & M). destruct T as [|r].
        -- exists [(SFor k x more, false)]. split; [cbn [lax_ok]; split; [exact O|split; [auto 6|auto]]|]. split; [cbn [ltext flat_map fst snd trail]; rewrite !app_nil_r in *; exact S|].
           destruct l as [|[s0 b0] l]; [exact M|]. exfalso. cbn [ltext flat_map fst] in E. destruct O' as (O' & _). assert (NE := sec_nonempty _ O'). destruct (sec_text s0); [congruence|discriminate E].
        -- exists ((SFor k x more, true) :: l). split; [cbn [lax_ok]; split; [exact O|split; [auto 6|auto]]|]. split; [|exact M].
           cbn [ltext flat_map fst snd trail]. fold (ltext l). rewrite <- E, <- app_assoc. exact S.
      * exact IH.
      * destruct IH as (l & u & O' & E & Br & M). destruct T as [|r].
        -- exfalso. destruct Br as (k' & x' & more' & r' & _ & -> & _). symmetry in E. apply app_eq_nil in E as [_ E]. apply app_eq_nil in E as [_ E]. discriminate E.
        -- exists ((SFor k x more, true) :: l), u. split; [cbn [lax_ok]; split; [exact O|split; [auto 6|auto]]|]. split; [|split; [exact Br|exact M]].
           cbn [ltext flat_map fst snd trail]. fold (ltext l). rewrite <- !app_assoc. rewrite <- E. exact S.
    + exact I.
    + exists [], t. split; [exact Logic.I|]. split; [reflexivity|]. split; [exact I|discriminate].
  - assert (I := parse_pair_inv f t A B). destruct (parse_forwarded_pair f t) as [[f' r]| |]; cbn [bind]; [|exact I|destruct I].
    destruct I as (key & x & tail & O & S & P & T).
    assert (Ar : is_ascii r = true).
    { rewrite S, is_ascii_app in A. apply andb_true_iff in A as [_ A]. destruct T as [T|(-> & _)]; [|exact A]. destruct T; [exact A|apply is_ascii_cons in A; tauto]. }
    assert (Lr : (length r <= fuel)%nat).
    { apply (f_equal (@length N)) in S. rewrite app_length in S. assert (NE := sec_nonempty _ O). destruct (sec_text (SPair key x)); [congruence|]. cbn [length] in S.
      destruct T as [T|(-> & _)]; [destruct T|]; cbn [length] in *; lia. }
    assert (H := IH f' r Ar Lr).
    destruct T as [T|(-> & NE & [ST|(e & Q)])].
    + destruct (parse_loop fuel f' r) as [f2| |].
      * destruct H as (l & O' & E & M). destruct T as [|r].
        -- exists [(SPair key x, false)]. split; [cbn [lax_ok]; split; [exact O|split; [auto 6|auto]]|]. split; [cbn [ltext flat_map fst snd trail]; rewrite !app_nil_r in *; exact S|].
           unfold meaning. cbn [map fst apply_all apply_sec]. rewrite P. cbn [obind].
           destruct l as [|[s0 b0] l]; [exact M|]. exfalso. cbn [ltext flat_map fst] in E. destruct O' as (O' & _). assert (NE := sec_nonempty _ O'). destruct (sec_text s0); [congruence|discriminate E].
        -- exists ((SPair key x, true) :: l). split; [cbn [lax_ok]; split; [exact O|split; [auto 6|auto]]|]. split; [|unfold meaning; cbn [map fst apply_all apply_sec]; rewrite P; exact M].
           cbn [ltext flat_map fst snd trail]. fold (ltext l). rewrite <- E, <- app_assoc. exact S.
      * exact H.
      * destruct H as (l & u & O' & E & Br & M). destruct T as [|r].
        -- exfalso. destruct Br as (k' & x' & more' & r' & _ & -> & _). symmetry in E. apply app_eq_nil in E as [_ E]. apply app_eq_nil in E as [_ E]. discriminate E.
        -- exists ((SPair key x, true) :: l), u. split; [cbn [lax_ok]; split; [exact O|split; [auto 6|auto]]|]. split; [|split; [exact Br|unfold meaning; cbn [map fst apply_all apply_sec]; rewrite P; exact M]].
           cbn [ltext flat_map fst snd trail]. fold (ltext l). rewrite <- !app_assoc. rewrite <- E. exact S.
    + destruct fuel as [|fuel]; [destruct r; [congruence|cbn in Lr; lia]|]. rewrite loop_stops; auto.
    + assert (OE : open_ended (SPair key x)) by (exists key, e, (ev_val x); rewrite <- Q; reflexivity).
      destruct (parse_loop fuel f' r) as [f2| |].
      * destruct H as (l & O' & E & M). exists ((SPair key x, false) :: l). split; [cbn [lax_ok]; split; [exact O|split; [auto 6|auto]]|].
        split; [|unfold meaning; cbn [map fst apply_all apply_sec]; rewrite P; exact M].
        cbn [ltext flat_map fst snd trail]. fold (ltext l). rewrite <- E, app_nil_r. exact S.
      * exact H.
      * destruct H as (l & u & O' & E & Br & M). exists ((SPair key x, false) :: l), u. split; [cbn [lax_ok]; split; [exact O|split; [auto 6|auto]]|].
        split; [|split; [exact Br|unfold meaning; cbn [map fst apply_all apply_sec]; rewrite P; exact M]].
        cbn [ltext flat_map fst snd trail]. fold (ltext l). rewrite app_nil_r, <- app_assoc, <- E. exact S.
Qed.

(** ** The other direction. *)
Lemma parse_value_quoted e v r : qbody code_qdtext e v -> parse_value (ev_text (Quo e v) ++ r) = Ok (Some v, r).
Proof.
  intros O. unfold parse_value. cbn [ev_text]. rewrite parse_token_none by reflexivity. cbn [bind]. rewrite parse_quoted_spec. cbn [app]. rewrite <- app_assoc. cbn [app].
  rewrite (qbody_qs e v r O). reflexivity.
Qed.
Lemma parse_pair_open f key e v r : sec_ok (SPair key (Quo e v)) -> stops r = false ->
  parse_forwarded_pair f (key ++ 61 :: ev_text (Quo e v) ++ r) =
  match put f key v with Some f' => Ok (f', r) | None => Err 500 end.
Proof.
  intros (N & K & _ & X) T. unfold parse_forwarded_pair. rewrite parse_token_app; [|exact K|exact N|reflexivity]. cbn [bind].
  change (strip_prefix (lit "=") (61 :: ev_text (Quo e v) ++ r)) with (Some (ev_text (Quo e v) ++ r)). cbn iota.
  rewrite parse_value_quoted by exact X. cbn [bind].
  assert (E : match strip_prefix (lit ";") r with Some r => r | None => r end = r).
  { destruct (strip_prefix (lit ";") r) as [q|] eqn:Q; [|reflexivity]. apply strip_prefix_some in Q. subst r. discriminate T. }
  rewrite E.
  unfold put. destruct (str_eq_dec key (lit "by")) as [->|N1]; [cbn [seqb]; destruct (fw_by f); reflexivity|].
  rewrite (proj2 (seqb_neq _ _) N1). destruct (str_eq_dec key (lit "host")) as [->|N2]; [destruct (fw_host f); reflexivity|].
  rewrite (proj2 (seqb_neq _ _) N2). destruct (str_eq_dec key (lit "proto")) as [->|N3]; [destruct (fw_proto f); reflexivity|].
  rewrite (proj2 (seqb_neq _ _) N3). reflexivity.
Qed.
Lemma loop_step_open fuel f key e v r : sec_ok (SPair key (Quo e v)) -> stops r = false -> is_ascii r = true ->
  parse_loop (S fuel) f (sec_text (SPair key (Quo e v)) ++ r) =
  match put f key v with Some f' => parse_loop fuel f' r | None => Err 500 end.
Proof.
  intros O T A. assert (A' : is_ascii (sec_text (SPair key (Quo e v)) ++ r) = true) by (rewrite is_ascii_app, (sec_ascii _ O), A; reflexivity).
  assert (N := sec_nonempty _ O).
  assert (U : forall input, input <> [] -> parse_loop (S fuel) f input =
     (let* b := starts_with_ignore_case (lit "for=") input in
      let* (f', rest) := if b then parse_for (length input) f input else parse_forwarded_pair f input in parse_loop fuel f' rest)).
  { intros [|c i] H; [congruence|reflexivity]. }
  rewrite U by (destruct (sec_text (SPair key (Quo e v))); [congruence|discriminate]). rewrite starts_ascii by exact A'. cbn [bind sec_text].
  assert (O' := O). destruct O as (N' & K & F & X). rewrite <- app_assoc. cbn [app]. rewrite (pair_not_for key _ N' K F), andb_false_r.
  assert (P := parse_pair_open f key e v r O' T). cbn [app] in P. rewrite P. destruct (put f key v); reflexivity.
Qed.
Lemma sec_starts s r : sec_ok s -> stops (sec_text s ++ r) = false.
Proof.
  destruct s as [k x more|key x]; cbn [sec_ok sec_text].
  - intros (K & _). destruct k as [|c k]; [discriminate K|]. cbn [app stops]. unfold for_ok, to_lower in K. cbn [map] in K. injection K as K _. change (lower_char c = 102) in K.
    unfold tchar, lower_char, is_upper, is_lower in *. destruct ((65 <=? c) && (c <=? 90)) eqn:E; lia.
  - intros (N & T & _). destruct key as [|c key]; [congruence|]. cbn [app stops forallb] in *. apply andb_true_iff in T as [-> _]. reflexivity.
Qed.
Lemma ltext_cons s b l t : ltext ((s, b) :: l) ++ t = sec_text s ++ trail b ++ ltext l ++ t.
Proof. cbn [ltext flat_map fst snd]. fold (ltext l). rewrite <- !app_assoc. reflexivity. Qed.
Lemma lax_ascii last l : lax_ok last l -> is_ascii (ltext l) = true.
Proof.
  induction l as [|[s b] l IH]; [reflexivity|]. intros (O & _ & H). rewrite <- (app_nil_r (ltext ((s, b) :: l))), ltext_cons, !is_ascii_app, (sec_ascii s O), (IH H).
  destruct b; reflexivity.
Qed.
Lemma lax_starts last l t : lax_ok last l -> stops t = false -> stops (ltext l ++ t) = false.
Proof. destruct l as [|[s b] l]; intros O T; [exact T|]. rewrite ltext_cons. apply sec_starts. apply O. Qed.

Lemma lax_parse : forall l last fuel f t, lax_ok last l -> is_ascii t = true -> (if last then t = [] else stops t = false) ->
  (length (ltext l ++ t) <= fuel)%nat ->
  exists fuel', (length t <= fuel')%nat /\
    parse_loop fuel f (ltext l ++ t) = match meaning l f with Some f' => parse_loop fuel' f' t | None => Err 500 end.
Proof.
  induction l as [|[s b] l IH]; intros last fuel f t O A T L.
  - exists fuel. split; [exact L|reflexivity].
  - rewrite ltext_cons in L |- *. destruct O as (O & B & H). assert (NE := sec_nonempty s O).
    assert (Al : is_ascii (ltext l ++ t) = true) by (rewrite is_ascii_app, (lax_ascii _ _ H), A; reflexivity).
    assert (Ls : (0 < length (sec_text s))%nat) by (destruct (sec_text s); [congruence|cbn; lia]).
    destruct fuel as [|fuel]; [rewrite app_length in L; lia|].
    assert (CL : (length (ltext l ++ t) <= fuel)%nat) by (rewrite !app_length in *; lia).
    assert (Step : parse_loop (S fuel) f (sec_text s ++ trail b ++ ltext l ++ t) = match apply_sec f s with Some f' => parse_loop fuel f' (ltext l ++ t) | None => Err 500 end).
    { destruct B as [-> | B].
      - apply (loop_step fuel f s (trail true ++ ltext l ++ t) (ltext l ++ t) O); [constructor|exact Al].
      - destruct b.
        + apply (loop_step fuel f s (trail true ++ ltext l ++ t) (ltext l ++ t) O); [constructor|exact Al].
        + cbn [trail app]. destruct (ltext l ++ t) as [|c r] eqn:E.
          * apply (loop_step fuel f s [] [] O); [constructor|reflexivity].
          * rewrite <- E in *. destruct B as [(key & e & v & ->)|[-> ->]].
            -- rewrite loop_step_open; [reflexivity|exact O| |exact Al]. destruct last.
               ++ subst t. destruct l as [|[s' b'] l]; [discriminate E|]. rewrite ltext_cons. apply sec_starts. apply H.
               ++ apply (lax_starts false); assumption.
            -- subst t. discriminate E. }
    rewrite Step. unfold meaning. cbn [map fst apply_all]. destruct (apply_sec f s) as [f'|]; cbn [obind].
    + apply (IH last fuel f' t H A T CL).
    + exists (length t). split; [reflexivity|reflexivity].
Qed.
Lemma short_panics fuel f r : is_ascii r = true -> (length r < 4)%nat -> parse_for fuel f r = Panic.
Proof.
  intros A L. destruct fuel as [|fuel]; [reflexivity|]. cbn [parse_for]. unfold match_ignore_case. rewrite blen_for.
  destruct r as [|a [|b [|d [|e z]]]]; cbn [length] in L; try lia;
    rewrite ?is_ascii_cons in A; unfold split_at, clen;
    repeat match goal with H : _ /\ _ |- _ => destruct H end;
    repeat match goal with H : (?c <? 128) = true |- _ => rewrite H; clear H end; reflexivity.
Qed.
Lemma parse_for_broken : forall more fuel f k x r, for_ok k -> ev_ok x -> Forall more_ok more -> is_ascii r = true -> (length (trim_start r) < 4)%nat ->
  (length more < fuel)%nat -> parse_for fuel f (k ++ ev_text x ++ flat_map more_text more ++ 44 :: r) = Panic.
Proof.
  induction more as [|[[w k'] x'] more IH]; intros fuel f k x r K X M A T L; (destruct fuel as [|fuel]; [cbn in L; lia|]);
    cbn [parse_for]; unfold match_ignore_case; rewrite blen_for;
    (rewrite split_at_at; [|destruct (for_ascii k K) as [A1 A2]; rewrite (blen_ascii k A1), A2; reflexivity]); cbn [bind];
    (replace (eq_ignore_case k (lit "for=")) with true by (unfold eq_ignore_case; rewrite K; reflexivity)); cbn [bind].
  - cbn [flat_map app]. rewrite parse_value_text; [|exact X|reflexivity]. cbn [bind]. change (44 =? 44) with true. cbn iota.
    apply short_panics; [|exact T]. eapply suffix_ascii; [apply suffix_drop_while|exact A].
  - inv M. destruct H1 as (W & _ & K' & X'). cbn [flat_map more_text app]. rewrite parse_value_text; [|exact X|reflexivity]. cbn [bind].
    change (44 =? 44) with true. cbn iota. unfold trim_start, trim_start_matches in *. rewrite <- !app_assoc.
    rewrite drop_while_app_all by exact W. rewrite not_ws_for by exact K'. apply IH; auto. cbn [length] in L. lia.
Qed.
Lemma loop_broken fuel f t : is_ascii t = true -> broken t -> (length t <= fuel)%nat -> parse_loop fuel f t = Panic.
Proof.
  intros A (k & x & more & r & O & -> & S) L. assert (O' := O). destruct O as (K & X & M).
  destruct fuel as [|fuel]; [rewrite app_length in L; cbn [length] in L; lia|].
  assert (U : forall input, input <> [] -> parse_loop (Datatypes.S fuel) f input =
     (let* b := starts_with_ignore_case (lit "for=") input in
      let* (f', rest) := if b then parse_for (length input) f input else parse_forwarded_pair f input in parse_loop fuel f' rest)).
  { intros [|c i] H; [congruence|reflexivity]. }
  rewrite U by (destruct (sec_text (SFor k x more)); discriminate). rewrite starts_ascii by exact A. cbn [bind sec_text].
  rewrite <- !app_assoc. rewrite for_starts by exact K. rewrite parse_for_broken; auto.
  - rewrite is_ascii_app in A. apply andb_true_iff in A as [_ A]. apply is_ascii_cons in A. tauto.
  - assert (H := more_length more). rewrite !app_length. destruct (for_ascii k K) as [_ ->]. lia.
Qed.
Lemma broken_starts t : broken t -> stops t = false.
Proof. intros (k & x & more & r & O & -> & _). apply sec_starts, O. Qed.

(** ** The theorems. *)
(** What a text says: each of [by], [host] and [proto] at most once. *)
Definition once_each (l : list section) : Prop := forall key, In key [lit "by"; lit "host"; lit "proto"] -> (length (given key l) <= 1)%nat.
Definition says (l : list section) : forwarded :=
  mkForwarded (hd_error (given (lit "by") l)) (fors l) (hd_error (given (lit "host") l)) (hd_error (given (lit "proto") l)).
Lemma meaning_says l f : meaning l fw_new = Some f <-> once_each (map fst l) /\ f = says (map fst l).
Proof.
  unfold meaning. rewrite apply_all_spec. cbn [fw_new fw_by fw_for fw_host fw_proto app]. unfold once_each, says.
  assert (M : forall vs, (exists v, merge None vs = Some v /\ v = hd_error vs /\ (length vs <= 1)%nat) \/ (merge None vs = None /\ (2 <= length vs)%nat)).
  { intros [|a [|b vs]]; [left; exists None|left; exists (Some a)|right]; cbn; repeat split; lia. }
  split.
  - intros H. destruct (M (given (lit "by") (map fst l))) as [(b & B1 & B2 & B3)|[B _]]; [|rewrite B in H; discriminate H].
    destruct (M (given (lit "host") (map fst l))) as [(h & H1 & H2 & H3)|[B _]]; [|rewrite B1, B in H; discriminate H].
    destruct (M (given (lit "proto") (map fst l))) as [(p & P1 & P2 & P3)|[B _]]; [|rewrite B1, H1, B in H; discriminate H].
    rewrite B1, H1, P1 in H. injection H as <-. subst b h p. split; [|reflexivity]. intros key [<-|[<-|[<-|[]]]]; assumption.
  - intros [O ->]. assert (B := O (lit "by") ltac:(cbn; auto)). assert (H := O (lit "host") ltac:(cbn; auto)). assert (P := O (lit "proto") ltac:(cbn; auto)).
    destruct (M (given (lit "by") (map fst l))) as [(b & -> & -> & _)|[_ X]]; [|lia].
    destruct (M (given (lit "host") (map fst l))) as [(h & -> & -> & _)|[_ X]]; [|lia].
    destruct (M (given (lit "proto") (map fst l))) as [(p & -> & -> & _)|[_ X]]; [|lia]. reflexivity.
Qed.

(** Header text is ASCII.  It is accepted exactly when it is a sequence of sections as above, and then it means what
    they say. *)
Theorem C37_accepted_iff : forall s f, is_ascii s = true ->
  (fw_parse s = Ok f <-> exists l, lax_ok true l /\ s = ltext l /\ once_each (map fst l) /\ f = says (map fst l)).
Proof.
  intros s f A. unfold fw_parse. split.
  - intros H. assert (I := loop_inv (length s) fw_new s A (le_n _)). rewrite H in I. destruct I as (l & O & E & M). exists l. apply meaning_says in M. tauto.
  - intros (l & O & -> & M). rewrite <- (app_nil_r (ltext l)).
    destruct (lax_parse l true (length (ltext l ++ [])) fw_new [] O eq_refl eq_refl (le_n _)) as (fuel' & _ & ->).
    apply meaning_says in M. rewrite M. destruct fuel'; reflexivity.
Qed.
Print Assumptions C37_accepted_iff.
(** It panics exactly when sections that could be accepted are followed by a [for] list broken off after a comma. *)
Theorem C36_panics_iff : forall s, is_ascii s = true ->
  (fw_parse s = Panic <-> exists l k x more r, lax_ok false l /\ once_each (map fst l) /\ sec_ok (SFor k x more) /\
     s = ltext l ++ sec_text (SFor k x more) ++ [44] ++ r /\ (length (trim_start r) < 4)%nat).
Proof.
  intros s A. unfold fw_parse. split.
  - intros H. assert (I := loop_inv (length s) fw_new s A (le_n _)). rewrite H in I. destruct I as (l & t & O & -> & (k & x & more & r & S & -> & B) & M).
    exists l, k, x, more, r. split; [exact O|]. split; [|auto].
    destruct (meaning l fw_new) as [f|] eqn:E; [|congruence]. apply meaning_says in E. tauto.
  - intros (l & k & x & more & r & O & D & S & E & B).
    assert (Br : broken (sec_text (SFor k x more) ++ 44 :: r)) by (exists k, x, more, r; auto).
    assert (At : is_ascii (sec_text (SFor k x more) ++ 44 :: r) = true) by (eapply suffix_ascii; [|exact A]; exists (ltext l); exact E).
    destruct (lax_parse l false (length s) fw_new _ O At (broken_starts _ Br)) as (fuel' & L & P); [rewrite E; reflexivity|].
    assert (E' : s = ltext l ++ sec_text (SFor k x more) ++ 44 :: r) by exact E. rewrite <- E' in P. rewrite P.
    assert (M : meaning l fw_new = Some (says (map fst l))) by (apply meaning_says; auto). rewrite M. apply loop_broken; assumption.
Qed.
Print Assumptions C36_panics_iff.
(** In all other cases there is an error, which becomes status 500. *)
Theorem C36_errors : forall s e, is_ascii s = true -> fw_parse s = Err e -> e = 500.
Proof. intros s e A H. assert (I := loop_inv (length s) fw_new s A (le_n _)). unfold fw_parse in H. rewrite H in I. exact I. Qed.
Print Assumptions C36_errors.
(** Texts outside the sections of RFC 7239 that are accepted: pairs run together, a semicolon at the end; and a panic after
    several sections. *)
Example C37_accepted_example :
  fw_parse (lit "by=""x""host=h;proto=p;") = Ok (mkForwarded (Some (lit "x")) [] (Some (lit "h")) (Some (lit "p"))) /\
  fw_parse (lit "by=""x"";for=a;for=""b;c"" ,for=d") = Err 500 /\
  fw_parse (lit "by=""x""FOR=a;for=""b;c"", for=d;host=h") = Ok (mkForwarded (Some (lit "x")) [lit "a"; lit "b;c"; lit "d"] (Some (lit "h")) None) /\
  fw_parse (lit "by=x;for=a, for=b,   q=1") = Panic.
Proof. vm_compute. auto. Qed.

(** ** C35: exactly which values come back. *)
Definition field (key : str) (f : forwarded) : option str :=
  if str_eq_dec key (lit "by") then fw_by f else if str_eq_dec key (lit "host") then fw_host f else fw_proto f.
Definition known_key (key : str) : Prop := In key [lit "by"; lit "host"; lit "proto"].
Lemma loop_keeps fuel g s f key v : is_ascii s = true -> (length s <= fuel)%nat -> parse_loop fuel g s = Ok f -> field key g = Some v -> field key f = Some v.
Proof.
  intros A L H G. assert (I := loop_inv fuel g s A L). rewrite H in I. destruct I as (l & _ & _ & M). unfold meaning in M. rewrite apply_all_spec in M.
  destruct (merge (fw_by g) (given (lit "by") (map fst l))) as [b|] eqn:B; [|discriminate M].
  destruct (merge (fw_host g) (given (lit "host") (map fst l))) as [h|] eqn:Hh; [|discriminate M].
  destruct (merge (fw_proto g) (given (lit "proto") (map fst l))) as [p|] eqn:P; [|discriminate M]. injection M as <-.
  assert (K : forall vs o, merge (Some v) vs = Some o -> o = Some v) by (intros [|a [|c vs]] o E; cbn in E; congruence).
  unfold field in *. cbn [fw_by fw_host fw_proto]. destruct (str_eq_dec key (lit "by")); [rewrite G in B; eapply K; exact B|].
  destruct (str_eq_dec key (lit "host")); [rewrite G in Hh; eapply K; exact Hh|]. rewrite G in P. eapply K; exact P.
Qed.

(** A raw value that is read as itself is a token: a quoted string is never its own content. *)
Lemma qbody_position e v q : qbody code_qdtext e v -> nth_error e q = Some 59 -> exists p, (p <= q)%nat /\ nth_error v p = Some 59.
Proof.
  intros B. revert q. induction B as [|c e v Q B IH|c e v Q B IH]; intros q E.
  - destruct q; discriminate E.
  - destruct q as [|q]; [exists 0%nat; split; [lia|exact E]|]. destruct (IH q E) as (p & L & P). exists (S p). split; [lia|exact P].
  - destruct q as [|[|q]]; [discriminate E|exists 0%nat; split; [lia|exact E]|]. destruct (IH q E) as (p & L & P). exists (S p). split; [lia|exact P].
Qed.
Lemma first_position (e : str) q : nth_error e q = Some 59 -> exists q0, nth_error e q0 = Some 59 /\ forall p, (p < q0)%nat -> nth_error e p <> Some 59.
Proof.
  revert q. induction e as [|c e IH]; intros q H; [destruct q; discriminate H|].
  destruct (N.eq_dec c 59) as [->|N]; [exists 0%nat; split; [reflexivity|intros p L; lia]|].
  destruct q as [|q]; [cbn in H; congruence|]. destruct (IH q H) as (q0 & A & B). exists (S q0). split; [exact A|].
  intros [|p] L; [cbn; congruence|]. cbn [nth_error]. apply B. lia.
Qed.
Lemma no_self_quote e b w : qbody code_qdtext e (34 :: b) -> e = b ++ 59 :: w -> False.
Proof.
  intros Q E. assert (X : nth_error e (length b) = Some 59) by (rewrite E, nth_error_app2 by lia; rewrite Nat.sub_diag; reflexivity).
  destruct (first_position e _ X) as (q & P1 & P2).
  assert (LQ : (q <= length b)%nat) by (destruct (le_lt_dec q (length b)) as [L|L]; [exact L|]; elim (P2 _ L X)).
  destruct (qbody_position e _ q Q P1) as (p & L & P). destruct p as [|p]; [discriminate P|]. cbn [nth_error] in P.
  apply (P2 p); [lia|]. rewrite E, nth_error_app1; [exact P|]. apply nth_error_Some. congruence.
Qed.
Lemma qbody_short e v : qbody code_qdtext e v -> (length v <= length e)%nat.
Proof. induction 1; cbn [length]; lia. Qed.
Lemma value_same b tail r : is_ascii (b ++ tail) = true -> (tail = [] \/ exists s, tail = 59 :: s) -> parse_value (b ++ tail) = Ok (Some b, r) -> token_str b.
Proof.
  intros A T H. destruct (parse_value_inv _ _ _ A H) as ([t|e v] & O & V & E & ST); cbn [ev_val ev_text ev_ok] in *; subst.
  - exact O.
  - exfalso. assert (L := qbody_short _ _ O). destruct b as [|c b].
    + destruct T as [->|(s & ->)]; cbn [app] in E; [discriminate E|]. injection E as E _. discriminate E.
    + cbn [app] in E. injection E as -> E. rewrite <- app_assoc in E. cbn [app] in E. cbn [length] in L.
      destruct T as [->|(s & ->)].
      * rewrite app_nil_r in E. apply (f_equal (@length N)) in E. rewrite app_length in E. cbn [length] in E. lia.
      * assert (X : exists w, e = b ++ 59 :: w).
        { clear - E L. revert e E L. induction b as [|x b IH]; intros e E L.
          - destruct e as [|y e]; [cbn in L; lia|]. cbn [app] in E. injection E as <- _. exists e. reflexivity.
          - destruct e as [|y e]; [cbn in L; lia|]. cbn [app length] in *. injection E as -> E. destruct (IH e E) as (w & ->); [lia|]. exists w. reflexivity. }
        destruct X as (w & ->). exact (no_self_quote _ _ _ O eq_refl).
Qed.

Lemma put_field f key v f' : known_key key -> put f key v = Some f' -> field key f' = Some v.
Proof.
  intros [<-|[<-|[<-|[]]]] P; vm_compute in P.
  - destruct f as [[b|] fs h p]; [discriminate P|]. injection P as <-. reflexivity.
  - destruct f as [b fs [h|] p]; [discriminate P|]. injection P as <-. reflexivity.
  - destruct f as [b fs h [p|]]; [discriminate P|]. injection P as <-. reflexivity.
Qed.
Lemma key_facts key : known_key key -> key <> [] /\ forallb tchar key = true /\ to_lower key <> lit "for".
Proof. intros [<-|[<-|[<-|[]]]]; (split; [discriminate|split; [reflexivity|discriminate]]). Qed.

(** One raw pair in front: if the whole is read with that value, the value is a token, and the rest is read. *)
Lemma raw_pair fuel g (key v tail r : str) f : known_key key -> tail_of tail r -> is_ascii (key ++ 61 :: v ++ tail) = true ->
  (length (key ++ 61%N :: v ++ tail) <= fuel)%nat -> parse_loop fuel g (key ++ 61 :: v ++ tail) = Ok f -> field key f = Some v ->
  token_str v /\ exists g' fuel', put g key v = Some g' /\ (length r <= fuel')%nat /\ parse_loop fuel' g' r = Ok f.
Proof.
  intros K T A L H F. destruct (key_facts key K) as (N & TK & NF).
  assert (Av : is_ascii (v ++ tail) = true) by (rewrite is_ascii_app in A; apply andb_true_iff in A as [_ A]; apply is_ascii_cons in A; tauto).
  assert (At : is_ascii tail = true) by (rewrite is_ascii_app in Av; apply andb_true_iff in Av; tauto).
  destruct fuel as [|fuel]; [rewrite app_length in L; cbn [length] in L; lia|].
  assert (Tv : token_str v).
  { assert (U : forall input, input <> [] -> parse_loop (S fuel) g input =
     (let* b := starts_with_ignore_case (lit "for=") input in
      let* (f', rest) := if b then parse_for (length input) g input else parse_forwarded_pair g input in parse_loop fuel f' rest)).
    { intros [|c i] X; [congruence|reflexivity]. }
    rewrite U in H by (destruct key; discriminate). rewrite starts_ascii in H by exact A. cbn [bind] in H. rewrite (pair_not_for key _ N TK NF), andb_false_r in H.
    unfold parse_forwarded_pair in H. rewrite parse_token_app in H; [|exact TK|exact N|reflexivity]. cbn [bind] in H.
    change (strip_prefix (lit "=") (61 :: v ++ tail)) with (Some (v ++ tail)) in H. cbv iota in H.
    destruct (parse_value_ascii (v ++ tail) Av) as [(r1 & E)|(v' & r1 & E & S1 & S2)]; rewrite E in H; cbn [bind] in H; [discriminate H|].
    assert (PU : (if seqb key (lit "by") then match fw_by g with Some _ => Err 500 | None => Ok (set_by g v') end
                else if seqb key (lit "host") then match fw_host g with Some _ => Err 500 | None => Ok (set_host g v') end
                else if seqb key (lit "proto") then match fw_proto g with Some _ => Err 500 | None => Ok (set_proto g v') end
                else Ok g) = match put g key v' with Some f' => Ok f' | None => Err 500 end).
    { unfold put. destruct K as [<-|[<-|[<-|[]]]].
      - change (seqb (lit "by") (lit "by")) with true. destruct (str_eq_dec (lit "by") (lit "by")); [destruct (fw_by g); reflexivity|congruence].
      - change (seqb (lit "host") (lit "by")) with false. change (seqb (lit "host") (lit "host")) with true. cbv iota.
        destruct (str_eq_dec (lit "host") (lit "by")) as [X|_]; [discriminate X|]. destruct (str_eq_dec (lit "host") (lit "host")); [destruct (fw_host g); reflexivity|congruence].
      - change (seqb (lit "proto") (lit "by")) with false. change (seqb (lit "proto") (lit "host")) with false. change (seqb (lit "proto") (lit "proto")) with true. cbv iota.
        destruct (str_eq_dec (lit "proto") (lit "by")) as [X|_]; [discriminate X|]. destruct (str_eq_dec (lit "proto") (lit "host")) as [X|_]; [discriminate X|].
        destruct (str_eq_dec (lit "proto") (lit "proto")); [destruct (fw_proto g); reflexivity|congruence]. }
    rewrite PU in H. destruct (put g key v') as [g'|] eqn:PP; cbn [bind] in H; [|discriminate H].
    set (r2 := match strip_prefix (lit ";") r1 with Some r => r | None => r1 end) in *.
    assert (Sr : suffix r2 r1).
    { unfold r2. destruct (strip_prefix (lit ";") r1) as [q|] eqn:Q; [|apply suffix_refl]. apply strip_prefix_some in Q. exists (lit ";"). exact Q. }
    assert (A2 : is_ascii r2 = true) by (eapply suffix_ascii; [eapply suffix_trans; [exact Sr|exact S1]|exact Av]).
    assert (L2 : (length r2 <= fuel)%nat) by (assert (Z := suffix_length _ _ Sr); rewrite app_length in L; cbn [length] in L; lia).
    assert (G := loop_keeps fuel g' r2 f key v' A2 L2 H (put_field _ _ _ _ K PP)). rewrite F in G. injection G as <-.
    eapply value_same; [exact Av| |exact E]. destruct T; [left; reflexivity|right; eexists; reflexivity]. }
  split; [exact Tv|].
  assert (O : sec_ok (SPair key (Tok v))) by (split; [exact N|split; [exact TK|split; [exact NF|exact Tv]]]).
  assert (St := loop_step fuel g (SPair key (Tok v)) tail r O T At). cbn [sec_text ev_text apply_sec ev_val] in St. rewrite <- app_assoc in St. cbn [app] in St. rewrite St in H.
  destruct (put g key v) as [g'|]; [|discriminate H]. exists g', fuel. split; [reflexivity|]. split; [|exact H].
  rewrite app_length in L. cbn [length] in L. rewrite app_length in L. destruct T; cbn [length] in *; lia.
Qed.

(** [format_value] never fails; for values that are not [for_value] its text is not readable. *)
Definition fmt (v : str) : str := if forallb tchar v then v else 34 :: flat_map escape v ++ [34].
Lemma format_fmt v : format_value v = Ok (fmt v).
Proof.
  unfold format_value, fmt. rewrite parse_token_spec. cbn [bind]. destruct (forallb tchar v) eqn:T.
  - rewrite drop_while_all by exact T. reflexivity.
  - destruct (drop_while tchar v) as [|c r] eqn:D; [|reflexivity]. exfalso.
    assert (E := take_drop_while tchar v). rewrite D, app_nil_r in E. rewrite <- E, take_while_all in T. discriminate.
Qed.
Lemma escape_unreadable : forall v r, is_ascii v = true -> forallb quotable v = false -> qs (flat_map escape v ++ 34 :: r) = QNo.
Proof.
  induction v as [|c v IH]; intros r A Q; [discriminate Q|]. apply is_ascii_cons in A as [A1 A2]. cbn [forallb] in Q. cbn [flat_map].
  unfold escape at 1. destruct ((c =? 92) || (c =? 34)) eqn:E.
  - assert (X : quotable c = true) by (unfold quotable; lia). rewrite X in Q. cbn [andb] in Q. cbn [app qs]. change (92 =? 92) with true. cbv iota.
    assert (V : vchar c = true) by (unfold vchar; rewrite (low_byte_small c A1); lia). rewrite V, (IH r A2 Q). reflexivity.
  - cbn [app qs]. rewrite (low_byte_small c A1). replace (c =? 92) with false by lia. replace (c =? 34) with false by lia.
    destruct (quotable c) eqn:X; cbn [andb] in Q.
    + assert (D : qdtext c = true) by (unfold quotable, qdtext in *; lia). rewrite D, (IH r A2 Q). reflexivity.
    + assert (D : qdtext c = false) by (unfold quotable, qdtext in *; lia). rewrite D. reflexivity.
Qed.
Lemma fmt_unreadable v r : is_ascii v = true -> ~ for_value v -> (r = [] \/ exists c s, r = c :: s /\ (c = 44 \/ c = 59)) ->
  exists q, parse_value (fmt v ++ r) = Ok (None, q).
Proof.
  intros A N R. unfold fmt, parse_value. destruct (forallb tchar v) eqn:T.
  - assert (v = []) as -> by (destruct v as [|c v]; [reflexivity|]; elim N; split; [discriminate|auto]). cbn [app].
    destruct R as [->|(c & s & -> & [-> | ->])]; (rewrite parse_token_none by reflexivity); cbn [bind]; rewrite parse_quoted_spec; eexists; reflexivity.
  - cbn [app]. rewrite parse_token_none by reflexivity. cbn [bind]. rewrite parse_quoted_spec. rewrite <- app_assoc. cbn [app].
    rewrite escape_unreadable; [eexists; reflexivity|exact A|]. destruct (forallb quotable v) eqn:Q; [|reflexivity]. elim N. split; [|auto]. intros ->. discriminate T.
Qed.
Lemma for_value_dec v : for_value v \/ ~ for_value v.
Proof.
  unfold for_value. destruct v as [|c v]; [right; intros [X _]; congruence|].
  destruct (forallb tchar (c :: v)); [left; split; [discriminate|auto]|]. destruct (forallb quotable (c :: v)); [left; split; [discriminate|auto]|right; intros [_ [X|X]]; discriminate X].
Qed.
Definition fors_of (vs : list str) : str := join (lit ", ") (map (fun v => lit "for=" ++ fmt v) vs).
Lemma fors_cons v w vs : fors_of (v :: w :: vs) = lit "for=" ++ fmt v ++ lit ", " ++ fors_of (w :: vs).
Proof. unfold fors_of. cbn [map]. rewrite app_assoc. reflexivity. Qed.
Lemma fors_readable : forall vs v fuel g tail r f', Forall (fun v => is_ascii v = true) (v :: vs) -> tail_of tail r ->
  parse_for fuel g (fors_of (v :: vs) ++ tail) = Ok f' -> Forall for_value (v :: vs).
Proof.
  induction vs as [|w vs IH]; intros v fuel g tail r f' A T H; (destruct fuel as [|fuel]; [discriminate H|]).
  - unfold fors_of in H. cbn [map join] in H. rewrite <- app_assoc in H. cbn [parse_for] in H. unfold match_ignore_case in H. rewrite blen_for in H.
    rewrite split_at_at in H by reflexivity. cbn [bind] in H. change (eq_ignore_case (lit "for=") (lit "for=")) with true in H. cbv iota in H. cbn [bind] in H.
    inv A. destruct (for_value_dec v) as [V|V]; [constructor; [exact V|constructor]|].
    destruct (fmt_unreadable v tail H2 V) as (q & E); [destruct T; [auto|right; eexists _, _; split; [reflexivity|auto]]|]. rewrite E in H. discriminate H.
  - rewrite fors_cons in H. rewrite <- !app_assoc in H. cbn [parse_for] in H. unfold match_ignore_case in H. rewrite blen_for in H.
    rewrite split_at_at in H by reflexivity. cbn [bind] in H. change (eq_ignore_case (lit "for=") (lit "for=")) with true in H. cbv iota in H. cbn [bind] in H.
    inv A. destruct (for_value_dec v) as [V|V].
    + constructor; [exact V|]. 
      assert (PV : parse_value (fmt v ++ 44 :: 32 :: fors_of (w :: vs) ++ tail) = Ok (Some v, 44 :: 32 :: fors_of (w :: vs) ++ tail)).
      { assert (FE := format_value_ev v V). rewrite format_fmt in FE. injection FE as ->. rewrite <- (ev_of_val v) at 2. apply parse_value_text; [apply ev_of_ok, V|reflexivity]. }
      change (lit ", " ++ fors_of (w :: vs) ++ tail) with (44 :: 32 :: fors_of (w :: vs) ++ tail) in H. rewrite PV in H. cbn [bind] in H. change (44 =? 44) with true in H. cbv iota in H.
      assert (TS : trim_start (32 :: fors_of (w :: vs) ++ tail) = fors_of (w :: vs) ++ tail).
      { unfold fors_of. cbn [map]. destruct vs; reflexivity. }
      rewrite TS in H. apply (IH w fuel _ tail r f' H3 T H).
    + destruct (fmt_unreadable v (lit ", " ++ fors_of (w :: vs) ++ tail) H2 V) as (q & E); [right; eexists _, _; split; [reflexivity|auto]|].
      rewrite E in H. discriminate H.
Qed.

Lemma fmt_ascii v : is_ascii v = true -> is_ascii (fmt v) = true.
Proof.
  intros A. unfold fmt. destruct (forallb tchar v); [exact A|]. change (34 :: flat_map escape v ++ [34]) with ([34] ++ flat_map escape v ++ [34]). rewrite !is_ascii_app.
  assert (E : is_ascii (flat_map escape v) = true).
  { clear - A. induction v as [|c v IH]; [reflexivity|]. apply is_ascii_cons in A as [A1 A2]. cbn [flat_map]. rewrite is_ascii_app, (IH A2). unfold escape.
    destruct ((c =? 92) || (c =? 34)); unfold is_ascii; cbn [forallb]; rewrite A1; reflexivity. }
  rewrite E. reflexivity.
Qed.
Lemma fors_ascii vs : Forall (fun v => is_ascii v = true) vs -> is_ascii (fors_of vs) = true.
Proof.
  induction vs as [|v [|w vs] IH]; intros F; [reflexivity| |].
  - inv F. unfold fors_of. cbn [map join]. rewrite is_ascii_app, (fmt_ascii v H1). reflexivity.
  - inv F. rewrite fors_cons, !is_ascii_app, (fmt_ascii v H1), (IH H2). reflexivity.
Qed.
Definition ascii_opt (o : option str) : Prop := match o with Some s => is_ascii s = true | None => True end.
(** The text, without the semicolon that is popped. *)
Lemma value_shape f : exists s, fw_value f = Ok s /\
  s ++ [59] = opt_part (lit "by=") (fw_by f) ++ fors_of (fw_for f) ++ [59] ++ opt_part (lit "host=") (fw_host f) ++ opt_part (lit "proto=") (fw_proto f).
Proof.
  unfold fw_value. assert (M : forall vs, map_outcome (fun v => let* t := format_value v in Ok (lit "for=" ++ t)) vs = Ok (map (fun v => lit "for=" ++ fmt v) vs)).
  { induction vs as [|v vs IH]; [reflexivity|]. cbn [map_outcome map]. rewrite format_fmt. cbn [bind]. rewrite IH. reflexivity. }
  rewrite M. cbn [bind]. fold (fors_of (fw_for f)). eexists. split; [reflexivity|].
  change (lit ";") with [59]. set (T := opt_part (lit "by=") (fw_by f) ++ _).
  assert (E : exists t, T = t ++ [59]).
  { unfold T. destruct (fw_proto f) as [p|]; [|destruct (fw_host f) as [h|]].
    - exists (opt_part (lit "by=") (fw_by f) ++ fors_of (fw_for f) ++ [59] ++ opt_part (lit "host=") (fw_host f) ++ lit "proto=" ++ p).
      cbn [opt_part]. rewrite <- !app_assoc. reflexivity.
    - exists (opt_part (lit "by=") (fw_by f) ++ fors_of (fw_for f) ++ [59] ++ lit "host=" ++ h). cbn [opt_part]. rewrite app_nil_r, <- !app_assoc. reflexivity.
    - exists (opt_part (lit "by=") (fw_by f) ++ fors_of (fw_for f)). cbn [opt_part app]. rewrite <- !app_assoc. reflexivity. }
  destruct E as (t & E). rewrite E, removelast_last. reflexivity.
Qed.

Theorem C35_round_trip_iff : forall f, ascii_opt (fw_by f) -> Forall (fun v => is_ascii v = true) (fw_for f) -> ascii_opt (fw_host f) -> ascii_opt (fw_proto f) ->
  ((exists s, fw_value f = Ok s /\ fw_parse s = Ok f) <->
   opt_token (fw_by f) /\ opt_token (fw_host f) /\ opt_token (fw_proto f) /\ Forall for_value (fw_for f) /\
   (fw_for f <> [] \/ fw_host f = None /\ fw_proto f = None)).
Proof.
  intros f Ab Af Ah Ap. split; [|intros (B & H & P & F & N); destruct (C35_round_trip_partial f B H P F N) as (s & V & _ & R); exists s; auto].
  intros (s & V & R). destruct (value_shape f) as (s' & V' & T). rewrite V in V'. injection V' as <-. unfold fw_parse in R.
  assert (Ao : forall k o, is_ascii k = true -> ascii_opt o -> is_ascii (opt_part k o) = true).
  { intros k [v|] K A; [|reflexivity]. cbn [opt_part ascii_opt] in *. rewrite !is_ascii_app, K, A. reflexivity. }
  assert (AT : is_ascii (s ++ [59]) = true) by (rewrite T, !is_ascii_app, !Ao, fors_ascii by (auto; reflexivity); reflexivity).
  assert (A : is_ascii s = true) by (rewrite is_ascii_app in AT; apply andb_true_iff in AT; tauto). clear AT.
  (* by *)
  assert (Sb : exists s1 g fuel, opt_token (fw_by f) /\ s1 ++ [59] = fors_of (fw_for f) ++ [59] ++ opt_part (lit "host=") (fw_host f) ++ opt_part (lit "proto=") (fw_proto f) /\
     is_ascii s1 = true /\ (length s1 <= fuel)%nat /\ parse_loop fuel g s1 = Ok f).
  { destruct (fw_by f) as [b|] eqn:Eb; [|exists s, fw_new, (length s); cbn [opt_part app] in T; split; [exact I|auto]].
    cbn [opt_part] in T. rewrite <- !app_assoc in T.
    assert (X : exists s1, s1 ++ [59] = fors_of (fw_for f) ++ [59] ++ opt_part (lit "host=") (fw_host f) ++ opt_part (lit "proto=") (fw_proto f) /\ s = lit "by=" ++ b ++ 59 :: s1).
    { assert (Y : exists t, fors_of (fw_for f) ++ [59] ++ opt_part (lit "host=") (fw_host f) ++ opt_part (lit "proto=") (fw_proto f) = t ++ [59]).
      { destruct (fw_proto f) as [p|]; [|destruct (fw_host f) as [h|]].
        - exists (fors_of (fw_for f) ++ [59] ++ opt_part (lit "host=") (fw_host f) ++ lit "proto=" ++ p). cbn [opt_part]. rewrite <- !app_assoc. reflexivity.
        - exists (fors_of (fw_for f) ++ [59] ++ lit "host=" ++ h). cbn [opt_part]. rewrite app_nil_r, <- !app_assoc. reflexivity.
        - exists (fors_of (fw_for f)). cbn [opt_part app]. reflexivity. }
      destruct Y as (t & Y). exists t. split; [now symmetry|]. rewrite Y in T. 
      assert (Z : s ++ [59] = (lit "by=" ++ b ++ 59 :: t) ++ [59]) by (rewrite T; rewrite <- !app_assoc; reflexivity).
      apply app_inj_tail in Z. apply Z. }
    destruct X as (s1 & T1 & E). 
    destruct (raw_pair (length s) fw_new (lit "by") b (59 :: s1) s1 f) as (Tv & g & fuel & _ & L & P).
    - left. reflexivity.
    - constructor.
    - change (lit "by=" ++ b ++ 59 :: s1) with (lit "by" ++ 61 :: b ++ 59 :: s1) in E. rewrite <- E. exact A.
    - change (lit "by=" ++ b ++ 59 :: s1) with (lit "by" ++ 61 :: b ++ 59 :: s1) in E. rewrite <- E. reflexivity.
    - change (lit "by=" ++ b ++ 59 :: s1) with (lit "by" ++ 61 :: b ++ 59 :: s1) in E. rewrite <- E. exact R.
    - exact Eb.
    - exists s1, g, fuel. split; [exact Tv|]. split; [exact T1|]. split; [|auto].
      rewrite E in A. rewrite !is_ascii_app in A. apply andb_true_iff in A as [_ A]. apply andb_true_iff in A as [_ A]. apply is_ascii_cons in A. tauto. }
  destruct Sb as (s1 & g & fuel & TB & T1 & A1 & L1 & R1). clear s V R T A.
  (* for *)
  assert (Sf : Forall for_value (fw_for f) /\ (fw_for f <> [] \/ fw_host f = None /\ fw_proto f = None) /\
     exists s2 g2 fuel2, (s2 = [] /\ opt_part (lit "host=") (fw_host f) ++ opt_part (lit "proto=") (fw_proto f) = [] \/
                          s2 ++ [59] = opt_part (lit "host=") (fw_host f) ++ opt_part (lit "proto=") (fw_proto f)) /\
     is_ascii s2 = true /\ (length s2 <= fuel2)%nat /\ parse_loop fuel2 g2 s2 = Ok f).
  { assert (Y : opt_part (lit "host=") (fw_host f) ++ opt_part (lit "proto=") (fw_proto f) = [] /\ fw_host f = None /\ fw_proto f = None \/
      exists s2, opt_part (lit "host=") (fw_host f) ++ opt_part (lit "proto=") (fw_proto f) = s2 ++ [59]).
    { destruct (fw_proto f) as [p|]; [|destruct (fw_host f) as [h|]].
      - right. exists (opt_part (lit "host=") (fw_host f) ++ lit "proto=" ++ p). cbn [opt_part]. rewrite <- !app_assoc. reflexivity.
      - right. exists (lit "host=" ++ h). cbn [opt_part]. rewrite app_nil_r, <- !app_assoc. reflexivity.
      - left. auto. }
    destruct (fw_for f) as [|v vs] eqn:Ef.
    - split; [constructor|]. unfold fors_of in T1. cbn [map join app] in T1. destruct Y as [(Y & Y1 & Y2)|(s2 & Y)].
      + split; [auto|]. rewrite Y in T1. assert (s1 = []) as -> by (apply (app_inj_tail s1 [] 59 59 T1)).
        exists [], g, fuel. split; [left; auto|auto].
      + exfalso. rewrite Y in T1. assert (s1 = 59 :: s2) as -> by (apply (app_inj_tail s1 (59 :: s2) 59 59); exact T1).
        destruct fuel as [|fuel]; [cbn in L1; lia|]. rewrite loop_stops in R1; [discriminate R1|exact A1|discriminate|reflexivity].
    - assert (TL : exists tail r, tail_of tail r /\ s1 = fors_of (v :: vs) ++ tail /\
        (r = [] /\ opt_part (lit "host=") (fw_host f) ++ opt_part (lit "proto=") (fw_proto f) = [] \/
         r ++ [59] = opt_part (lit "host=") (fw_host f) ++ opt_part (lit "proto=") (fw_proto f))).
      { destruct Y as [(Y & _)|(s2 & Y)].
        - exists [], []. split; [constructor|]. split; [|left; auto]. rewrite Y in T1. cbn [app] in T1. apply app_inj_tail in T1 as [T1 _]. rewrite app_nil_r. exact T1.
        - exists (59 :: s2), s2. split; [constructor|]. split; [|right; now symmetry]. rewrite Y in T1.
          assert (Z : s1 ++ [59] = (fors_of (v :: vs) ++ 59 :: s2) ++ [59]) by (rewrite T1, <- !app_assoc; reflexivity). apply app_inj_tail in Z. apply Z. }
      destruct TL as (tail & r & TT & E & RR).
      assert (FV : Forall for_value (v :: vs)).
      { destruct fuel as [|fuel]; [destruct s1; [|cbn in L1; lia]; unfold fors_of in E; cbn [map] in E; destruct vs; discriminate E|].
        assert (U : forall input, input <> [] -> parse_loop (S fuel) g input =
         (let* b := starts_with_ignore_case (lit "for=") input in
          let* (f', rest) := if b then parse_for (length input) g input else parse_forwarded_pair g input in parse_loop fuel f' rest)).
        { intros [|c i] X; [congruence|reflexivity]. }
        assert (ST : exists t, s1 = lit "for=" ++ t) by (rewrite E; unfold fors_of; cbn [map]; destruct vs; eexists; cbn [join]; rewrite <- ?app_assoc; reflexivity).
        rewrite U in R1 by (destruct ST as (t & ->); discriminate). rewrite starts_ascii in R1 by exact A1.
        destruct ST as (t & ST). assert (FS : (4 <=? length s1)%nat && eq_ignore_case (firstn 4 s1) (lit "for=") = true) by (rewrite ST; apply for_starts; reflexivity).
        rewrite FS in R1. cbn [bind] in R1. destruct (parse_for (length s1) g s1) as [p| |] eqn:PF; cbn [bind] in R1; try discriminate R1.
        rewrite E in PF at 2. eapply fors_readable; [exact Af|exact TT|exact PF]. }
      split; [exact FV|]. split; [left; discriminate|].
      assert (JT : fors_of (v :: vs) = sec_text (SFor (lit "for=") (ev_of v) (map (fun v => (lit " ", lit "for=", ev_of v)) vs))).
      { rewrite <- join_fors. unfold fors_of. f_equal. apply map_ext_in. intros x I. rewrite Forall_forall in FV. specialize (FV x I).
        assert (FE := format_value_ev x FV). rewrite format_fmt in FE. injection FE as ->. reflexivity. }
      assert (O : sec_ok (SFor (lit "for=") (ev_of v) (map (fun v => (lit " ", lit "for=", ev_of v)) vs))).
      { inv FV. cbn [sec_ok]. split; [reflexivity|]. split; [apply ev_of_ok; assumption|].
        clear - H2. induction H2 as [|w ws W1 W2 IH]; cbn [map]; constructor; [|exact IH]. cbn [more_ok]. split; [reflexivity|]. split; [reflexivity|]. split; [reflexivity|]. apply ev_of_ok, W1. }
      assert (At : is_ascii tail = true) by (rewrite E, is_ascii_app in A1; apply andb_true_iff in A1; tauto).
      destruct fuel as [|fuel]; [destruct s1; [|cbn in L1; lia]; unfold fors_of in E; cbn [map] in E; destruct vs; discriminate E|].
      rewrite E, JT, (loop_step fuel g _ tail r O TT At) in R1. cbn [apply_sec] in R1. exists r, (add_fors g (sec_fors (SFor (lit "for=") (ev_of v) (map (fun v => (lit " ", lit "for=", ev_of v)) vs)))), fuel.
      split; [exact RR|]. split; [destruct TT; [reflexivity|apply is_ascii_cons in At; tauto]|]. split; [|exact R1].
      rewrite E, app_length in L1. assert (Z := sec_nonempty _ O). rewrite <- JT in Z. destruct (fors_of (v :: vs)); [congruence|]. cbn [length] in L1. destruct TT; cbn [length] in *; lia. }
  destruct Sf as (FV & FN & s2 & g2 & fuel2 & T2 & A2 & L2 & R2). clear s1 g fuel T1 A1 L1 R1.
  split; [exact TB|].
  (* host and proto *)
  destruct T2 as [(-> & Y)|T2].
  { destruct (fw_host f); [discriminate Y|]. destruct (fw_proto f); [discriminate Y|]. split; [exact I|]. split; [exact I|]. auto. }
  assert (Sh : opt_token (fw_host f) /\ exists s3 g3 fuel3, (s3 = [] /\ fw_proto f = None \/ s3 ++ [59] = opt_part (lit "proto=") (fw_proto f)) /\
     is_ascii s3 = true /\ (length s3 <= fuel3)%nat /\ parse_loop fuel3 g3 s3 = Ok f).
  { destruct (fw_host f) as [h|] eqn:Eh; [|split; [exact I|]; exists s2, g2, fuel2; cbn [opt_part app] in T2; auto].
    cbn [opt_part] in T2. rewrite <- !app_assoc in T2.
    assert (X : exists tail r, tail_of tail r /\ s2 = lit "host" ++ 61 :: h ++ tail /\ (r = [] /\ fw_proto f = None \/ r ++ [59] = opt_part (lit "proto=") (fw_proto f))).
    { destruct (fw_proto f) as [p|]; cbn [opt_part] in *.
      - exists (59 :: lit "proto=" ++ p), (lit "proto=" ++ p). split; [constructor|]. split; [|right; rewrite <- app_assoc; reflexivity].
        assert (Z : s2 ++ [59] = (lit "host=" ++ h ++ 59 :: lit "proto=" ++ p) ++ [59]) by (rewrite T2, <- !app_assoc; cbn [app]; rewrite <- ?app_assoc; reflexivity). apply app_inj_tail in Z as [Z _]. exact Z.
      - exists [], []. split; [constructor|]. split; [|left; auto]. rewrite app_nil_r in *.
        assert (Z : s2 ++ [59] = (lit "host=" ++ h) ++ [59]) by (rewrite T2, <- !app_assoc; reflexivity). apply app_inj_tail in Z as [Z _]. exact Z. }
    destruct X as (tail & r & TT & E & RR).
    destruct (raw_pair fuel2 g2 (lit "host") h tail r f) as (Tv & g3 & fuel3 & _ & L3 & R3); rewrite <- ?E; auto; [right; left; reflexivity|].
    split; [exact Tv|]. exists r, g3, fuel3. split; [exact RR|]. split; [|auto].
    rewrite E in A2. rewrite is_ascii_app in A2. apply andb_true_iff in A2 as [_ A2]. apply is_ascii_cons in A2 as [_ A2]. rewrite is_ascii_app in A2. apply andb_true_iff in A2 as [_ A2].
    destruct TT; [reflexivity|apply is_ascii_cons in A2; tauto]. }
  destruct Sh as (TH & s3 & g3 & fuel3 & T3 & A3 & L3 & R3). split; [exact TH|]. split; [|auto].
  destruct (fw_proto f) as [p|] eqn:Ep; [|exact I]. destruct T3 as [(_ & X)|T3]; [discriminate X|]. cbn [opt_part] in T3.
  assert (E : s3 = lit "proto" ++ 61 :: p ++ []).
  { rewrite app_nil_r. assert (Z : s3 ++ [59] = (lit "proto=" ++ p) ++ [59]) by (rewrite T3, <- app_assoc; reflexivity). apply app_inj_tail in Z as [Z _]. exact Z. }
  destruct (raw_pair fuel3 g3 (lit "proto") p [] [] f) as (Tv & _); rewrite <- ?E; auto; [right; right; left; reflexivity|constructor].
Qed.
Print Assumptions C35_round_trip_iff.
(** A host with a quote in front does not come back, even one made to look like a quoted string. *)
Example C35_iff_example :
  let f := mkForwarded (Some (lit "_proxy")) [lit "192.0.2.1"; lit "[::1]:80"] (Some (lit "example.com")) (Some (lit "https")) in
  (exists s, fw_value f = Ok s /\ fw_parse s = Ok f) /\
  ~ (exists s, fw_value (set_host f (lit """a""")) = Ok s /\ fw_parse s = Ok (set_host f (lit """a"""))).
Proof.
  split.
  - eexists. split; vm_compute; reflexivity.
  - intros (s & V & P). vm_compute in V. injection V as <-. vm_compute in P. discriminate P.
Qed.
