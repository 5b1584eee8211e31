(** C94, continued: exactly which Server-Timing texts are accepted, which are refused and which panic. *)
From Coq Require Import ZifyBool ZifyNat ZifyN Lia.
From Verif Require Import Base BaseFacts Headers HeadersFacts Typed TypedFacts Float FloatFacts FloatProps Cache Timing TimingProps NegotiateExactProps GrammarProps.

Section Timing.
  (** What [Duration::from_secs_f64] makes of a float (see Timing.v). *)
  Context (nanos_of : N -> N).

  Inductive timing_item : Type := TDur (d : duration) | TDesc (t : str) | TIgnored.
  (** A parameter: a key, an equals sign, a value; a further equals sign and what follows it is ignored.  Blanks around the key and before the
      value do not count. *)
  Definition key_value (p k v : str) : Prop :=
    exists kt a r, p = kt ++ 61 :: a ++ v ++ r /\ ~ In 61 kt /\ ~ In 61 v /\ around kt k /\ forallb is_ws a = true /\
      (forall c v', v = c :: v' -> is_ws c = false) /\ eq_tail r.
  (** The values of a "dur" that are understood: decimal numbers that do not round to a negative number or to 2^64 or more. *)
  Definition dur_text (v : str) (x : N) : Prop :=
    exists neg p q, decimal v neg p q /\ nearest f64_format neg p q (Fin neg x) /\ (neg = true -> x = 0) /\ x < 2 ^ 64 * one f64_format.
  (** The numbers std cannot make a duration of. *)
  Definition dur_huge (v : str) : Prop :=
    (exists x, special v x) \/
    exists neg p q, decimal v neg p q /\
      (nearest f64_format neg p q (Inf neg) \/ exists x, nearest f64_format neg p q (Fin neg x) /\ ((neg = true /\ x <> 0) \/ 2 ^ 64 * one f64_format <= x)).
  Definition desc_text (v t : str) : Prop :=
    v = 34 :: t ++ [34] \/ (v = t /\ (forall r, t <> 34 :: r) /\ forall r, t <> r ++ [34]).
  Definition timing_param (p : str) (i : timing_item) : Prop :=
    exists k v, key_value p k v /\
      match i with
      | TDur d => k = lit "dur" /\ exists x, dur_text v x /\ d = of_nanos (nanos_of x / 1000)
      | TDesc t => k = lit "desc" /\ desc_text v t
      | TIgnored => k <> lit "dur" /\ k <> lit "desc"
      end.
  Definition durs (l : list timing_item) : list duration := flat_map (fun i => match i with TDur d => [d] | _ => [] end) l.
  Definition descs (l : list timing_item) : list str := flat_map (fun i => match i with TDesc t => [t] | _ => [] end) l.
  (** The last one, if any. *)
  Definition last_opt {A} (l : list A) : option A := hd_error (rev l).
  (** An entry: a name and parameters after semicolons; of several durations or descriptions the last counts. *)
  Definition timing_entry (c : str) (m : metric) : Prop :=
    exists nt ps items, c = nt ++ flat_map (fun p => 59 :: p) ps /\ ~ In 59 nt /\ Forall (fun p : str => ~ In 59 p) ps /\ around nt (m_name m) /\
      Forall2 timing_param ps items /\ m_dur m = last_opt (durs items) /\ m_desc m = last_opt (descs items).
  (** An entry on which reading panics: the first parameter that is not understood is a number without a duration. *)
  Definition timing_explodes (c : str) : Prop :=
    exists nt ps1 p ps2 items v, c = nt ++ flat_map (fun p => 59 :: p) (ps1 ++ p :: ps2) /\ ~ In 59 nt /\ Forall (fun p : str => ~ In 59 p) (ps1 ++ p :: ps2) /\
      Forall2 timing_param ps1 items /\ key_value p (lit "dur") v /\ dur_huge v.

  Lemma drop_while_stop : forall f (a : str) x b, f x = false -> drop_while f (a ++ x :: b) = drop_while f a ++ x :: b.
  Proof. intros f a x b H. induction a as [|c a IH]; cbn [app drop_while]; [now rewrite H|]. destruct (f c); [exact IH|reflexivity]. Qed.
  Lemma start_spec : forall t v, v = trim_start t <-> exists a, t = a ++ v /\ forallb is_ws a = true /\ forall c v', v = c :: v' -> is_ws c = false.
  Proof.
    intros t v. unfold trim_start, trim_start_matches. split.
    - intros ->. destruct (drop_while_suffix is_ws t) as (a & E & A). exists a. split; [exact E|]. split; [exact A|]. intros c v' H. now apply drop_while_head in H.
    - intros (a & -> & A & H). rewrite drop_while_app_all by exact A. symmetry. apply drop_while_none. destruct v as [|c v]; [reflexivity|]. now rewrite (H c v eq_refl).
  Qed.
  (** The cutting done by the code. *)
  Lemma key_value_iff : forall p k v, key_value p k v <-> exists kt vt more, split 61 (trim_start p) = kt :: vt :: more /\ k = trim_end_matches is_ws kt /\ v = trim_start vt.
  Proof.
    intros p k v. split.
    - intros (kt & a & r & -> & NK & NV & AR & A & HV & T). apply around_trim in AR. subst k.
      exists (trim_start kt), (a ++ v), (match r with [] => [] | _ :: r' => split 61 r' end).
      split; [|split; [reflexivity|]].
      + unfold trim_start, trim_start_matches. rewrite drop_while_stop by reflexivity. rewrite split_app.
        * rewrite app_assoc. f_equal. apply split_cut; [|exact T]. rewrite in_app_iff. intros [I|I]; [|now elim NV].
          rewrite forallb_forall in A. apply A in I. discriminate I.
        * apply no_char_in. intros I. apply NK. destruct (drop_while_suffix is_ws kt) as (b & -> & _). apply in_or_app. now right.
      + apply start_spec. exists a. auto.
    - intros (kt & vt & more & S & -> & ->).
      destruct (cut_first 61 p) as (k0 & r0 & -> & NK & T). destruct T as [->|(r1 & ->)].
      { exfalso. rewrite app_nil_r in S. rewrite split_no_char in S; [discriminate S|]. apply no_char_in. intros I. apply NK. unfold trim_start, trim_start_matches in I.
        destruct (drop_while_suffix is_ws k0) as (b & E & _). rewrite E. apply in_or_app. now right. }
      unfold trim_start at 1, trim_start_matches in S. rewrite drop_while_stop in S by reflexivity. rewrite split_app in S.
      + destruct (cut_first 61 r1) as (v0 & r2 & -> & NV & T). rewrite split_cut in S by assumption. injection S as <- <- <-.
        destruct (drop_while_suffix is_ws v0) as (a & E & A). exists k0, a, r2. unfold trim_start, trim_start_matches.
        split; [rewrite (app_assoc a), <- E; reflexivity|]. split; [exact NK|]. split; [intros I; apply NV; rewrite E; apply in_or_app; now right|].
        split; [now apply around_trim|]. split; [exact A|]. split; [|exact T]. intros c v' H. now apply drop_while_head in H.
      + apply no_char_in. intros I. apply NK. destruct (drop_while_suffix is_ws k0) as (b & E & _). rewrite E. apply in_or_app. now right.
  Qed.
  Lemma key_value_fun : forall p k v k' v', key_value p k v -> key_value p k' v' -> k = k' /\ v = v'.
  Proof.
    intros p k v k' v' A B. apply key_value_iff in A as (kt & vt & more & S & -> & ->). apply key_value_iff in B as (kt' & vt' & more' & S' & -> & ->).
    rewrite S in S'. injection S' as <- <- <-. auto.
  Qed.

  Lemma f64_sensible : sensible f64_format.
  Proof. exact (proj2 formats_sensible). Qed.
  Lemma nearest_sign : forall neg p q x, nearest f64_format neg p q x -> (exists v, x = Fin neg v) \/ x = Inf neg.
  Proof. intros neg p q x [(v & -> & _)|(-> & _)]; eauto. Qed.
  (** A "dur" value: understood, without a duration, or not a number. *)
  Lemma dur_cases : forall v,
    (exists x d, parse_float f64_format v = Some x /\ duration_of nanos_of x = Ok d /\ exists y, dur_text v y /\ d = of_nanos (nanos_of y / 1000)) \/
    (exists x, parse_float f64_format v = Some x /\ duration_of nanos_of x = Panic /\ dur_huge v) \/
    (parse_float f64_format v = None).
  Proof.
    intros v. destruct (parse_float f64_format v) as [x|] eqn:P; [|auto]. destruct (C81_only _ _ _ P) as [S|(neg & p & q & D)].
    - right. left. exists x. split; [reflexivity|]. split; [|left; eauto]. destruct S as (sg & neg & w & _ & _ & [(_ & ->)|(_ & ->)]); reflexivity.
    - destruct (C81_numbers f64_format v neg p q f64_sensible D) as (y & P' & Nr). rewrite P in P'. injection P' as <-.
      destruct (nearest_sign _ _ _ _ Nr) as [(y & ->)| ->].
      + cbn [duration_of]. destruct (neg && negb (y =? 0)) eqn:Z.
        { right. left. eexists. split; [reflexivity|]. split; [cbn [duration_of]; now rewrite Z|]. right. exists neg, p, q. split; [exact D|]. right. exists y. split; [exact Nr|].
          apply andb_true_iff in Z as [Z1 Z2]. left. split; [exact Z1|]. intros ->. discriminate Z2. }
        destruct (2 ^ 64 * one f64_format <=? y) eqn:B.
        { right. left. eexists. split; [reflexivity|]. split; [cbn [duration_of]; now rewrite Z, B|]. right. exists neg, p, q. split; [exact D|]. right. exists y. split; [exact Nr|].
          right. now apply N.leb_le. }
        left. eexists _, _. split; [reflexivity|]. split; [cbn [duration_of]; rewrite Z, B; reflexivity|]. exists y. split; [|reflexivity]. exists neg, p, q. split; [exact D|]. split; [exact Nr|].
        split; [|now apply N.leb_gt]. intros ->. cbn [andb] in Z. apply negb_false_iff, N.eqb_eq in Z. exact Z.
      + right. left. eexists. split; [reflexivity|]. split; [reflexivity|]. right. exists neg, p, q. split; [exact D|]. now left.
  Qed.
  Lemma dur_text_read : forall v y, dur_text v y -> exists x, parse_float f64_format v = Some x /\ duration_of nanos_of x = Ok (of_nanos (nanos_of y / 1000)).
  Proof.
    intros v y (neg & p & q & D & Nr & Z & B). destruct (C81_numbers f64_format v neg p q f64_sensible D) as (x & P & Nr').
    rewrite (C81_unique _ _ _ _ _ _ Nr' Nr) in P. exists (Fin neg y). split; [exact P|]. cbn [duration_of].
    assert (E : neg && negb (y =? 0) = false) by (destruct neg; [rewrite (Z eq_refl)|]; reflexivity). rewrite E. apply N.leb_gt in B. now rewrite B.
  Qed.
  Lemma dur_huge_read : forall v, dur_huge v -> exists x, parse_float f64_format v = Some x /\ duration_of nanos_of x = Panic.
  Proof.
    intros v [(x & S)|(neg & p & q & D & H)].
    - exists x. split; [now apply C81_specials|]. destruct S as (sg & neg & w & _ & _ & [(_ & ->)|(_ & ->)]); reflexivity.
    - destruct (C81_numbers f64_format v neg p q f64_sensible D) as (x & P & Nr'). exists x. split; [exact P|]. destruct H as [Nr|(y & Nr & H)].
      + rewrite (C81_unique _ _ _ _ _ _ Nr' Nr). reflexivity.
      + rewrite (C81_unique _ _ _ _ _ _ Nr' Nr). cbn [duration_of]. destruct H as [(-> & H)|H].
        * destruct (N.eqb_spec y 0); [contradiction|]. reflexivity.
        * apply N.leb_le in H. rewrite H. destruct (neg && _); reflexivity.
  Qed.
  Lemma desc_read : forall v t, parse_desc v = Ok t <-> desc_text v t.
  Proof.
    intros v t. unfold parse_desc, desc_text. change (lit """") with [34]. split.
    - destruct (strip_prefix [34] v) as [r|] eqn:E.
      + apply strip_prefix_some in E. subst v. destruct (strip_suffix [34] r) as [r'|] eqn:F; intros H; inv H. apply strip_suffix_some in F. subst r. now left.
      + destruct (strip_suffix [34] v) as [r|] eqn:F; intros H; inv H. right. split; [reflexivity|]. split; intros r ->.
        * change (34 :: r) with ([34] ++ r) in E. rewrite strip_prefix_app in E. discriminate E.
        * rewrite strip_suffix_app in F. discriminate F.
    - intros [->|(-> & A & B)].
      + change (34 :: t ++ [34]) with ([34] ++ (t ++ [34])). rewrite strip_prefix_app, strip_suffix_app. reflexivity.
      + destruct (strip_prefix [34] t) as [r|] eqn:E; [apply strip_prefix_some in E; now elim (A r)|].
        destruct (strip_suffix [34] t) as [r|] eqn:F; [apply strip_suffix_some in F; now elim (B r)|]. reflexivity.
  Qed.
  Lemma desc_no_panic : forall v, parse_desc v <> Panic.
  Proof. intros v. unfold parse_desc. destruct (strip_prefix _ v) as [r|]; [destruct (strip_suffix _ r)|destruct (strip_suffix _ v)]; discriminate. Qed.

  Definition absorb (st : option duration * option str) (i : timing_item) : option duration * option str :=
    match i with TDur d => (Some d, snd st) | TDesc t => (fst st, Some t) | TIgnored => st end.
  (** One parameter. *)
  Lemma param_iff : forall st p st', parse_param nanos_of st p = Ok st' <-> exists i, timing_param p i /\ st' = absorb st i.
  Proof.
    intros st p st'. unfold parse_param. split.
    - destruct p as [|c p0] eqn:EP; [discriminate|]. rewrite <- EP. clear EP. change c_eq with 61.
      destruct (split 61 (trim_start p)) as [|kt [|vt more]] eqn:S; try discriminate.
      assert (KV : key_value p (trim_end_matches is_ws kt) (trim_start vt)) by (apply key_value_iff; eauto 8).
      cbv zeta. destruct (seqb_spec (trim_end_matches is_ws kt) (lit "dur")) as [E|N1].
      + destruct (dur_cases (trim_start vt)) as [(x & d & P & D & X)|[(x & P & D & _)|P]]; rewrite P; cbn [ok_or bind]; try rewrite D; cbn [bind]; intros H; try discriminate.
        injection H as <-. exists (TDur d). split; [|reflexivity]. exists (trim_end_matches is_ws kt), (trim_start vt). auto.
      + destruct (seqb_spec (trim_end_matches is_ws kt) (lit "desc")) as [E|N2].
        * destruct (parse_desc (trim_start vt)) as [t| |] eqn:D; cbn [bind]; intros H; try discriminate. injection H as <-. exists (TDesc t). split; [|reflexivity].
          exists (trim_end_matches is_ws kt), (trim_start vt). split; [exact KV|]. split; [exact E|]. now apply desc_read.
        * intros H. injection H as <-. exists TIgnored. split; [|reflexivity]. exists (trim_end_matches is_ws kt), (trim_start vt). auto.
    - intros (i & (k & v & KV & M) & ->). apply key_value_iff in KV as (kt & vt & more & S & -> & ->).
      destruct p as [|c p0] eqn:EP; [discriminate S|]. rewrite <- EP in *. clear EP. change c_eq with 61. rewrite S. cbv zeta. destruct i as [d|t|].
      + destruct M as (-> & x & D & ->). change (seqb (lit "dur") (lit "dur")) with true. cbv iota. destruct (dur_text_read _ _ D) as (y & P & Q). rewrite P. cbn [ok_or bind]. now rewrite Q.
      + destruct M as (-> & D). change (seqb (lit "desc") (lit "dur")) with false. change (seqb (lit "desc") (lit "desc")) with true. cbv iota. apply desc_read in D. now rewrite D.
      + destruct M as (N1 & N2). apply seqb_neq in N1, N2. now rewrite N1, N2.
  Qed.
  Lemma param_panics : forall st p, parse_param nanos_of st p = Panic <-> exists v, key_value p (lit "dur") v /\ dur_huge v.
  Proof.
    intros st p. unfold parse_param. split.
    - destruct p as [|c p0] eqn:EP; [discriminate|]. rewrite <- EP. clear EP. change c_eq with 61.
      destruct (split 61 (trim_start p)) as [|kt [|vt more]] eqn:S; try discriminate.
      assert (KV : key_value p (trim_end_matches is_ws kt) (trim_start vt)) by (apply key_value_iff; eauto 8).
      cbv zeta. destruct (seqb_spec (trim_end_matches is_ws kt) (lit "dur")) as [E|N1].
      + destruct (dur_cases (trim_start vt)) as [(x & d & P & D & X)|[(x & P & D & H)|P]]; rewrite P; cbn [ok_or bind]; try rewrite D; cbn [bind]; intros Q; try discriminate.
        exists (trim_start vt). rewrite <- E. auto.
      + destruct (seqb (trim_end_matches is_ws kt) (lit "desc")); [|discriminate]. assert (NP := desc_no_panic (trim_start vt)).
        destruct (parse_desc (trim_start vt)); cbn [bind]; congruence.
    - intros (v & KV & H). apply key_value_iff in KV as (kt & vt & more & S & E & ->).
      destruct p as [|c p0] eqn:EP; [discriminate S|]. rewrite <- EP in *. clear EP. change c_eq with 61. rewrite S. cbv zeta. rewrite <- E.
      change (seqb (lit "dur") (lit "dur")) with true. cbv iota. destruct (dur_huge_read _ H) as (y & P & Q). rewrite P. cbn [ok_or bind]. now rewrite Q.
  Qed.
  Lemma params_iff : forall ps st st', parse_params nanos_of ps st = Ok st' <-> exists items, Forall2 timing_param ps items /\ st' = fold_left absorb items st.
  Proof.
    induction ps as [|p ps IH]; intros st st'; cbn [parse_params].
    - split; [intros H; inv H; exists []; split; [constructor|reflexivity]|]. intros (items & F & ->). inversion F; subst. reflexivity.
    - split.
      + destruct (parse_param nanos_of st p) as [s1| |] eqn:P; cbn [bind]; try discriminate. intros H. apply IH in H as (items & F & ->).
        apply param_iff in P as (i & M & ->). exists (i :: items). split; [constructor; assumption|reflexivity].
      + intros (items & F & ->). apply forall2_cons_l in F as (i & items' & -> & M & F). rewrite (proj2 (param_iff st p (absorb st i))) by eauto. cbn [bind fold_left].
        apply IH. eauto.
  Qed.
  Lemma params_panic : forall ps st, parse_params nanos_of ps st = Panic <->
    exists ps1 p ps2 items v, ps = ps1 ++ p :: ps2 /\ Forall2 timing_param ps1 items /\ key_value p (lit "dur") v /\ dur_huge v.
  Proof.
    induction ps as [|p ps IH]; intros st; cbn [parse_params].
    - split; [discriminate|]. intros (ps1 & p & ps2 & items & v & E & _). destruct ps1; discriminate E.
    - split.
      + destruct (parse_param nanos_of st p) as [s1| |] eqn:P; cbn [bind]; try discriminate.
        * intros H. apply IH in H as (ps1 & q & ps2 & items & v & -> & F & KV & D). apply param_iff in P as (i & M & _).
          exists (p :: ps1), q, ps2, (i :: items), v. repeat split; auto.
        * intros _. apply param_panics in P as (v & KV & D). exists [], p, ps, [], v. repeat split; auto.
      + intros (ps1 & q & ps2 & items & v & E & F & KV & D). destruct ps1 as [|p1 ps1].
        * injection E as <- <-. rewrite (proj2 (param_panics st p)) by eauto. reflexivity.
        * injection E as <- ->. apply forall2_cons_l in F as (i & items' & -> & M & F). rewrite (proj2 (param_iff st p (absorb st i))) by eauto. cbn [bind].
          apply IH. exists ps1, q, ps2, items', v. auto.
  Qed.
  Lemma absorb_last : forall items st, fold_left absorb items st =
    (match last_opt (durs items) with Some d => Some d | None => fst st end, match last_opt (descs items) with Some t => Some t | None => snd st end).
  Proof.
    assert (L : forall A (x : A) l, last_opt (x :: l) = match last_opt l with Some y => Some y | None => Some x end).
    { intros A x l. unfold last_opt. cbn [rev]. destruct (rev l); reflexivity. }
    induction items as [|i items IH]; intros [a b]; [reflexivity|]. cbn [fold_left]. rewrite IH. unfold durs, descs. cbn [flat_map].
    destruct i as [d|t|]; cbn [absorb app fst snd]; rewrite ?L; try reflexivity.
    - destruct (last_opt _) eqn:E; reflexivity.
    - f_equal. destruct (last_opt (flat_map (fun i => match i with TDesc t0 => [t0] | _ => [] end) items)); reflexivity.
  Qed.
  Lemma semi_split : forall c nt (ps : list str), split 59 c = nt :: ps <-> c = nt ++ flat_map (fun p => 59 :: p) ps /\ ~ In 59 nt /\ Forall (fun p : str => ~ In 59 p) ps.
  Proof.
    intros c nt ps.
    assert (J : forall nt (ps : list str), join [59] (nt :: ps) = nt ++ flat_map (fun p => 59 :: p) ps).
    { clear. intros nt ps. revert nt. induction ps as [|p ps IH]; intros nt; [cbn; now rewrite app_nil_r|]. change (join [59] (nt :: p :: ps)) with (nt ++ [59] ++ join [59] (p :: ps)).
      rewrite IH. reflexivity. }
    split.
    - intros S. split; [rewrite <- J, <- S; symmetry; apply split_join_inv|]. assert (P := split_pieces 59 c). rewrite S in P. inversion P as [|? ? P1 P2]; subst.
      split; [now apply no_char_in|]. eapply Forall_impl; [|exact P2]. intros p Hp. now apply no_char_in.
    - intros (-> & N & F). rewrite <- J. apply split_join; [discriminate|]. constructor; [now apply no_char_in|]. eapply Forall_impl; [|exact F]. intros p Hp. now apply no_char_in.
  Qed.
  Lemma front_name : forall c nt ps, trim c = c -> split 59 c = nt :: ps -> trim_end_matches is_ws nt = trim nt.
  Proof.
    intros c nt ps T S. apply semi_split in S as (-> & _). apply no_edge_of_trim in T. unfold trim, trim_matches, trim_start_matches. f_equal. symmetry. apply drop_while_none.
    destruct nt as [|x nt]; [reflexivity|]. unfold no_edge in T. apply andb_true_iff in T as [T _]. exact T.
  Qed.
  Lemma entry_iff : forall c m, trim c = c -> (parse_entry nanos_of c = Ok m <-> timing_entry c m).
  Proof.
    intros c m T. unfold parse_entry. change c_semi with 59. rewrite T. split.
    - destruct (split 59 c) as [|nt ps] eqn:S; [discriminate|]. destruct (parse_params nanos_of ps (None, None)) as [st| |] eqn:P; cbn [bind]; try discriminate. intros H. inv H.
      apply params_iff in P as (items & F & ->). assert (FN := front_name _ _ _ T S). apply semi_split in S as (E & N & FF). exists nt, ps, items. cbn [m_name m_dur m_desc].
      split; [exact E|]. split; [exact N|]. split; [exact FF|]. split; [apply around_trim; exact FN|]. split; [exact F|]. rewrite absorb_last. cbn [fst snd].
      split; [destruct (last_opt (durs items))|destruct (last_opt (descs items))]; reflexivity.
    - intros (nt & ps & items & E & N & FF & AR & F & D1 & D2). assert (S : split 59 c = nt :: ps) by (apply semi_split; auto). rewrite S.
      rewrite (proj2 (params_iff ps (None, None) _) (ex_intro _ items (conj F eq_refl))). cbn [bind]. rewrite absorb_last. cbn [fst snd]. rewrite (front_name _ _ _ T S).
      apply around_trim in AR. rewrite <- AR. destruct m as [n d t]. cbn [m_name m_dur m_desc] in *. subst d t. f_equal.
      destruct (last_opt (durs items)), (last_opt (descs items)); reflexivity.
  Qed.
  Lemma entry_panics : forall c, trim c = c -> (parse_entry nanos_of c = Panic <-> timing_explodes c).
  Proof.
    intros c T. unfold parse_entry. change c_semi with 59. rewrite T. split.
    - destruct (split 59 c) as [|nt ps] eqn:S; [discriminate|]. destruct (parse_params nanos_of ps (None, None)) as [st| |] eqn:P; cbn [bind]; try discriminate. intros _.
      apply params_panic in P as (ps1 & p & ps2 & items & v & -> & F & KV & D). apply semi_split in S as (E & N & FF). exists nt, ps1, p, ps2, items, v. auto 8.
    - intros (nt & ps1 & p & ps2 & items & v & E & N & FF & F & KV & D). assert (S : split 59 c = nt :: ps1 ++ p :: ps2) by (apply semi_split; auto). rewrite S.
      rewrite (proj2 (params_panic (ps1 ++ p :: ps2) (None, None))); [reflexivity|]. exists ps1, p, ps2, items, v. auto.
  Qed.
  Lemma trim_twice : forall t, trim (trim t) = trim t.
  Proof. intros t. unfold trim. apply trim_matches_idem. Qed.
  Lemma entry_trim : forall p, parse_entry nanos_of p = parse_entry nanos_of (trim p).
  Proof. intros p. unfold parse_entry. now rewrite trim_twice. Qed.

  (** Accepted: every piece is an entry. *)
  Theorem C94_server_timing : forall h vs ms, h_get h (lit "server-timing") = Some vs ->
    (timing_from_headers nanos_of h = Ok (Some ms) <-> all_spell timing_entry vs ms).
  Proof.
    intros h vs ms G. unfold timing_from_headers. rewrite (with_all_iff _ _ SERVER_TIMING vs _ _ G), all_spell_parts.
    generalize (comma_parts vs) as ps. clear. intros ps. revert ms. induction ps as [|p ps IH]; intros ms; cbn [parse_entries map].
    - split; [intros H; inv H; constructor|]. intros F. inversion F; subst. reflexivity.
    - rewrite entry_trim. split.
      + destruct (parse_entry nanos_of (trim p)) as [m| |] eqn:P; cbn [with_status bind]; try discriminate. destruct (parse_entries nanos_of ps) as [ms'| |] eqn:R; cbn [bind]; try discriminate.
        intros H. inv H. constructor; [apply entry_iff; [apply trim_twice|exact P]|]. now apply IH.
      + intros F. apply forall2_cons_l in F as (m & ms' & -> & M & F). apply entry_iff in M; [|apply trim_twice]. rewrite M. cbn [with_status bind]. apply IH in F. now rewrite F.
  Qed.
  (** Panics: the first piece that is no entry explodes.  Everything else is a 400 error (C66_total_partial). *)
  Theorem C94_server_timing_panics : forall h vs, h_get h (lit "server-timing") = Some vs ->
    (timing_from_headers nanos_of h = Panic <->
     exists cs1 c cs2, all_spell eq vs (cs1 ++ c :: cs2) /\ Forall (fun c' => exists m, timing_entry c' m) cs1 /\ timing_explodes c).
  Proof.
    intros h vs G.
    assert (K : forall ps, parse_entries nanos_of ps = Panic <->
      exists cs1 c cs2, map trim ps = cs1 ++ c :: cs2 /\ Forall (fun c' => exists m, timing_entry c' m) cs1 /\ timing_explodes c).
    { clear. induction ps as [|p ps IH]; cbn [parse_entries map].
      - split; [discriminate|]. intros (cs1 & c & cs2 & E & _). destruct cs1; discriminate E.
      - rewrite entry_trim. split.
        + destruct (parse_entry nanos_of (trim p)) as [m| |] eqn:P; cbn [with_status bind]; try discriminate.
          * destruct (parse_entries nanos_of ps) as [ms'| |] eqn:R; cbn [bind]; try discriminate. intros _. destruct (proj1 IH eq_refl) as (cs1 & c & cs2 & E & F & X).
            exists (trim p :: cs1), c, cs2. rewrite E. split; [reflexivity|]. split; [|exact X]. constructor; [exists m; apply entry_iff; [apply trim_twice|exact P]|exact F].
          * intros _. exists [], (trim p), (map trim ps). split; [reflexivity|]. split; [constructor|]. apply entry_panics; [apply trim_twice|exact P].
        + intros (cs1 & c & cs2 & E & F & X). destruct cs1 as [|c1 cs1].
          * injection E as <- <-. rewrite (proj2 (entry_panics (trim p) (trim_twice p)) X). reflexivity.
          * injection E as <- E. inversion F as [|? ? (m & M) F']; subst. apply entry_iff in M; [|apply trim_twice]. rewrite M. cbn [with_status bind].
            rewrite (proj2 IH); [reflexivity|]. exists cs1, c, cs2. auto. }
    unfold timing_from_headers, with_all. change SERVER_TIMING with (lit "server-timing"). rewrite G.
    assert (Q : (let* a := parse_entries nanos_of (comma_parts vs) in Ok (Some a)) = Panic <-> parse_entries nanos_of (comma_parts vs) = Panic).
    { destruct (parse_entries nanos_of (comma_parts vs)); cbn [bind]; split; congruence. }
    rewrite Q, K. assert (EQ : forall l m : list str, Forall2 eq l m <-> l = m).
    { intros l m. split; [intros F; induction F; congruence|]. intros <-. induction l; constructor; auto. }
    split; intros (cs1 & c & cs2 & E & F & X); exists cs1, c, cs2; (split; [|auto]).
    - apply all_spell_parts. now apply EQ.
    - apply all_spell_parts in E. now apply EQ.
  Qed.
End Timing.
Print Assumptions C94_server_timing.
Print Assumptions C94_server_timing_panics.
Example C94_server_timing_example : forall nanos_of,
  timing_from_headers nanos_of [(lit "server-timing", [lit "a ; dur =0=x;foo=1; desc=x;desc=""y"" , b"; lit ""])]
    = Ok (Some [Metric (lit "a") (Some (of_nanos (nanos_of 0 / 1000))) (Some (lit "y")); Metric (lit "b") None None; Metric [] None None]) /\
  timing_from_headers nanos_of [(lit "server-timing", [lit "a, b;x=1;dur=-2;;"])] = Panic /\
  timing_from_headers nanos_of [(lit "server-timing", [lit "a;, b;x=1;dur=-2;;"])] = Err 400 /\
  timing_from_headers nanos_of [(lit "server-timing", [lit "a;dur=-0"])] = Ok (Some [Metric (lit "a") (Some (of_nanos (nanos_of 0 / 1000))) None]).
Proof. intros nanos_of. vm_compute. auto. Qed.
