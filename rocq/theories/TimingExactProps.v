(** C66, continued: which metrics can be read at all, which come back, and what reading twice gives. *)
From Verif Require Import Base BaseFacts Headers HeadersFacts Typed TypedFacts Float FloatFacts Cache Timing TimingProps StableProps.
From Coq Require Import ZifyBool ZifyNat ZifyN.

Definition text_ok (m : metric) : Prop :=
  no_char 44 (m_name m) = true /\ no_char 59 (m_name m) = true /\ no_edge is_ws (m_name m) = true /\
  (forall t, m_desc m = Some t -> no_char 44 t = true /\ no_char 59 t = true /\ no_char 61 t = true).

Section Exact.
  Context (show_f64 : N -> str) (nanos_of : N -> N).

  Lemma no_char_ok : forall d s, no_char d s = forallb (fun c => negb (c =? d)) s.
  Proof. reflexivity. Qed.
  Lemma split_ok : forall d ok s, forallb ok s = true -> Forall (fun p => forallb ok p = true) (split d s).
  Proof.
    induction s as [|c s IH]; intros H; [repeat constructor|]. cbn [forallb] in H. apply andb_prop in H as [H1 H2]. specialize (IH H2).
    destruct (c =? d) eqn:E.
    - cbn [split]. rewrite E. constructor; [reflexivity|exact IH].
    - rewrite (split_cons_other d c s E). assert (N := split_nonempty d s). destruct (split d s) as [|p ps]; [congruence|].
      inversion IH as [|? ? A B]; subst. constructor; [|exact B]. cbn [forallb]. now rewrite H1.
  Qed.
  Lemma desc_chars : forall ok v t, forallb ok v = true -> parse_desc v = Ok t -> forallb ok t = true.
  Proof.
    intros ok v t F H. unfold parse_desc in H. destruct (strip_prefix (lit """") v) as [r|] eqn:E.
    - apply strip_prefix_some in E. destruct (strip_suffix (lit """") r) as [r'|] eqn:G; [|discriminate H]. apply strip_suffix_some in G. inv H.
      rewrite !forallb_app in F. lia.
    - destruct (strip_suffix (lit """") v); [discriminate H|]. now inv H.
  Qed.
  Definition desc_ok (o : option str) : Prop := forall t, o = Some t -> no_char 44 t = true /\ no_char 59 t = true /\ no_char 61 t = true.
  Lemma param_range : forall st p st', no_char 44 p = true -> no_char 59 p = true -> desc_ok (snd st) -> parse_param nanos_of st p = Ok st' -> desc_ok (snd st').
  Proof.
    intros st p st' C44 C59 D H. unfold parse_param in H. destruct p as [|c p]; [discriminate H|]. change c_eq with 61 in H. set (q := trim_start (c :: p)) in *.
    assert (Q : forall d, no_char d (c :: p) = true -> no_char d q = true) by (intros d N; rewrite no_char_ok in *; apply drop_ok, N).
    assert (P1 := split_ok 61 _ q (Q _ C44)). assert (P2 := split_ok 61 _ q (Q _ C59)). assert (P3 := split_pieces 61 q).
    destruct (split 61 q) as [|k [|v rest]]; [discriminate H|discriminate H|].
    destruct (seqb _ (lit "dur")).
    - destruct (ok_or 500 _) as [x| |]; cbn [bind] in H; try discriminate H. destruct (duration_of _ x); cbn [bind] in H; inv H. exact D.
    - destruct (seqb _ (lit "desc")); [|inv H; exact D].
      destruct (parse_desc (trim_start v)) as [t| |] eqn:E; cbn [bind] in H; inv H. cbn [snd]. intros t' Et. injection Et as <-.
      inversion P1 as [|? ? _ P1']; subst. inversion P1' as [|? ? V1 _]; subst. inversion P2 as [|? ? _ P2']; subst. inversion P2' as [|? ? V2 _]; subst.
      inversion P3 as [|? ? _ P3']; subst. inversion P3' as [|? ? V3 _]; subst.
      rewrite !no_char_ok in *. repeat split; (eapply desc_chars; [|exact E]); apply drop_ok; assumption.
  Qed.
  Lemma params_range : forall ps st st', Forall (fun p => no_char 44 p = true) ps -> Forall (fun p => no_char 59 p = true) ps -> desc_ok (snd st) ->
    parse_params nanos_of ps st = Ok st' -> desc_ok (snd st').
  Proof.
    induction ps as [|p ps IH]; intros st st' A B D H; cbn [parse_params] in H; [inv H; exact D|]. inversion A; subst. inversion B; subst.
    destruct (parse_param nanos_of st p) as [st1| |] eqn:E; cbn [bind] in H; try discriminate H. apply (IH st1 st'); auto. apply (param_range st p st1); assumption.
  Qed.
  Lemma no_edge_prefix : forall a b, no_edge is_ws (a ++ b) = true -> no_edge is_ws (trim_end_matches is_ws a) = true.
  Proof.
    intros a b H. assert (T : trim_matches is_ws a = trim_end_matches is_ws a).
    { unfold trim_matches. f_equal. unfold trim_start_matches. apply drop_while_none. destruct a as [|c a]; [reflexivity|].
      unfold no_edge in H. cbn [app] in H. now apply andb_prop in H as [H _]. }
    rewrite <- T. apply trim_matches_no_edge.
  Qed.
  Lemma entry_range : forall p m, no_char 44 p = true -> parse_entry nanos_of p = Ok m -> text_ok m.
  Proof.
    intros p m C H. unfold parse_entry in H. change c_semi with 59 in H. set (q := trim p) in *.
    assert (Q : no_char 44 q = true) by (apply trim_no_comma, C).
    assert (E : no_edge is_ws q = true) by apply trim_matches_no_edge.
    assert (P1 := split_ok 59 _ q Q). assert (P2 := split_pieces 59 q). assert (J := split_join_inv 59 q).
    destruct (split 59 q) as [|n ps]; [discriminate H|]. inversion P1 as [|? ? N1 P1']; subst. inversion P2 as [|? ? N2 P2']; subst.
    destruct (parse_params nanos_of ps (None, None)) as [st| |] eqn:S; cbn [bind] in H; inv H. unfold text_ok. cbn [m_name m_desc].
    repeat apply conj.
    - rewrite no_char_ok. apply trim_end_ok. exact N1.
    - rewrite no_char_ok. apply trim_end_ok. exact N2.
    - destruct ps as [|p1 ps].
      + cbn [join] in J. apply (no_edge_prefix n []). rewrite app_nil_r, J. exact E.
      + assert (X : exists r, q = n ++ r) by (rewrite <- J; cbn [join]; eexists; reflexivity). destruct X as [r X].
        apply (no_edge_prefix n r). rewrite <- X. exact E.
    - apply (params_range ps (None, None) st); auto. intros t X. discriminate X.
  Qed.
  Lemma entries_each : forall ps ms, parse_entries nanos_of ps = Ok ms -> Forall2 (fun p m => parse_entry nanos_of p = Ok m) ps ms.
  Proof.
    induction ps as [|p ps IH]; intros ms H; cbn [parse_entries] in H; [inv H; constructor|].
    destruct (parse_entry nanos_of p) as [m| |] eqn:E; cbn [with_status bind] in H; try discriminate H.
    destruct (parse_entries nanos_of ps) as [ms1| |]; cbn [bind] in H; inv H. constructor; [exact E|]. now apply IH.
  Qed.

  (** Every metric that is read, from any header, has a name without separators or surrounding space and a
      description without separators; and at least one is read. *)
  Theorem C66_range : forall h ms, timing_from_headers nanos_of h = Ok (Some ms) ->
    Forall text_ok ms /\ forall v vs, h_get h (lit "server-timing") = Some (v :: vs) -> ms <> [].
  Proof.
    intros h ms H. unfold timing_from_headers, with_all in H. change SERVER_TIMING with (lit "server-timing") in H.
    destruct (h_get h (lit "server-timing")) as [vs|]; [|discriminate H].
    destruct (parse_entries nanos_of (comma_parts vs)) as [x| |] eqn:E; cbn [bind] in H; inv H. apply entries_each in E. split.
    - assert (C : Forall (fun p => no_char 44 p = true) (comma_parts vs)).
      { unfold comma_parts. apply Forall_flat_map. apply Forall_forall. intros v _. apply split_pieces. }
      clear - E C. induction E as [|p m ps ms E1 E2 IH]; [constructor|]. inversion C; subst. constructor; [|now apply IH]. eapply entry_range; eassumption.
    - intros v vs' V. inv V. unfold comma_parts in E. cbn [flat_map] in E. assert (N := split_nonempty c_comma (trim v)).
      destruct (split c_comma (trim v)); [congruence|]. inversion E; subst. discriminate.
  Qed.

  Lemma long_panics : show_contract show_f64 -> forall m d, text_ok m -> m_dur m = Some d -> 2 ^ 64 * one f64_format <= as_millis d ->
    parse_entry nanos_of (metric_value show_f64 m) = Panic.
  Proof.
    intros C [n d0 t] d (N44 & N59 & NE & T) E L. cbn [m_name m_desc m_dur] in *. subst d0.
    assert (K : clean (metric_value show_f64 (Metric n (Some d) t)) = true).
    { apply entry_clean; [exact C|exact N44|exact NE|]. intros x E. now apply T. }
    unfold parse_entry. apply andb_true_iff in K as [_ K]. rewrite trim_id by exact K. clear K. unfold metric_value. cbn [m_name m_desc m_dur]. change c_semi with 59.
    destruct (shown_chars show_f64 C d) as (_ & B & B61 & B4 & _). cbv zeta in *.
    assert (P : parse_param nanos_of (None, None) (32 :: lit "dur=" ++ show_f64 (as_millis d)) = Panic).
    { destruct (C d) as (_ & _ & P). cbv zeta in P. unfold parse_param.
      change (trim_start (32 :: lit "dur=" ++ show_f64 (as_millis d))) with (lit "dur" ++ 61 :: show_f64 (as_millis d)).
      change c_eq with 61. rewrite split_app by reflexivity. rewrite (split_no_char 61) by exact B61. rewrite B4.
      change (seqb (trim_end_matches is_ws (lit "dur")) (lit "dur")) with true. cbv iota. rewrite P. cbn [ok_or bind]. unfold duration_of. cbn [andb].
      apply N.leb_le in L. rewrite L. reflexivity. }
    destruct t as [t|].
    - change (lit "; dur=" ++ show_f64 (as_millis d) ++ lit "; desc=""" ++ t ++ lit """") with (59 :: (32 :: lit "dur=" ++ show_f64 (as_millis d) ++ 59 :: (32 :: lit "desc=""" ++ t ++ lit """"))).
      rewrite split_app by exact N59.
      change (32 :: lit "dur=" ++ show_f64 (as_millis d) ++ 59 :: (32 :: lit "desc=""" ++ t ++ lit """")) with ((32 :: lit "dur=") ++ show_f64 (as_millis d) ++ 59 :: (32 :: lit "desc=""" ++ t ++ lit """")).
      rewrite app_assoc. rewrite split_app by (rewrite no_char_app, B; reflexivity). cbn [parse_params].
      change ((32 :: lit "dur=") ++ show_f64 (as_millis d)) with (32 :: lit "dur=" ++ show_f64 (as_millis d)). rewrite P. reflexivity.
    - change (lit "; dur=" ++ show_f64 (as_millis d)) with (59 :: (32 :: lit "dur=" ++ show_f64 (as_millis d))).
      rewrite split_app by exact N59.
      rewrite (split_no_char 59) by (change (32 :: lit "dur=" ++ show_f64 (as_millis d)) with ((32 :: lit "dur=") ++ show_f64 (as_millis d)); rewrite !no_char_app, B; reflexivity).
      cbn [parse_params]. rewrite P. reflexivity.
  Qed.

  (** A list of metrics whose texts are fine: each entry is read by itself. *)
  Lemma read_written : show_contract show_f64 -> forall h ms, ms <> [] -> Forall text_ok ms ->
    timing_from_headers nanos_of (timing_apply show_f64 h ms) = let* r := parse_entries nanos_of (map (metric_value show_f64) ms) in Ok (Some r).
  Proof.
    intros C h ms N F. unfold timing_from_headers, timing_apply. rewrite with_all_apply. unfold comma_parts. cbn [flat_map]. rewrite app_nil_r.
    assert (CL : forallb clean (map (metric_value show_f64) ms) = true).
    { rewrite forallb_forall. intros s I. apply in_map_iff in I as (m & <- & I). rewrite Forall_forall in F. destruct (F m I) as (A & _ & B & D).
      apply entry_clean; auto. intros t E. now apply D. }
    rewrite (parse_entries_ext _ _ (map (metric_value show_f64) ms)); [reflexivity|].
    change c_comma with 44. unfold timing_value. rewrite pieces_text; [|destruct ms; [congruence|discriminate]|exact CL].
    transitivity (map (fun s : str => s) (map (metric_value show_f64) ms)); [now rewrite map_id|]. apply map_ext_in. intros s I.
    rewrite forallb_forall in CL. apply CL in I. apply andb_true_iff in I as [_ I]. symmetry. now apply trim_id.
  Qed.

  (** Exactly which lists of metrics come back: non-empty ones whose names and descriptions have no separators,
      names no surrounding space, and whose durations survive the conversion to milliseconds and back. *)
  Definition dur_back (o : option duration) : Prop :=
    forall d, o = Some d -> as_millis d < 2 ^ 64 * one f64_format /\ of_nanos (nanos_of (as_millis d) / 1000) = d.
  Theorem C66_round_trip_iff : show_contract show_f64 -> forall h ms,
    timing_from_headers nanos_of (timing_apply show_f64 h ms) = Ok (Some ms) <->
    (ms <> [] /\ Forall (fun m => text_ok m /\ dur_back (m_dur m)) ms).
  Proof.
    intros C h ms. split.
    - intros H. assert (G : h_get (timing_apply show_f64 h ms) (lit "server-timing") = Some [timing_value show_f64 ms]).
      { unfold timing_apply, apply_value. change SERVER_TIMING with (lit "server-timing"). unfold h_get, h_insert, to_header_values. cbn [fst]. apply hm_get_insert_same. }
      destruct (C66_range _ _ H) as [R N]. specialize (N _ _ G). split; [exact N|]. rewrite (read_written C h ms N R) in H.
      destruct (parse_entries nanos_of (map (metric_value show_f64) ms)) as [r| |] eqn:E; cbn [bind] in H; inv H. apply entries_each in E. clear N.
      assert (X : Forall (fun m => parse_entry nanos_of (metric_value show_f64 m) = Ok m) ms).
      { assert (Y : forall f (l l' : list metric), Forall2 (fun p m => parse_entry nanos_of p = Ok m) (map f l) l' -> l = l' -> Forall (fun m => parse_entry nanos_of (f m) = Ok m) l).
        { intros f l l' Z. remember (map f l) as q eqn:Q. revert l Q. induction Z as [|p m ps ms' Z1 Z2 IH]; intros l Q L; subst l; [constructor|].
          cbn [map] in Q. injection Q as -> Q. constructor; [exact Z1|]. apply (IH ms' Q eq_refl). }
        exact (Y _ _ _ E eq_refl). }
      clear E G. apply Forall_forall. intros m I. rewrite Forall_forall in R, X. specialize (R m I). specialize (X m I). split; [exact R|].
      intros d D. assert (L : as_millis d < 2 ^ 64 * one f64_format).
      { destruct (N.lt_ge_cases (as_millis d) (2 ^ 64 * one f64_format)) as [L|L]; [exact L|]. rewrite (long_panics C m d R D L) in X. discriminate X. }
      split; [exact L|]. destruct R as (A1 & A2 & A3 & A4).
      destruct (entry_text show_f64 nanos_of C m) as [_ Y].
      { unfold writable. repeat apply conj; auto. intros d' D'. rewrite D in D'. injection D' as <-. exact L. }
      rewrite X in Y. unfold read_back in Y. rewrite D in Y. destruct m as [n o t]. cbn [m_dur m_name m_desc] in *. subst o. injection Y as Y. symmetry. exact Y.
    - intros [N F]. rewrite (C66_round_trip_partial show_f64 nanos_of C).
      + do 2 f_equal. transitivity (map (fun m : metric => m) ms); [|apply map_id]. apply map_ext_in. intros [n o t] I. rewrite Forall_forall in F. destruct (F _ I) as [_ D]. cbn [m_dur] in D.
        unfold read_back. cbn [m_name m_dur m_desc]. destruct o as [d|]; [|reflexivity]. destruct (D d eq_refl) as [_ ->]. reflexivity.
      + exact N.
      + eapply Forall_impl; [|exact F]. intros m [(A1 & A2 & A3 & A4) D]. unfold writable. repeat apply conj; auto. intros d E. now apply D.
  Qed.

  (** Reading, writing and reading again: the same metrics, apart from what the conversion does to durations. *)
  Theorem C66_stable_partial : show_contract show_f64 -> forall h v vs ms h',
    h_get h (lit "server-timing") = Some (v :: vs) -> timing_from_headers nanos_of h = Ok (Some ms) ->
    Forall (fun m => forall d, m_dur m = Some d -> as_millis d < 2 ^ 64 * one f64_format) ms ->
    timing_from_headers nanos_of (timing_apply show_f64 h' ms) = Ok (Some (map (read_back nanos_of) ms)).
  Proof.
    intros C h v vs ms h' G H L. destruct (C66_range _ _ H) as [R N]. specialize (N _ _ G). apply (C66_round_trip_partial show_f64 nanos_of C); [exact N|].
    rewrite Forall_forall in *. intros m I. destruct (R m I) as (A1 & A2 & A3 & A4). unfold writable. repeat apply conj; auto. intros d E. exact (L m I d E).
  Qed.

  (** Descriptions as they may be written by others: quoted, bare, or with one quote only, which is an error. *)
  Theorem C66_description_forms : forall h n t, no_char 44 n = true -> no_char 59 n = true -> no_edge is_ws n = true -> n <> [] ->
    t <> [] -> forallb (fun c => negb (existsb (N.eqb c) [44; 59; 61; 34]) && negb (is_ws c)) t = true ->
    let read v := timing_from_headers nanos_of (apply_value h SERVER_TIMING (n ++ lit ";desc=" ++ v)) in
    read t = Ok (Some [Metric n None (Some t)]) /\ read (lit """" ++ t ++ lit """") = Ok (Some [Metric n None (Some t)]) /\
    read (lit """" ++ t) = Err 400 /\ read (t ++ lit """") = Err 400.
  Proof.
    intros h n t A1 A2 A3 A4 T0 T read.
    assert (TC : forall d, In d [44; 59; 61; 34] -> no_char d t = true).
    { intros d I. rewrite no_char_ok. rewrite forallb_forall in *. intros c Ic. specialize (T c Ic). apply andb_prop in T as [T _].
      destruct (N.eqb_spec c d) as [->|]; [|reflexivity]. exfalso. apply negb_true_iff in T. assert (X : existsb (N.eqb d) [44; 59; 61; 34] = true) by (apply existsb_exists; exists d; split; [exact I|apply N.eqb_refl]).
      congruence. }
    assert (TW : forall c, In c t -> is_ws c = false).
    { intros c I. rewrite forallb_forall in T. specialize (T c I). apply andb_prop in T as [_ T]. now apply negb_true_iff in T. }
    assert (R : forall v, no_char 44 v = true -> no_char 59 v = true -> no_char 61 v = true -> v <> [] -> (forall c, In c v -> is_ws c = false) ->
      read v = with_status 400 (let* x := parse_desc v in Ok (Some [Metric n None (Some x)]))).
    { intros v V1 V2 V3 V4 V5. unfold read, timing_from_headers. rewrite with_all_apply. unfold comma_parts. cbn [flat_map]. rewrite app_nil_r.
      assert (E : no_edge is_ws (n ++ lit ";desc=" ++ v) = true).
      { apply no_edge_app; [exact A3|discriminate|destruct n; [congruence|exact I]|]. rewrite rev_app_distr. destruct (rev v) as [|c r] eqn:Q.
        - apply (f_equal (@rev N)) in Q. rewrite rev_involutive in Q. cbn in Q; congruence.
        - cbn [app]. apply V5. apply in_rev. rewrite Q. now left. }
      rewrite (trim_id _ E). change c_comma with 44. rewrite (split_no_char 44) by (rewrite !no_char_app, A1, V1; reflexivity).
      cbn [parse_entries]. unfold parse_entry. rewrite (trim_id _ E). change c_semi with 59.
      change (n ++ lit ";desc=" ++ v) with (n ++ 59 :: (lit "desc=" ++ v)). rewrite split_app by exact A2.
      rewrite (split_no_char 59) by (rewrite no_char_app, V2; reflexivity). cbn [parse_params].
      assert (P : parse_param nanos_of (None, None) (lit "desc=" ++ v) = let* x := parse_desc v in Ok (None, Some x)).
      { unfold parse_param. change (trim_start (lit "desc=" ++ v)) with (lit "desc" ++ 61 :: v). change c_eq with 61. rewrite split_app by reflexivity.
        rewrite (split_no_char 61) by exact V3.
        assert (Tv : trim_start v = v). { unfold trim_start, trim_start_matches. apply drop_while_none. destruct v as [|c v]; [reflexivity|]. rewrite (V5 c) by now left. reflexivity. }
        rewrite Tv. change (seqb (trim_end_matches is_ws (lit "desc")) (lit "dur")) with false. change (seqb (trim_end_matches is_ws (lit "desc")) (lit "desc")) with true. reflexivity. }
      rewrite P. destruct (parse_desc v) as [x| |]; cbn [bind with_status]; [|reflexivity|reflexivity].
      rewrite trim_end_name by exact A3. reflexivity. }
    assert (Q34 : no_char 34 t = true) by (apply TC; cbn; auto 6).
    assert (S1 : strip_prefix (lit """") t = None).
    { destruct (strip_prefix (lit """") t) as [r|] eqn:E; [|reflexivity]. apply strip_prefix_some in E. rewrite E in Q34. discriminate Q34. }
    assert (S2 : strip_suffix (lit """") t = None).
    { destruct (strip_suffix (lit """") t) as [r|] eqn:E; [|reflexivity]. apply strip_suffix_some in E. rewrite E, no_char_app in Q34. apply andb_prop in Q34 as [_ Q]. discriminate Q. }
    assert (S3 : strip_prefix (lit """") (t ++ lit """") = None).
    { destruct t as [|c t]; [congruence|]. destruct (strip_prefix (lit """") ((c :: t) ++ lit """")) as [r|] eqn:E; [|reflexivity]. apply strip_prefix_some in E.
      apply (f_equal (@hd_error N)) in E. cbn in E. injection E as E. rewrite no_char_ok in Q34. cbn [forallb] in Q34. lia. }
    assert (M : forall d, In d [44; 59; 61] -> no_char d t = true) by (intros d I; apply TC; cbn in *; tauto).
    assert (W : forall a b, (a = [] \/ a = lit """") -> (b = [] \/ b = lit """") -> forall c, In c (a ++ t ++ b) -> is_ws c = false).
    { intros a b Ha Hb c I. apply in_app_or in I as [I|I]; [destruct Ha; subst a; [destruct I|destruct I as [<-|[]]; reflexivity]|].
      apply in_app_or in I as [I|I]; [now apply TW|]. destruct Hb; subst b; [destruct I|destruct I as [<-|[]]; reflexivity]. }
    assert (K44 := M 44 ltac:(cbn; auto)). assert (K59 := M 59 ltac:(cbn; auto)). assert (K61 := M 61 ltac:(cbn; auto)).
    repeat apply conj.
    - rewrite R; auto. unfold parse_desc. rewrite S1, S2. reflexivity.
    - rewrite R; [|rewrite !no_char_app, ?K44, ?K59, ?K61; reflexivity..|discriminate|apply W; auto]. unfold parse_desc. rewrite strip_prefix_app, strip_suffix_app. reflexivity.
    - rewrite R; [|rewrite !no_char_app, ?K44, ?K59, ?K61; reflexivity..|discriminate|].
      + unfold parse_desc. rewrite strip_prefix_app, S2. reflexivity.
      + intros c I. apply (W (lit """") []); auto. rewrite app_nil_r. exact I.
    - rewrite R; [|rewrite !no_char_app, ?K44, ?K59, ?K61; reflexivity..|destruct t; [congruence|discriminate]|].
      + unfold parse_desc. rewrite S3, strip_suffix_app. reflexivity.
      + intros c I. apply (W [] (lit """")); auto.
  Qed.
End Exact.
Print Assumptions C66_range.
Print Assumptions C66_round_trip_iff.
Print Assumptions C66_stable_partial.
Print Assumptions C66_description_forms.

Example C66_exact_example : forall h,
  let back ms := timing_from_headers cut_nanos (timing_apply exact_show h ms) in
  back [Metric (lit " a") None None] = Ok (Some [Metric (lit "a") None None]) /\
  back [Metric (lit "a b") None (Some (lit """x"))] = Ok (Some [Metric (lit "a b") None (Some (lit """x"))]) /\
  timing_from_headers cut_nanos (apply_value h SERVER_TIMING (lit "db;desc=q""")) = Err 400.
Proof. intros h back. unfold back, timing_from_headers, timing_apply. rewrite !with_all_apply. vm_compute. auto. Qed.

(** ** Short durations survive when the standard library rounds *)
Definition U : N := one f64_format.
(** The error of a correctly rounded quotient below 2^k is at most half a unit in the last place. *)
Lemma ratio_err : forall p q k, 0 < q -> k <= 100 -> p < q * 2 ^ k ->
  let v := f64_of_ratio p q in v * q <= p * U + q * 2 ^ (k + 1020) /\ p * U <= v * q + q * 2 ^ (k + 1020).
Proof.
  intros p q k Q K P v. unfold v, f64_of_ratio, round_ratio. fold (one f64_format). fold U. change (unit f64_format) with 1074.
  change (2 ^ 1074) with U. change (prec f64_format - 1) with 52. change (emax f64_format) with 1024.
  set (n := p * U). set (e := N.log2 (n / q) - 52). set (r := rhe n (q * 2 ^ e)).
  assert (PU : 0 < U) by (unfold U, one; apply pow2_pos).
  assert (NQ : n / q < 2 ^ (k + 1074)).
  { apply N.div_lt_upper_bound; [lia|]. unfold n. rewrite N.pow_add_r. change (2 ^ 1074) with U. rewrite N.mul_assoc. now apply N.mul_lt_mono_pos_r. }
  assert (E : e <= k + 1021).
  { unfold e. destruct (N.eq_dec (n / q) 0) as [->|Z]; [change (N.log2 0) with 0; lia|]. assert (L : N.log2 (n / q) < k + 1074) by (apply N.log2_lt_pow2; [apply N.neq_0_lt_0; exact Z|exact NQ]). lia. }
  assert (G : 2 ^ e <= 2 * 2 ^ (k + 1020)).
  { replace (2 * 2 ^ (k + 1020)) with (2 ^ (k + 1021)) by (replace (k + 1021) with (N.succ (k + 1020)) by lia; apply N.pow_succ_r'). apply N.pow_le_mono_r; lia. }
  assert (PE := pow2_pos e). destruct (rhe_bounds n (q * 2 ^ e)) as [B1 B2]; [now apply N.mul_pos_pos|]. fold r in B1, B2.
  set (g := 2 ^ e) in *. set (h := 2 ^ (k + 1020)) in *.
  assert (QG : q * g <= 2 * (q * h)) by (replace (2 * (q * h)) with (q * (2 * h)) by lia; now apply N.mul_le_mono_l).
  assert (X : g * r * q = q * g * r) by lia.
  assert (A1 : g * r * q <= n + q * h) by lia. assert (A2 : n <= g * r * q + q * h) by lia.
  assert (F : g * r <? 2 ^ (1024 + 1074) = true).
  { apply N.ltb_lt. apply (N.mul_lt_mono_pos_r q); [exact Q|]. eapply N.le_lt_trans; [exact A1|].
    assert (N1 : n < q * 2 ^ (k + 1074)).
    { unfold n. rewrite N.pow_add_r. change (2 ^ 1074) with U. rewrite N.mul_assoc. now apply N.mul_lt_mono_pos_r. }
    assert (N2 : 2 ^ (k + 1074) + h <= 2 ^ (1024 + 1074)).
    { transitivity (2 ^ 1174 + 2 ^ 1120); [apply N.add_le_mono; apply N.pow_le_mono_r; lia|]. apply N.leb_le. vm_compute. reflexivity. }
    apply (N.mul_le_mono_l _ _ q) in N2. lia. }
  rewrite F. cbn [finite]. split; assumption.
Qed.

(** Newer standard libraries round to the nearest nanosecond; this says nothing about ties. *)
Definition round_contract (nanos_of : N -> N) : Prop := forall v t,
  2 * (v * 1000000000) < 2 * (t * U) + U -> 2 * (t * U) < 2 * (v * 1000000000) + U -> nanos_of v = t.
Definition round_nanos (v : N) : N := rhe (v * 1000000000) U.
Lemma round_nanos_ok : round_contract round_nanos.
Proof. intros v t A B. unfold round_nanos. apply rhe_near; [unfold U, one; apply pow2_pos|lia|lia]. Qed.

(** Every duration below 4096 seconds comes back to the nanosecond then. *)
Theorem C66_short_durations : forall nanos_of, round_contract nanos_of -> forall s n, s < 4096 -> n < 1000000000 ->
  as_millis (Dur s n) < 2 ^ 64 * one f64_format /\ of_nanos (nanos_of (as_millis (Dur s n)) / 1000) = Dur s n.
Proof.
  intros nanos_of R s n S Hn. fold U. unfold as_millis, as_secs_f64. cbn [secs nanos].
  rewrite (round_exact s 0 s 1) by (change (2 ^ 0) with 1; lia). rewrite (round_exact 1000 0 1000 1) by (change (2 ^ 0) with 1; lia).
  change (2 ^ 0) with 1. fold U. rewrite !N.mul_1_r.
  assert (B := ratio_err n 1000000000 0 ltac:(lia) ltac:(lia) ltac:(change (2 ^ 0) with 1; lia)). cbv zeta in B. set (b := f64_of_ratio n 1000000000) in *.
  change (0 + 1020) with 1020 in B.
  assert (UW : U = 18014398509481984 * 2 ^ 1020) by (unfold U, one; change (unit f64_format) with (54 + 1020); rewrite N.pow_add_r; reflexivity).
  assert (W12 : 2 ^ (12 + 1020) = 4096 * 2 ^ 1020) by (rewrite N.pow_add_r; reflexivity).
  assert (W22 : 2 ^ (22 + 1020) = 4194304 * 2 ^ 1020) by (rewrite N.pow_add_r; reflexivity).
  assert (PW := pow2_pos 1020). remember (2 ^ 1020) as W eqn:EW. clear EW. clearbody b.
  assert (PU : 0 < U) by lia.
  assert (SU : s * U <= 4095 * U) by (apply N.mul_le_mono_r; lia).
  assert (NU : n * U <= 999999999 * U) by (apply N.mul_le_mono_r; lia).
  unfold f64_add. fold U.
  assert (L1 : s * U + b < U * 2 ^ 12) by (change (2 ^ 12) with 4096; lia).
  assert (A := ratio_err (s * U + b) U 12 PU ltac:(lia) L1). cbv zeta in A. set (a := f64_of_ratio (s * U + b) U) in *. clearbody a.
  rewrite W12 in A.
  assert (A1 : a <= s * U + b + 4096 * W).
  { destruct A as [A _]. apply (N.mul_le_mono_pos_r _ _ U); [exact PU|]. rewrite (N.mul_comm U (4096 * W)), <- N.mul_add_distr_r in A. exact A. }
  assert (A2 : s * U + b <= a + 4096 * W).
  { destruct A as [_ A]. apply (N.mul_le_mono_pos_r _ _ U); [exact PU|]. rewrite (N.mul_comm U (4096 * W)), <- N.mul_add_distr_r in A. exact A. }
  clear A. unfold f64_mul. fold U.
  assert (PUU : 0 < U * U) by (apply N.mul_pos_pos; exact PU).
  assert (L2 : a * (1000 * U) < U * U * 2 ^ 22).
  { change (2 ^ 22) with 4194304. replace (U * U * 4194304) with ((4194304 * U) * U) by lia. replace (a * (1000 * U)) with ((1000 * a) * U) by lia.
    apply N.mul_lt_mono_pos_r; [exact PU|]. lia. }
  assert (M := ratio_err (a * (1000 * U)) (U * U) 22 PUU ltac:(lia) L2). cbv zeta in M. set (v := f64_of_ratio (a * (1000 * U)) (U * U)) in *. clearbody v.
  rewrite W22 in M. replace (a * (1000 * U) * U) with (1000 * a * (U * U)) in M by lia. rewrite (N.mul_comm (U * U) (4194304 * W)), <- !N.mul_add_distr_r in M.
  destruct M as [M1 M2]. apply (N.mul_le_mono_pos_r _ _ (U * U)) in M1; [|exact PUU]. apply (N.mul_le_mono_pos_r _ _ (U * U)) in M2; [|exact PUU].
  change (2 ^ 64) with 18446744073709551616. split; [lia|].
  assert (T : nanos_of v = 1000 * (s * 1000000000 + n)).
  { apply R.
    - replace (1000 * (s * 1000000000 + n) * U) with (1000000000000 * (s * U) + 1000 * (n * U)) by lia. lia.
    - replace (1000 * (s * 1000000000 + n) * U) with (1000000000000 * (s * U) + 1000 * (n * U)) by lia. lia. }
  rewrite T, N.mul_comm, N.div_mul by discriminate. unfold of_nanos. rewrite N.add_comm, N.mod_add, N.div_add by discriminate.
  rewrite N.div_small, N.mod_small by exact Hn. reflexivity.
Qed.
Print Assumptions C66_short_durations.

(** With the cutting conversion of older standard libraries they need not: reading, writing and reading again loses a
    nanosecond each time. *)
Theorem C66_drift_refuted : exists d, of_nanos (cut_nanos (as_millis d) / 1000) = Dur 0 1000998 /\
  of_nanos (cut_nanos (as_millis (Dur 0 1000998)) / 1000) <> d /\ d = Dur 0 1000999.
Proof. exists (Dur 0 1000999). split; [vm_compute; reflexivity|]. split; [vm_compute; discriminate|reflexivity]. Qed.
Print Assumptions C66_drift_refuted.
Example C66_short_example : of_nanos (round_nanos (as_millis (Dur 0 1000999)) / 1000) = Dur 0 1000999.
Proof. exact (proj2 (C66_short_durations round_nanos round_nanos_ok 0 1000999 eq_refl eq_refl)). Qed.
