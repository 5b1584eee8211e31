(** C66: Server-Timing. *)
From Verif Require Import Base BaseFacts Headers HeadersFacts Typed TypedFacts Float FloatFacts Cache Timing.
From Coq Require Import ZifyBool ZifyNat ZifyN.

(** ** Exact f64 results *)
Lemma rhe_multiple : forall a b q, 0 < b -> a = b * q -> rhe a b = q.
Proof. intros a b q B ->. rewrite N.mul_comm. now apply rhe_exact. Qed.
(** A whole number with at most 53 significant bits is not rounded. *)
Lemma round_exact : forall m k p q, 0 < q -> m < 2 ^ 53 -> k <= 900 -> p = m * 2 ^ k * q ->
  f64_of_ratio p q = m * 2 ^ k * one f64_format.
Proof.
  intros m k p q Q M K ->. unfold f64_of_ratio, round_ratio, one. change (unit f64_format) with 1074.
  change (prec f64_format - 1) with 52. change (emax f64_format) with 1024.
  set (x := m * 2 ^ k * 2 ^ 1074).
  assert (P : forall e, 0 < 2 ^ e) by (intros e; apply N.neq_0_lt_0, N.pow_nonzero; discriminate).
  assert (E : m * 2 ^ k * q * 2 ^ 1074 = q * x) by (unfold x; lia).
  rewrite E. assert (D : q * x / q = x) by (rewrite N.mul_comm, N.div_mul by lia; reflexivity). rewrite D.
  set (e := N.log2 x - 52).
  assert (B : x < 2 ^ (1024 + 1074)).
  { unfold x. rewrite <- N.mul_assoc, <- N.pow_add_r. apply N.lt_le_trans with (2 ^ 53 * 2 ^ (k + 1074)).
    - apply N.mul_lt_mono_pos_r; [apply P|exact M].
    - rewrite <- N.pow_add_r. apply N.pow_le_mono_r; lia. }
  assert (G : exists c, x = 2 ^ e * c).
  { destruct (N.eq_dec m 0) as [->|M0].
    - exists 0. unfold x. lia.
    - assert (L : e <= k + 1074).
      { unfold e. assert (N.log2 x < 53 + (k + 1074)); [|lia]. apply N.log2_lt_pow2.
        - unfold x. apply N.mul_pos_pos; [apply N.mul_pos_pos; [lia|apply P]|apply P].
        - unfold x. rewrite <- N.mul_assoc, <- N.pow_add_r, (N.pow_add_r 2 53). apply N.mul_lt_mono_pos_r; [apply P|exact M]. }
      exists (m * 2 ^ (k + 1074 - e)). unfold x. rewrite <- N.mul_assoc, <- N.pow_add_r.
      replace (k + 1074) with (e + (k + 1074 - e)) at 1 by lia. rewrite N.pow_add_r. lia. }
  destruct G as (c & G). rewrite (rhe_multiple (q * x) (q * 2 ^ e) c).
  - rewrite <- G. destruct (x <? 2 ^ (1024 + 1074)) eqn:Z; [reflexivity|]. apply N.ltb_ge in Z. exfalso. apply (N.lt_irrefl x). eapply N.lt_le_trans; eassumption.
  - apply N.mul_pos_pos; [exact Q|apply P].
  - rewrite G. lia.
Qed.
Lemma millis_exact : forall m k, m * 1000 < 2 ^ 53 -> k <= 800 -> as_millis (from_secs (m * 2 ^ k)) = m * 1000 * 2 ^ k * one f64_format.
Proof.
  intros m k M K. assert (P : 0 < one f64_format) by (unfold one; apply pow2_pos).
  unfold as_millis, as_secs_f64. cbn [from_secs secs nanos].
  rewrite (round_exact m k (m * 2 ^ k) 1) by lia. rewrite (round_exact 0 0 0 1000000000) by (try lia; reflexivity).
  rewrite (round_exact 1000 0 1000 1) by (try lia; reflexivity).
  unfold f64_add. rewrite (round_exact m k _ (one f64_format)); [|exact P|lia|lia|lia].
  unfold f64_mul. rewrite (round_exact (m * 1000) k _ (one f64_format * one f64_format)); [reflexivity|apply N.mul_pos_pos; exact P|exact M|lia|].
  change (2 ^ 0) with 1. lia.
Qed.

Section Timing.
  Context (show_f64 : N -> str) (nanos_of : N -> N).
  (** What std promises: a finite non-negative f64 is printed with digits and a point (never an exponent) so that it is
      read back exactly; and a whole number of nanoseconds is converted exactly. *)
  Definition show_contract : Prop := forall d, let s := show_f64 (as_millis d) in
    s <> [] /\ forallb (fun c => is_digit c || (c =? 46)) s = true /\ parse_float f64_format s = Some (Fin false (as_millis d)).
  Definition nanos_contract : Prop := forall v t, v * 1000000000 = t * one f64_format -> nanos_of v = t.

  (** A metric that can be written: no separators in the name, none in the description (quoting does not help). *)
  Definition writable (m : metric) : Prop :=
    no_char 44 (m_name m) = true /\ no_char 59 (m_name m) = true /\ no_edge is_ws (m_name m) = true /\
    (forall t, m_desc m = Some t -> no_char 44 t = true /\ no_char 59 t = true /\ no_char 61 t = true) /\
    (forall d, m_dur m = Some d -> as_millis d < 2 ^ 64 * one f64_format).
  (** What comes back. *)
  Definition read_back (m : metric) : metric :=
    Metric (m_name m) (match m_dur m with Some d => Some (of_nanos (nanos_of (as_millis d) / 1000)) | None => None end) (m_desc m).

  Lemma shown_chars : show_contract -> forall d, let s := show_f64 (as_millis d) in
    no_char 44 s = true /\ no_char 59 s = true /\ no_char 61 s = true /\ trim_start s = s /\
    match rev s with [] => False | c :: _ => is_ws c = false end /\ exists c r, s = c :: r /\ is_ws c = false.
  Proof.
    intros C d s. destruct (C d) as (N & F & _). fold s in N, F.
    assert (W : forall c, is_digit c || (c =? 46) = true -> is_ws c = false).
    { intros c H. apply orb_true_iff in H as [H|H]; [now apply digit_not_ws|]. apply N.eqb_eq in H. subst c. reflexivity. }
    split; [exact (no_char_forallb 44 _ s eq_refl F)|]. split; [exact (no_char_forallb 59 _ s eq_refl F)|]. split; [exact (no_char_forallb 61 _ s eq_refl F)|].
    destruct s as [|c r] eqn:S; [congruence|]. cbn [forallb] in F. apply andb_true_iff in F as [F1 F2]. split; [|split].
    - unfold trim_start, trim_start_matches. apply drop_while_none. now rewrite (W c F1).
    - rewrite <- S in *. destruct (rev s) as [|x xs] eqn:R; [rewrite <- (rev_involutive s), R in S; discriminate|].
      assert (I : In x s) by (apply in_rev; rewrite R; left; reflexivity). apply W.
      destruct (C d) as (_ & F & _). fold s in F. rewrite S in F. rewrite forallb_forall in F. rewrite <- S in F. now apply F.
    - exists c, r. split; [reflexivity|]. now apply W.
  Qed.

  Lemma trim_end_name : forall s, no_edge is_ws s = true -> trim_end_matches is_ws s = s.
  Proof. intros s H. unfold no_edge in H. apply trim_end_matches_id. destruct s; [reflexivity|]. now apply andb_true_iff in H as [_ H]. Qed.

  Lemma param_dur : show_contract -> forall d st, as_millis d < 2 ^ 64 * one f64_format ->
    parse_param nanos_of st (32 :: lit "dur=" ++ show_f64 (as_millis d)) = Ok (Some (of_nanos (nanos_of (as_millis d) / 1000)), snd st).
  Proof.
    intros C d st L. destruct (shown_chars C d) as (_ & _ & E & T & _). destruct (C d) as (_ & _ & P). cbv zeta in P.
    unfold parse_param. change (trim_start (32 :: lit "dur=" ++ show_f64 (as_millis d))) with (lit "dur" ++ 61 :: show_f64 (as_millis d)).
    change c_eq with 61. rewrite split_app by reflexivity. rewrite (split_no_char 61) by exact E. rewrite T.
    change (seqb (trim_end_matches is_ws (lit "dur")) (lit "dur")) with true. cbv iota. rewrite P. cbn [ok_or bind]. unfold duration_of. cbn [andb].
    destruct (2 ^ 64 * one f64_format <=? as_millis d) eqn:X; [|reflexivity]. apply N.leb_le in X. exfalso. apply (N.lt_irrefl (as_millis d)). eapply N.lt_le_trans; eassumption.
  Qed.
  Lemma param_desc : forall t st, no_char 61 t = true ->
    parse_param nanos_of st (32 :: lit "desc=""" ++ t ++ lit """") = Ok (fst st, Some t).
  Proof.
    intros t st E. unfold parse_param. change (trim_start (32 :: lit "desc=""" ++ t ++ lit """")) with (lit "desc" ++ 61 :: (lit """" ++ t ++ lit """")).
    change c_eq with 61. rewrite split_app by reflexivity. rewrite (split_no_char 61).
    - change (trim_start (lit """" ++ t ++ lit """")) with (lit """" ++ t ++ lit """").
      change (seqb (trim_end_matches is_ws (lit "desc")) (lit "dur")) with false. change (seqb (trim_end_matches is_ws (lit "desc")) (lit "desc")) with true. cbv iota.
      unfold parse_desc. rewrite strip_prefix_app, strip_suffix_app. reflexivity.
    - rewrite !no_char_app, E. reflexivity.
  Qed.
  Lemma no_edge_app : forall a b, no_edge is_ws a = true -> b <> [] -> (match a with [] => match b with c :: _ => is_ws c = false | [] => True end | _ => True end) ->
    match rev b with [] => False | c :: _ => is_ws c = false end -> no_edge is_ws (a ++ b) = true.
  Proof.
    intros a b A B H R. unfold no_edge in *. rewrite rev_app_distr. destruct (rev b) as [|c r]; [destruct R|]. cbn [app]. rewrite R.
    destruct a as [|x a]; [destruct b; [congruence|]; cbn [app]; now rewrite H|]. cbn [app] in *. apply andb_true_iff in A as [A _]. now rewrite A.
  Qed.
  Lemma entry_clean : show_contract -> forall m, no_char 44 (m_name m) = true -> no_edge is_ws (m_name m) = true ->
    (forall t, m_desc m = Some t -> no_char 44 t = true) -> clean (metric_value show_f64 m) = true.
  Proof.
    intros C [n d t] N44 NE T. cbn [m_name m_desc m_dur] in *.
    unfold clean, metric_value. cbn [m_name m_desc m_dur]. apply andb_true_iff.
    destruct d as [d|], t as [t|].
    - assert (A := T t eq_refl). destruct (shown_chars C d) as (B & _). cbv zeta in B. split; [rewrite !no_char_app, N44, A, B; reflexivity|].
      apply no_edge_app; [exact NE|discriminate|destruct n; reflexivity|]. rewrite !rev_app_distr. reflexivity.
    - destruct (shown_chars C d) as (B & _ & _ & _ & R & _). cbv zeta in B. split; [rewrite !no_char_app, N44, B; reflexivity|].
      apply no_edge_app; [exact NE|discriminate|destruct n; reflexivity|]. rewrite rev_app_distr. destruct (rev (show_f64 (as_millis d))); [destruct R|exact R].
    - assert (A := T t eq_refl). split; [rewrite !no_char_app, N44, A; reflexivity|].
      apply no_edge_app; [exact NE|discriminate|destruct n; reflexivity|]. rewrite !rev_app_distr. reflexivity.
    - rewrite app_nil_r. split; assumption.
  Qed.
  Lemma entry_text : show_contract -> forall m, writable m ->
    clean (metric_value show_f64 m) = true /\ parse_entry nanos_of (metric_value show_f64 m) = Ok (read_back m).
  Proof.
    intros C [n d t] (N44 & N59 & NE & T & D). cbn [m_name m_desc m_dur] in *.
    assert (K : clean (metric_value show_f64 (Metric n d t)) = true).
    { apply entry_clean; [exact C|exact N44|exact NE|]. intros x E. now apply T. }
    split; [exact K|]. unfold parse_entry. apply andb_true_iff in K as [_ K]. rewrite trim_id by exact K. unfold metric_value, read_back.
    cbn [m_name m_desc m_dur]. change c_semi with 59. destruct d as [d|], t as [t|].
    - destruct (T t eq_refl) as (_ & A & A'). destruct (shown_chars C d) as (_ & B & _). cbv zeta in B.
      change (lit "; dur=" ++ show_f64 (as_millis d) ++ lit "; desc=""" ++ t ++ lit """") with (59 :: (32 :: lit "dur=" ++ show_f64 (as_millis d) ++ 59 :: (32 :: lit "desc=""" ++ t ++ lit """"))).
      rewrite split_app by exact N59.
      change (32 :: lit "dur=" ++ show_f64 (as_millis d) ++ 59 :: (32 :: lit "desc=""" ++ t ++ lit """")) with ((32 :: lit "dur=") ++ show_f64 (as_millis d) ++ 59 :: (32 :: lit "desc=""" ++ t ++ lit """")).
      rewrite app_assoc. rewrite split_app by (rewrite no_char_app, B; reflexivity).
      rewrite (split_no_char 59) by (change (32 :: lit "desc=""" ++ t ++ lit """") with ((32 :: lit "desc=""") ++ t ++ lit """"); rewrite !no_char_app, A; reflexivity).
      cbn [parse_params]. change ((32 :: lit "dur=") ++ show_f64 (as_millis d)) with (32 :: lit "dur=" ++ show_f64 (as_millis d)).
      rewrite param_dur by (try exact C; now apply D). cbn [bind]. rewrite param_desc by exact A'. cbn [bind fst snd]. now rewrite trim_end_name.
    - destruct (shown_chars C d) as (_ & B & _). cbv zeta in B.
      change (lit "; dur=" ++ show_f64 (as_millis d)) with (59 :: (32 :: lit "dur=" ++ show_f64 (as_millis d))).
      rewrite split_app by exact N59.
      rewrite (split_no_char 59) by (change (32 :: lit "dur=" ++ show_f64 (as_millis d)) with ((32 :: lit "dur=") ++ show_f64 (as_millis d)); rewrite !no_char_app, B; reflexivity).
      cbn [parse_params]. rewrite param_dur by (try exact C; now apply D). cbn [bind fst snd]. now rewrite trim_end_name.
    - destruct (T t eq_refl) as (_ & A & A').
      change (lit "; desc=""" ++ t ++ lit """") with (59 :: (32 :: lit "desc=""" ++ t ++ lit """")).
      rewrite split_app by exact N59.
      rewrite (split_no_char 59) by (change (32 :: lit "desc=""" ++ t ++ lit """") with ((32 :: lit "desc=""") ++ t ++ lit """"); rewrite !no_char_app, A; reflexivity).
      cbn [parse_params]. rewrite param_desc by exact A'. cbn [bind fst snd]. now rewrite trim_end_name.
    - rewrite app_nil_r. rewrite (split_no_char 59) by exact N59. cbn [parse_params bind fst snd]. now rewrite trim_end_name.
  Qed.
  Lemma parse_entries_ext : forall ps qs, map trim ps = map trim qs -> parse_entries nanos_of ps = parse_entries nanos_of qs.
  Proof.
    induction ps as [|p ps IH]; intros [|q qs] E; try discriminate; [reflexivity|]. cbn [map parse_entries] in *. injection E as E1 E2.
    unfold parse_entry. rewrite E1, (IH _ E2). reflexivity.
  Qed.
  (** Names and descriptions come back, in order, and durations up to the conversion. *)
  Theorem C66_round_trip_partial : show_contract -> forall h ms, ms <> [] -> Forall writable ms ->
    timing_from_headers nanos_of (timing_apply show_f64 h ms) = Ok (Some (map read_back ms)).
  Proof.
    intros C h ms N F. unfold timing_from_headers, timing_apply. rewrite with_all_apply. unfold comma_parts. cbn [flat_map]. rewrite app_nil_r.
    assert (CL : forallb clean (map (metric_value show_f64) ms) = true).
    { rewrite forallb_forall. intros s I. apply in_map_iff in I as (m & <- & I). rewrite Forall_forall in F. now apply entry_text, F. }
    rewrite (parse_entries_ext _ (map (metric_value show_f64) ms)).
    - assert (X : parse_entries nanos_of (map (metric_value show_f64) ms) = Ok (map read_back ms)).
      { clear N CL. induction ms as [|m ms IH]; [reflexivity|]. inversion F as [|? ? W F']; subst. cbn [map parse_entries].
        destruct (entry_text C m W) as [_ ->]. cbn [with_status bind]. rewrite (IH F'). reflexivity. }
      rewrite X. reflexivity.
    - change c_comma with 44. unfold timing_value. rewrite pieces_text; [|destruct ms; [congruence|discriminate]|exact CL].
      transitivity (map (fun s : str => s) (map (metric_value show_f64) ms)); [now rewrite map_id|]. apply map_ext_in. intros s I.
      rewrite forallb_forall in CL. apply CL in I. apply andb_true_iff in I as [_ I]. symmetry. now apply trim_id.
  Qed.
  (** Durations of whole seconds (up to 2^53 milliseconds) come back exactly. *)
  Theorem C66_whole_seconds : nanos_contract -> forall n, n * 1000 < 2 ^ 53 ->
    as_millis (from_secs n) < 2 ^ 64 * one f64_format /\ of_nanos (nanos_of (as_millis (from_secs n)) / 1000) = from_secs n.
  Proof using nanos_of.
    clear show_f64. intros C n L. assert (E := millis_exact n 0 L ltac:(lia)). change (2 ^ 0) with 1 in E. rewrite !N.mul_1_r in E. rewrite E.
    split.
    - apply N.mul_lt_mono_pos_r; [apply pow2_pos|]. eapply N.lt_trans; [exact L|]. reflexivity.
    - rewrite (C _ (n * 1000 * 1000000000)) by lia.
      replace (n * 1000 * 1000000000 / 1000) with (n * 1000000000) by (replace (n * 1000 * 1000000000) with (n * 1000000000 * 1000) by lia; rewrite N.div_mul; [reflexivity|discriminate]).
      unfold of_nanos. rewrite N.div_mul, N.mod_mul by lia. reflexivity.
  Qed.

  (** Floats for which [Duration::from_secs_f64] panics. *)
  Definition panics_as_duration (x : float) : Prop :=
    match x with Fin neg v => (neg = true /\ v <> 0) \/ 2 ^ 64 * one f64_format <= v | _ => True end.
  Lemma duration_of_panic : forall x, duration_of nanos_of x = Panic <-> panics_as_duration x.
  Proof.
    intros [n|n|n v]; cbn [duration_of panics_as_duration]; [tauto|tauto|]. destruct (2 ^ 64 * one f64_format <=? v) eqn:L.
    - apply N.leb_le in L. split; [auto|]. intros _. destruct (n && negb (v =? 0)); reflexivity.
    - apply N.leb_gt in L. destruct n; cbn [andb].
      + destruct (N.eqb_spec v 0) as [->|V]; cbn [negb]; [|tauto]. split; [discriminate|]. intros [[_ X]|X]; [congruence|]. exfalso. apply (N.lt_irrefl 0). eapply N.lt_le_trans; [exact L|exact X].
      + split; [discriminate|]. intros [[X _]|X]; [discriminate|]. exfalso. apply (N.lt_irrefl v). eapply N.lt_le_trans; [exact L|exact X].
  Qed.
  Lemma duration_of_cases : forall x, (exists d, duration_of nanos_of x = Ok d) \/ duration_of nanos_of x = Panic.
  Proof. intros [n|n|n v]; cbn [duration_of]; auto. destruct (n && negb (v =? 0)); auto. destruct (_ <=? _); eauto. Qed.
  Lemma param_cases : forall st p, (exists st', parse_param nanos_of st p = Ok st') \/ parse_param nanos_of st p = Err 500 \/
    (parse_param nanos_of st p = Panic /\ exists k v rest x, split 61 (trim_start p) = k :: v :: rest /\
       trim_end_matches is_ws k = lit "dur" /\ parse_float f64_format (trim_start v) = Some x /\ panics_as_duration x).
  Proof.
    intros st p. unfold parse_param. destruct p as [|c p]; [auto|]. change c_eq with 61.
    destruct (split 61 (trim_start (c :: p))) as [|k [|v rest]]; [auto|auto|].
    destruct (seqb_spec (trim_end_matches is_ws k) (lit "dur")) as [E|_].
    - destruct (parse_float f64_format (trim_start v)) as [x|] eqn:X; cbn [ok_or bind]; [|auto].
      destruct (duration_of_cases x) as [(d & E2)|E2]; rewrite E2; cbn [bind]; [left; eauto|]. right. right. split; [reflexivity|].
      apply duration_of_panic in E2. exists k, v, rest, x. auto.
    - destruct (seqb _ _); [|left; eauto]. unfold parse_desc. destruct (strip_prefix _ _) as [r|].
      + destruct (strip_suffix _ r); cbn [bind]; [left; eauto|auto].
      + destruct (strip_suffix _ _); cbn [bind]; [auto|left; eauto].
  Qed.
  (** Reading gives metrics or a 400 error, or panics; and it panics only over a duration that is not a number, infinite,
      negative or too long. *)
  Theorem C66_total_partial : forall h,
    (exists ms, timing_from_headers nanos_of h = Ok ms) \/ timing_from_headers nanos_of h = Err 400 \/
    (timing_from_headers nanos_of h = Panic /\
     exists vs p q k v rest x, h_get h SERVER_TIMING = Some vs /\ In p (comma_parts vs) /\ In q (split 59 (trim p)) /\
       split 61 (trim_start q) = k :: v :: rest /\ trim_end_matches is_ws k = lit "dur" /\
       parse_float f64_format (trim_start v) = Some x /\ panics_as_duration x).
  Proof.
    intros h. unfold timing_from_headers, with_all. destruct (h_get h SERVER_TIMING) as [vs|]; [|left; eauto].
    assert (PP : forall ps st, (exists st', parse_params nanos_of ps st = Ok st') \/ parse_params nanos_of ps st = Err 500 \/
      (parse_params nanos_of ps st = Panic /\ exists q k v rest x, In q ps /\ split 61 (trim_start q) = k :: v :: rest /\ trim_end_matches is_ws k = lit "dur" /\
       parse_float f64_format (trim_start v) = Some x /\ panics_as_duration x)).
    { induction ps as [|p ps IH]; intros st; cbn [parse_params]; [left; eauto|].
      destruct (param_cases st p) as [(st' & ->)|[->|(-> & k & v & rest & x & H)]]; cbn [bind].
      - destruct (IH st') as [X|[X|(X & q & k & v & rest & x & I & H)]]; [auto|auto|]. right. right. split; [exact X|]. exists q, k, v, rest, x. split; [now right|exact H].
      - auto.
      - right. right. split; [reflexivity|]. exists p, k, v, rest, x. split; [now left|exact H]. }
    assert (EN : forall ps, (exists ms, parse_entries nanos_of ps = Ok ms) \/ parse_entries nanos_of ps = Err 400 \/
      (parse_entries nanos_of ps = Panic /\ exists p q k v rest x, In p ps /\ In q (split 59 (trim p)) /\ split 61 (trim_start q) = k :: v :: rest /\ trim_end_matches is_ws k = lit "dur" /\
       parse_float f64_format (trim_start v) = Some x /\ panics_as_duration x)).
    { induction ps as [|p ps IH]; cbn [parse_entries]; [left; eauto|]. unfold parse_entry. change c_semi with 59.
      destruct (split 59 (trim p)) as [|n parts] eqn:S; [cbn [with_status bind]; auto|].
      destruct (PP parts (None, None)) as [(st' & ->)|[->|(-> & q & k & v & rest & x & I & H)]]; cbn [bind with_status].
      - destruct IH as [(ms & ->)|[->|(-> & p' & q & k & v & rest & x & I & H)]]; cbn [bind]; [left; eauto|auto|].
        right. right. split; [reflexivity|]. exists p', q, k, v, rest, x. split; [now right|exact H].
      - auto.
      - right. right. split; [reflexivity|]. exists p, q, k, v, rest, x. split; [now left|]. rewrite S. split; [now right|exact H]. }
    destruct (EN (comma_parts vs)) as [(ms & ->)|[->|(-> & p & q & k & v & rest & x & H)]]; cbn [bind]; [left; eauto|auto|].
    right. right. split; [reflexivity|]. exists vs, p, q, k, v, rest, x. split; [reflexivity|exact H].
  Qed.
  (** False of the code: a duration of 2^60 seconds, made through the API, is written but cannot be read: it panics. *)
  Theorem C66_long_duration_refuted : show_contract -> exists m, metric_new (lit "a") (Some (from_secs (2 ^ 60))) None = Ok m /\
    forall h, timing_from_headers nanos_of (timing_apply show_f64 h [m]) = Panic.
  Proof.
    intros C. eexists. split; [reflexivity|]. intros h. unfold timing_from_headers, timing_apply. rewrite with_all_apply.
    set (d := from_secs (2 ^ 60)). destruct (shown_chars C d) as (B & B2 & E & T & R & _). destruct (C d) as (_ & _ & P). cbv zeta in P, B, B2, E, T, R.
    unfold comma_parts. cbn [flat_map]. rewrite app_nil_r. unfold timing_value. cbn [map join].
    assert (V : metric_value show_f64 (Metric (lit "a") (Some d) None) = lit "a" ++ lit "; dur=" ++ show_f64 (as_millis d)) by reflexivity.
    assert (NE : no_edge is_ws (lit "a" ++ lit "; dur=" ++ show_f64 (as_millis d)) = true).
    { apply no_edge_app; [reflexivity|discriminate|exact I|]. rewrite rev_app_distr. destruct (rev (show_f64 (as_millis d))); [destruct R|exact R]. }
    rewrite V. rewrite trim_id by exact NE. change c_comma with 44. rewrite split_no_char by (rewrite !no_char_app, B; reflexivity).
    cbn [parse_entries]. unfold parse_entry. rewrite trim_id by exact NE. change c_semi with 59.
    change (lit "a" ++ lit "; dur=" ++ show_f64 (as_millis d)) with (lit "a" ++ 59 :: ((32 :: lit "dur=") ++ show_f64 (as_millis d))).
    rewrite split_app by reflexivity. rewrite (split_no_char 59) by (rewrite no_char_app, B2; reflexivity). cbn [parse_params].
    unfold parse_param. change (trim_start ((32 :: lit "dur=") ++ show_f64 (as_millis d))) with (lit "dur" ++ 61 :: show_f64 (as_millis d)).
    cbn [app]. change c_eq with 61. rewrite split_app by reflexivity. rewrite (split_no_char 61) by exact E. rewrite T.
    change (seqb (trim_end_matches is_ws (lit "dur")) (lit "dur")) with true. cbv iota. rewrite P. cbn [ok_or bind].
    assert (X : duration_of nanos_of (Fin false (as_millis d)) = Panic).
    { apply duration_of_panic. right. unfold d. assert (Y := millis_exact 1 60 ltac:(reflexivity) ltac:(lia)). rewrite !N.mul_1_l in Y. rewrite Y.
      apply N.mul_le_mono_r. vm_compute. discriminate. }
    rewrite X. reflexivity.
  Qed.
End Timing.
Print Assumptions C66_round_trip_partial.
Print Assumptions C66_whole_seconds.
Print Assumptions C66_total_partial.
Print Assumptions C66_long_duration_refuted.

(** ** The contracts can be met: print the exact decimal expansion, cut the nanoseconds. *)
Fixpoint last_digits (k : nat) (n : N) : str :=
  match k with O => [] | S k => last_digits k (n / 10) ++ [48 + n mod 10] end.
Definition exact_show (v : N) : str :=
  let t := v * 5 ^ 1074 in show_dec (t / 10 ^ 1074) ++ 46 :: last_digits 1074 t.
Definition cut_nanos (v : N) : N := v * 1000000000 / one f64_format.

Lemma cut_nanos_ok : nanos_contract cut_nanos.
Proof. intros v t E. unfold cut_nanos. rewrite E. apply N.div_mul. unfold one. apply N.pow_nonzero. discriminate. Qed.

Lemma round_grid : forall p q, 0 < q -> let v := f64_of_ratio p q in exists c, v = 2 ^ (N.log2 v - 52) * c.
Proof.
  intros p q Q. unfold f64_of_ratio, round_ratio. change (prec f64_format - 1) with 52.
  set (n := p * 2 ^ unit f64_format). set (e := N.log2 (n / q) - 52). set (r := rhe n (q * 2 ^ e)).
  destruct (2 ^ e * r <? 2 ^ (emax f64_format + unit f64_format)) eqn:B; cbn [finite]; [|exists 0; reflexivity].
  assert (P := pow2_pos). cbv zeta.
  assert (R : r <= 2 ^ 53).
  { unfold r. apply rhe_le; [apply N.mul_pos_pos; [exact Q|apply P]|].
    assert (D : n < q * N.succ (n / q)) by (apply N.mul_succ_div_gt; lia).
    assert (L : N.succ (n / q) <= 2 ^ (53 + e)).
    { destruct (N.eq_dec (n / q) 0) as [Z|Z].
      - rewrite Z. change (N.succ 0) with 1. assert (0 < 2 ^ (53 + e)) by apply P. lia.
      - apply N.le_succ_l. apply N.lt_le_trans with (2 ^ N.succ (N.log2 (n / q))); [apply N.log2_spec; apply N.neq_0_lt_0; exact Z|]. apply N.pow_le_mono_r; [discriminate|]. unfold e. clear. lia. }
    rewrite N.pow_add_r in L. assert (q * N.succ (n / q) <= q * (2 ^ 53 * 2 ^ e)) by (apply N.mul_le_mono_l; exact L). lia. }
  destruct (N.eq_dec r (2 ^ 53)) as [->|R'].
  - exists (2 ^ 52). rewrite <- N.pow_add_r, N.log2_pow2 by lia. rewrite <- N.pow_add_r. f_equal. lia.
  - destruct (N.eq_dec r 0) as [->|R0]; [exists 0; lia|].
    assert (L : N.log2 (2 ^ e * r) - 52 <= e).
    { assert (N.log2 (2 ^ e * r) < e + 53); [|lia]. apply N.log2_lt_pow2.
      - apply N.mul_pos_pos; [apply P|lia].
      - rewrite N.pow_add_r. apply N.mul_lt_mono_pos_l; [apply P|lia]. }
    exists (2 ^ (e - (N.log2 (2 ^ e * r) - 52)) * r). rewrite N.mul_assoc, <- N.pow_add_r. f_equal. f_equal. lia.
Qed.

Lemma dec_val_snoc_app : forall a b, forallb is_digit b = true -> dec_val (a ++ b) = dec_val a * 10 ^ N.of_nat (length b) + dec_val b.
Proof.
  intros a b. unfold dec_val. rewrite fold_left_app. generalize (fold_left (fun a c => a * 10 + (c - 48)) a 0). 
  assert (G : forall b x, fold_left (fun a c => a * 10 + (c - 48)) b x = x * 10 ^ N.of_nat (length b) + fold_left (fun a c => a * 10 + (c - 48)) b 0).
  { clear. induction b as [|c b IH]; intros x; [cbn; lia|]. cbn [fold_left length]. rewrite (IH (x * 10 + (c - 48))), (IH (0 * 10 + (c - 48))).
    rewrite Nat2N.inj_succ, N.pow_succ_r'. lia. }
  intros x _. apply G.
Qed.

Lemma last_digits_spec : forall k n,
  length (last_digits k n) = k /\ forallb is_digit (last_digits k n) = true /\ dec_val (last_digits k n) = n mod 10 ^ N.of_nat k.
Proof.
  induction k as [|k IH]; intros n; [rewrite N.mod_1_r; repeat split|].
  cbn [last_digits]. destruct (IH (n / 10)) as (L & D & V).
  assert (M : n mod 10 < 10) by (apply N.mod_lt; discriminate).
  assert (D1 : forallb is_digit [48 + n mod 10] = true) by (cbn [forallb]; unfold is_digit; lia).
  split; [rewrite app_length, L; cbn [length]; lia|]. split; [rewrite forallb_app, D, D1; reflexivity|].
  rewrite dec_val_snoc_app by exact D1. rewrite V. unfold dec_val. cbn [fold_left length]. change (10 ^ N.of_nat 1) with 10.
  rewrite Nat2N.inj_succ, N.pow_succ_r', (N.mod_mul_r n 10 (10 ^ N.of_nat k)) by (try apply N.pow_nonzero; discriminate). lia.
Qed.
Lemma dec_val_show : forall n, dec_val (show_dec n) = n.
Proof.
  intros n. destruct (proj1 (parse_dec_spec n (show_dec n) n) (parse_show_dec n n ltac:(lia))) as ((ds & [E|E] & _ & _ & V) & _).
  - rewrite E. symmetry. exact V.
  - assert (X := show_dec_digits n). rewrite E in X. discriminate X.
Qed.
Lemma digit_run_app : forall a c r, forallb is_digit a = true -> is_digit c = false -> digit_run (a ++ c :: r) = (a, c :: r).
Proof.
  induction a as [|x a IH]; intros c r H C; [apply digit_run_stop; exact C|]. cbn [forallb] in H. apply andb_true_iff in H as [Hx H].
  cbn [app]. rewrite digit_run_cons by exact Hx. rewrite IH by assumption. reflexivity.
Qed.
Lemma parse_point : forall f a b, forallb is_digit a = true -> a <> [] -> forallb is_digit b = true -> b <> [] ->
  parse_float f (a ++ 46 :: b) = Some (round_ratio f false (dec_val (a ++ b)) (10 ^ N.of_nat (length b))).
Proof.
  intros f a b A An B Bn. unfold parse_float.
  assert (E : take_sign (a ++ 46 :: b) = (false, a ++ 46 :: b)).
  { destruct a as [|c a]; [congruence|]. cbn [forallb] in A. apply andb_true_iff in A as [A _]. unfold take_sign, is_digit in *. cbn [app].
    replace (c =? 45) with false by lia. replace (c =? 43) with false by lia. reflexivity. }
  rewrite E. unfold parse_number. rewrite digit_run_app by (try reflexivity; exact A). change (46 =? 46) with true. cbv iota.
  rewrite digit_run_all by exact B. cbn [parse_exp].
  assert (L : (0 < length b)%nat) by (destruct b; [congruence|cbn [length]; lia]).
  destruct (a ++ b) as [|c r] eqn:AB; [apply app_eq_nil in AB; destruct AB; congruence|].
  destruct (0 <=? 0 - Z.of_nat (length b))%Z eqn:Bz; [lia|]. replace (Z.to_N (- (0 - Z.of_nat (length b)))) with (N.of_nat (length b)) by lia.
  reflexivity.
Qed.

Lemma exact_show_parse : forall v, (exists c, v = 2 ^ (N.log2 v - 52) * c) -> v < 2 ^ (emax f64_format + unit f64_format) ->
  parse_float f64_format (exact_show v) = Some (Fin false v).
Proof.
  intros v [c G] L. unfold exact_show. set (t := v * 5 ^ 1074). destruct (last_digits_spec 1074 t) as (Ll & Ld & Lv).
  assert (Ln : last_digits 1074 t <> []) by (intros E; rewrite E in Ll; discriminate Ll).
  rewrite (parse_point f64_format _ _ (show_dec_digits _) (show_dec_nonempty _) Ld Ln).
  rewrite dec_val_snoc_app by exact Ld. rewrite Ll, Lv, dec_val_show.
  change (N.of_nat 1074) with 1074. rewrite (N.mul_comm (t / 10 ^ 1074)). rewrite <- N.div_mod by (apply N.pow_nonzero; discriminate).
  f_equal. unfold round_ratio. change (prec f64_format - 1) with 52. change (unit f64_format) with 1074.
  assert (P10 : 0 < 10 ^ 1074) by (apply N.neq_0_lt_0, N.pow_nonzero; discriminate).
  replace (t * 2 ^ 1074) with (v * 10 ^ 1074).
  2:{ unfold t. rewrite <- N.mul_assoc, <- N.pow_mul_l. reflexivity. }
  rewrite N.div_mul by (apply N.neq_0_lt_0; exact P10). set (g := 2 ^ (N.log2 v - 52)) in *.
  assert (Gp : 0 < g) by apply pow2_pos.
  rewrite (rhe_multiple (v * 10 ^ 1074) (10 ^ 1074 * g) c).
  - rewrite <- G. change (unit f64_format) with 1074 in L. apply N.ltb_lt in L. rewrite L. reflexivity.
  - apply N.mul_pos_pos; assumption.
  - rewrite G at 1. set (x := 10 ^ 1074). clearbody x. clear. lia.
Qed.
Lemma finite_bound : forall p q, f64_of_ratio p q < 2 ^ (emax f64_format + unit f64_format).
Proof.
  intros p q. unfold f64_of_ratio, round_ratio. 
  match goal with |- context [if ?b then _ else _] => destruct b eqn:B end; cbn [finite]; [apply N.ltb_lt; exact B|apply pow2_pos].
Qed.
Lemma exact_show_ok : forall p q, 0 < q -> parse_float f64_format (exact_show (f64_of_ratio p q)) = Some (Fin false (f64_of_ratio p q)).
Proof. intros p q Q. apply exact_show_parse; [exact (round_grid p q Q)|apply finite_bound]. Qed.
Lemma point_chars : forall a k b, let s := show_dec a ++ 46 :: last_digits k b in
  s <> [] /\ forallb (fun c => is_digit c || (c =? 46)) s = true.
Proof.
  intros a k b s. unfold s. split.
  - intros E. apply app_eq_nil in E. destruct E as [E _]. exact (show_dec_nonempty _ E).
  - assert (D := proj1 (proj2 (last_digits_spec k b))). revert D. generalize (last_digits k b). intros l D.
    rewrite forallb_app. apply andb_true_iff. split.
    + eapply forallb_impl; [|apply show_dec_digits]. intros c H. rewrite H. reflexivity.
    + cbn [forallb]. eapply forallb_impl; [|exact D]. intros c H. rewrite H. reflexivity.
Qed.
Lemma exact_show_chars : forall v, exact_show v <> [] /\ forallb (fun c => is_digit c || (c =? 46)) (exact_show v) = true.
Proof. intros v. exact (point_chars _ _ _). Qed.
Theorem C66_contracts : show_contract exact_show /\ nanos_contract cut_nanos.
Proof.
  split; [|exact cut_nanos_ok]. unfold show_contract, as_millis, f64_mul. cbv zeta. intros d.
  assert (Q : 0 < one f64_format * one f64_format) by (apply N.mul_pos_pos; apply pow2_pos).
  split; [apply exact_show_chars|split; [apply exact_show_chars|]]. apply exact_show_ok. exact Q.
Qed.
Print Assumptions C66_contracts.

(** ** FALSE: reading any Server-Timing header returns.  A hostile peer chooses the number. *)
Theorem C66_total_refuted : exists l, l = ["a;dur=-1"; "a;dur=nan"; "a;dur=inf"; "a;dur=1e20"]%string /\
  forall nanos_of h, Forall (fun t => timing_from_headers nanos_of (apply_value h SERVER_TIMING (lit t)) = Panic) l.
Proof.
  eexists. split; [reflexivity|]. intros nanos_of h. unfold timing_from_headers.
  repeat (apply Forall_cons; [rewrite with_all_apply; vm_compute; reflexivity|]). apply Forall_nil.
Qed.
Print Assumptions C66_total_refuted.

(** FALSE: a description comes back as it was given: separators are not escaped, and an empty list is not empty. *)
Theorem C66_description_refuted : exists a b c, a = lit "a,b" /\ b = lit "a;b" /\ c = lit "a=b" /\ forall h,
  let back ms := timing_from_headers cut_nanos (timing_apply exact_show h ms) in
  back [Metric (lit "db") None (Some a)] = Err 400 /\
  back [Metric (lit "db") None (Some b)] = Err 400 /\
  back [Metric (lit "db") None (Some c)] = Err 400 /\
  back [] = Ok (Some [Metric [] None None]).
Proof.
  do 3 eexists. do 3 (split; [reflexivity|]). intros h back. unfold back, timing_from_headers, timing_apply. rewrite !with_all_apply. vm_compute. repeat split.
Qed.
Print Assumptions C66_description_refuted.

(** Two metrics, one with three seconds and a description; the number is written with all 1074 decimals here, as
    "3000" by the standard library.  Parameters are read in any order, unquoted descriptions too. *)
Example C66_example : forall h,
  let m := [Metric (lit "db") (Some (from_secs 3)) (Some (lit "Query 1")); Metric (lit "cache") None None] in
  timing_from_headers cut_nanos (timing_apply exact_show h m) = Ok (Some m) /\
  timing_from_headers cut_nanos (apply_value h SERVER_TIMING (lit "db;desc=q ; dur=0.5, x")) =
    Ok (Some [Metric (lit "db") (Some (Dur 0 500000)) (Some (lit "q ")); Metric (lit "x") None None]) /\
  timing_from_headers cut_nanos (apply_value h SERVER_TIMING (lit "db;dur")) = Err 400.
Proof.
  intros h m. split; [|split].
  - rewrite (C66_round_trip_partial exact_show cut_nanos (proj1 C66_contracts)); [|discriminate|].
    + unfold m, read_back. cbn [map m_name m_dur m_desc].
      rewrite (proj2 (C66_whole_seconds cut_nanos (proj2 C66_contracts) 3 eq_refl)). reflexivity.
    + apply Forall_cons; [|apply Forall_cons; [|apply Forall_nil]]; unfold writable; cbn [m_name m_dur m_desc];
        (split; [reflexivity|split; [reflexivity|split; [reflexivity|split]]]); intros x E; try discriminate E; injection E as <-.
      * repeat split.
      * exact (proj1 (C66_whole_seconds cut_nanos (proj2 C66_contracts) 3 eq_refl)).
  - unfold timing_from_headers. rewrite with_all_apply. vm_compute. reflexivity.
  - unfold timing_from_headers. rewrite with_all_apply. vm_compute. reflexivity.
Qed.

(** A metric is made exactly of an ASCII name and an ASCII description, if any. *)
Theorem C66_metric_new : forall name dur desc,
  let ascii t := Forall (fun c => c < 128) t in
  (ascii name /\ (forall d, desc = Some d -> ascii d) -> metric_new name dur desc = Ok (Metric name dur desc)) /\
  (~ ascii name \/ (exists d, desc = Some d /\ ~ ascii d) -> metric_new name dur desc = Err 500).
Proof.
  intros name dur desc ascii. assert (A : forall t, is_ascii t = true <-> ascii t).
  { intros t. unfold ascii, is_ascii. rewrite forallb_forall, Forall_forall. split; intros H c I; specialize (H c I); lia. }
  unfold metric_new. split.
  - intros [H D]. apply A in H. rewrite H. cbn [negb]. destruct desc as [d|]; [|reflexivity]. specialize (D d eq_refl). apply A in D. rewrite D. reflexivity.
  - intros H. destruct (is_ascii name) eqn:E; cbn [negb]; [|reflexivity]. destruct H as [H|(d & -> & H)]; [destruct H; now apply A|].
    destruct (is_ascii d) eqn:F; [destruct H; now apply A|reflexivity].
Qed.
Print Assumptions C66_metric_new.
Example C66_metric_new_example : metric_new (lit "a") None (Some [233]) = Err 500 /\ metric_new [] None None = Ok (Metric [] None None).
Proof. vm_compute. auto. Qed.
