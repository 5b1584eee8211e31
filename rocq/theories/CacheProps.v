(** C42 Cache-Control, C43 Age, C44 Clear-Site-Data. *)
From Verif Require Import Base BaseFacts Headers HeadersFacts Typed TypedFacts Cache.
From Coq Require Import ZifyBool ZifyNat ZifyN.

(** ** C42 *)
(** The registered directive names (RFC 7234, 5861, 8246), as documented on [CacheDirective]. *)
Definition flag_names : list (str * directive) :=
  [(lit "immutable", Immutable); (lit "no-cache", NoCache); (lit "no-store", NoStore);
   (lit "no-transform", NoTransform); (lit "only-if-cached", OnlyIfCached);
   (lit "must-revalidate", MustRevalidate); (lit "public", Public); (lit "private", Private);
   (lit "proxy-revalidate", ProxyRevalidate); (lit "max-stale", MaxStale None)].
Definition timed_names : list (str * (duration -> directive)) :=
  [(lit "max-age", MaxAge); (lit "max-stale", fun d => MaxStale (Some d)); (lit "min-fresh", MinFresh);
   (lit "s-maxage", SMaxAge); (lit "stale-if-error", StaleIfError);
   (lit "stale-while-revalidate", StaleWhileRevalidate)].

(** Case does not matter anywhere in a directive. *)
Theorem C42_case_insensitive : forall s s', to_lower s = to_lower s' -> directive_from_str s = directive_from_str s'.
Proof.
  intros s s' H. unfold directive_from_str.
  assert (E : to_lower (trim s) = to_lower (trim s')) by (rewrite !lower_trim; now rewrite H).
  destruct (trim s) as [|c t], (trim s') as [|c' t']; try reflexivity; try discriminate E. rewrite E. reflexivity.
Qed.
Print Assumptions C42_case_insensitive.

Lemma from_str_trim : forall s, directive_from_str (trim s) = directive_from_str s.
Proof. intros s. unfold directive_from_str. unfold trim at 1 2. rewrite trim_matches_idem. reflexivity. Qed.
Lemma from_str_pad : forall a s b, forallb is_ws a = true -> forallb is_ws b = true ->
  directive_from_str (a ++ s ++ b) = directive_from_str s.
Proof.
  intros a s b A B. rewrite <- (from_str_trim (a ++ s ++ b)), <- (from_str_trim s). f_equal. now apply trim_matches_pad.
Qed.

Lemma flag_computes : forall n d, In (n, d) flag_names -> directive_from_str n = Ok (Some d) /\ to_lower n = n.
Proof.
  intros n d H. cbn [flag_names In] in H.
  repeat (destruct H as [H|H]; [inv H; split; vm_compute; reflexivity|]). destruct H.
Qed.

Theorem C42_flags : forall n d s a b, In (n, d) flag_names -> to_lower s = n ->
  forallb is_ws a = true -> forallb is_ws b = true -> directive_from_str (a ++ s ++ b) = Ok (Some d).
Proof.
  intros n d s a b H E A B. rewrite from_str_pad by assumption. destruct (flag_computes n d H) as [F L].
  rewrite <- F. apply C42_case_insensitive. now rewrite L.
Qed.
Example C42_flags_example : directive_from_str (lit "  Only-IF-Cached ") = Ok (Some OnlyIfCached).
Proof. vm_compute. reflexivity. Qed.
Print Assumptions C42_flags.

Lemma split_name_arg : forall n t, no_char 61 n = true -> no_char 61 t = true -> split 61 (n ++ 61 :: t) = [n; t].
Proof. intros n t H1 H2. rewrite split_app by exact H1. now rewrite split_no_char. Qed.

(** [name=text]: when the name is a known one with a duration, the result is decided by the number. *)
Lemma timed_computes : forall n f k, In (n, f) timed_names -> k <= u64_max ->
  directive_from_str (n ++ lit "=" ++ show_dec k) = Ok (Some (f (from_secs k))) /\ to_lower n = n.
Proof.
  intros n f k H K.
  assert (X : n <> [] /\ no_edge is_ws n = true /\ no_char 61 n = true /\ to_lower n = n).
  { cbn [timed_names In] in H. repeat (destruct H as [H|H]; [inv H; repeat apply conj; [discriminate|vm_compute; reflexivity|vm_compute; reflexivity|vm_compute; reflexivity]|]). destruct H. }
  destruct X as (X1 & X2 & X3 & X4). split; [|exact X4].
  assert (T : trim (n ++ lit "=" ++ show_dec k) = n ++ lit "=" ++ show_dec k).
  { apply trim_id. unfold no_edge in *. apply andb_true_iff in X2 as [X2 _]. apply andb_true_iff. split.
    - destruct n; [congruence|exact X2].
    - rewrite !rev_app_distr. assert (Y := show_dec_no_edge k). unfold no_edge in Y. apply andb_true_iff in Y as [_ Y].
      assert (Z := show_dec_nonempty k). destruct (rev (show_dec k)) eqn:R; [|exact Y].
      elim Z. rewrite <- (rev_involutive (show_dec k)), R. reflexivity. }
  unfold directive_from_str. rewrite T. destruct (n ++ lit "=" ++ show_dec k) as [|c t] eqn:E; [destruct n; [congruence|discriminate]|].
  rewrite <- E. clear E c t T. rewrite !to_lower_app, to_lower_show_dec, X4.
  change (to_lower (lit "=")) with [61]. change c_eq with 61. cbn [app].
  rewrite split_name_arg; [|exact X3|now apply show_dec_no_char].
  unfold get_dur. cbn [hd_error ok_or bind]. rewrite (parse_show_dec u64_max k K). cbn [bind ok_or].
  cbn [timed_names In] in H.
  repeat (destruct H as [H|H]; [inv H; vm_compute; reflexivity|]). destruct H.
Qed.

Theorem C42_timed : forall n f s k a b, In (n, f) timed_names -> to_lower s = n -> k <= u64_max ->
  forallb is_ws a = true -> forallb is_ws b = true ->
  directive_from_str (a ++ (s ++ lit "=" ++ show_dec k) ++ b) = Ok (Some (f (from_secs k))).
Proof.
  intros n f s k a b H E K A B. rewrite from_str_pad by assumption. destruct (timed_computes n f k H K) as [F L].
  rewrite <- F. apply C42_case_insensitive. rewrite !to_lower_app, E, L. reflexivity.
Qed.
Example C42_timed_example : directive_from_str (lit " S-MaxAge=60 ") = Ok (Some (SMaxAge (from_secs 60))).
Proof. vm_compute. reflexivity. Qed.
Print Assumptions C42_timed.

(** Unknown directives, with or without an argument, are skipped. *)
Theorem C42_unknown_skipped : forall s name rest,
  trim s = name ++ rest -> rest = [] \/ (exists r, rest = lit "=" ++ r) -> no_char 61 name = true ->
  (forall d, ~ In (to_lower name, d) flag_names) -> (forall f, ~ In (to_lower name, f) timed_names) ->
  directive_from_str s = Ok None.
Proof.
  intros s name rest T R Nn F1 F2. unfold directive_from_str. rewrite T.
  destruct (name ++ rest) as [|c t] eqn:E; [reflexivity|]. rewrite <- E. clear T E c t.
  assert (L : no_char 61 (to_lower name) = true).
  { clear -Nn. unfold no_char, to_lower in *. rewrite forallb_forall in *. intros c Hc. apply in_map_iff in Hc as (d & <- & Hd).
    specialize (Nn d Hd). unfold lower_char, is_upper. destruct ((65 <=? d) && (d <=? 90)) eqn:E; lia. }
  assert (S : exists ps, split c_eq (to_lower (name ++ rest)) = to_lower name :: ps).
  { destruct R as [->|[r ->]].
    - rewrite app_nil_r. exists []. now apply split_no_char.
    - rewrite to_lower_app. cbn [lit]. rewrite to_lower_app. change (to_lower (lit "=")) with [61]. cbn [app].
      rewrite split_app by exact L. eauto. }
  destruct S as [ps S]. rewrite S. clear S.
  assert (F : forall n d, In (n, d) flag_names -> seqb (to_lower name) n = false).
  { intros n d I. destruct (seqb_spec (to_lower name) n) as [Q|]; [|reflexivity]. elim (F1 d). now rewrite Q. }
  assert (G : forall n d, In (n, d) timed_names -> seqb (to_lower name) n = false).
  { intros n d I. destruct (seqb_spec (to_lower name) n) as [Q|]; [|reflexivity]. elim (F2 d). now rewrite Q. }
  rewrite (F (lit "immutable") Immutable) by (cbn [flag_names In]; auto 12).
  rewrite (F (lit "no-cache") NoCache) by (cbn [flag_names In]; auto 12).
  rewrite (F (lit "no-store") NoStore) by (cbn [flag_names In]; auto 12).
  rewrite (F (lit "no-transform") NoTransform) by (cbn [flag_names In]; auto 12).
  rewrite (F (lit "only-if-cached") OnlyIfCached) by (cbn [flag_names In]; auto 12).
  rewrite (F (lit "must-revalidate") MustRevalidate) by (cbn [flag_names In]; auto 12).
  rewrite (F (lit "public") Public) by (cbn [flag_names In]; auto 12).
  rewrite (F (lit "private") Private) by (cbn [flag_names In]; auto 12).
  rewrite (F (lit "proxy-revalidate") ProxyRevalidate) by (cbn [flag_names In]; auto 12).
  rewrite (G (lit "max-age") MaxAge) by (cbn [timed_names In]; auto 12).
  rewrite (F (lit "max-stale") (MaxStale None)) by (cbn [flag_names In]; auto 12).
  rewrite (G (lit "min-fresh") MinFresh) by (cbn [timed_names In]; auto 12).
  rewrite (G (lit "s-maxage") SMaxAge) by (cbn [timed_names In]; auto 12).
  rewrite (G (lit "stale-if-error") StaleIfError) by (cbn [timed_names In]; auto 12).
  rewrite (G (lit "stale-while-revalidate") StaleWhileRevalidate) by (cbn [timed_names In]; auto 12).
  reflexivity.
Qed.
Example C42_unknown_example :
  cache_from_headers [(lit "cache-control", [lit "barely-cached, max-age=5,, s-max-age=7"; lit "NO-STORE"])]
  = Ok (Some [MaxAge (from_secs 5); NoStore]).
Proof. vm_compute. reflexivity. Qed.
Print Assumptions C42_unknown_skipped.

Lemma get_dur_cases : forall ps, (exists d, get_dur ps = Ok d) \/ get_dur ps = Err 400.
Proof.
  intros [|p ps]; [now right|]. unfold get_dur. cbn [hd_error ok_or bind].
  destruct (parse_uint 10 u64_max p); cbn; [left; eauto|now right].
Qed.
Lemma directive_total : forall s, (exists o, directive_from_str s = Ok o) \/ directive_from_str s = Err 400.
Proof.
  intros s. unfold directive_from_str. destruct (trim s) as [|c t]; [left; eauto|].
  destruct (split c_eq (to_lower (c :: t))) as [|n ps] eqn:E; [now apply split_nonempty in E|]. clear E.
  assert (T : forall f : duration -> directive, (exists o, (let* d := get_dur ps in Ok (Some (f d))) = Ok o) \/ (let* d := get_dur ps in Ok (Some (f d))) = Err 400).
  { intros f. destruct (get_dur_cases ps) as [[d D]|D]; rewrite D; cbn; [left; eauto|now right]. }
  repeat match goal with |- context [if seqb n ?x then _ else _] => destruct (seqb n x); [first [left; eexists; reflexivity | apply T | idtac]|] end.
  - destruct ps as [|p ps]; [left; eexists; reflexivity|]. destruct (parse_uint 10 u64_max p); cbn; [left; eauto|now right].
  - left; eauto.
Qed.
(** Any header map: a list of directives or a 400 error. *)
Theorem C42_total : forall h, (exists o, cache_from_headers h = Ok o) \/ cache_from_headers h = Err 400.
Proof.
  intros h. unfold cache_from_headers, with_all. destruct (h_get h CACHE_CONTROL) as [vs|]; [|left; eauto].
  assert (P : forall ps, (exists o, read_directives ps = Ok o) \/ read_directives ps = Err 400).
  { induction ps as [|p ps IH]; [left; eexists; reflexivity|]. cbn [read_directives].
    destruct (directive_total p) as [[o O]|O]; rewrite O; cbn [bind]; [|now right].
    destruct IH as [[x IH]|IH]; rewrite IH; cbn [bind]; [left; eauto|now right]. }
  destruct (P (comma_parts vs)) as [[o O]|O]; rewrite O; cbn [bind]; [left; eauto|now right].
Qed.
Print Assumptions C42_total.

Lemma read_directives_trim : forall ps, read_directives ps = read_directives (map trim ps).
Proof. induction ps as [|p ps IH]; [reflexivity|]. cbn [map read_directives]. now rewrite from_str_trim, IH. Qed.

(** What survives: everything but the shared-cache maximum age, with fractions of a second cut off. *)
Definition whole (d : duration) : duration := from_secs (secs d).
Definition survivor (d : directive) : list directive :=
  match d with
  | SMaxAge _ => []
  | MaxAge d => [MaxAge (whole d)]
  | MaxStale (Some d) => [MaxStale (Some (whole d))]
  | MinFresh d => [MinFresh (whole d)]
  | StaleIfError d => [StaleIfError (whole d)]
  | StaleWhileRevalidate d => [StaleWhileRevalidate (whole d)]
  | d => [d]
  end.
Definition dur_of (d : directive) : option duration :=
  match d with
  | MaxAge d | MaxStale (Some d) | MinFresh d | SMaxAge d | StaleIfError d | StaleWhileRevalidate d => Some d
  | _ => None
  end.
Definition u64_secs (d : directive) : Prop := match dur_of d with Some t => secs t <= u64_max | None => True end.

Lemma value_form : forall d, (In (directive_value d, d) flag_names) \/
  (exists n f t, In (n, f) timed_names /\ directive_value d = n ++ lit "=" ++ show_dec (secs t) /\ dur_of d = Some t /\ survivor d = [f (whole t)]) \/
  (exists t, d = SMaxAge t).
Proof.
  destruct d as [|t|[t|]|t| | | | | | | | |t|t|t]; try (left; cbn [flag_names In directive_value]; auto 12; fail);
    try (right; right; eauto; fail); right; left.
  - exists (lit "max-age"), MaxAge, t. cbn [timed_names In]. auto 8.
  - exists (lit "max-stale"), (fun d => MaxStale (Some d)), t. cbn [timed_names In]. auto 8.
  - exists (lit "min-fresh"), MinFresh, t. cbn [timed_names In]. auto 8.
  - exists (lit "stale-if-error"), StaleIfError, t. cbn [timed_names In]. auto 9.
  - exists (lit "stale-while-revalidate"), StaleWhileRevalidate, t. cbn [timed_names In]. auto 10.
Qed.

Lemma directive_clean : forall d, clean (directive_value d) = true /\ directive_value d <> [].
Proof.
  assert (T : forall n t, n <> [] -> no_char 44 n = true -> (match n with [] => true | c :: _ => negb (is_ws c) end) = true ->
    clean (n ++ show_dec t) = true).
  { intros n t N C W. unfold clean. rewrite no_char_app, C, show_dec_no_char by reflexivity. cbn [andb]. unfold no_edge.
    apply andb_true_iff. split; [destruct n; [congruence|exact W]|]. rewrite rev_app_distr.
    assert (Y := show_dec_no_edge t). unfold no_edge in Y. apply andb_true_iff in Y as [_ Y].
    assert (Z := show_dec_nonempty t). destruct (rev (show_dec t)) eqn:R; [|exact Y].
    elim Z. rewrite <- (rev_involutive (show_dec t)), R. reflexivity. }
  destruct d as [|t|[t|]|t| | | | | | | | |t|t|t]; (split; [first [reflexivity | apply T; [discriminate|reflexivity|reflexivity]] | discriminate]).
Qed.

Lemma read_value : forall d, u64_secs d ->
  directive_from_str (directive_value d) = Ok (match survivor d with [] => None | x :: _ => Some x end).
Proof.
  intros d U. destruct (value_form d) as [F|[(n & f & t & I & V & D & S)|(t & ->)]].
  - destruct (flag_computes _ _ F) as [E _]. rewrite E. destruct d as [|t|[t|]|t| | | | | | | | |t|t|t]; try reflexivity.
    all: exfalso; cbn [flag_names In] in F; repeat (destruct F as [F|F]; [discriminate F|]); destruct F.
  - rewrite V, S. unfold u64_secs in U. rewrite D in U. apply timed_computes; assumption.
  - apply (C42_unknown_skipped _ (lit "s-max-age") (lit "=" ++ show_dec (secs t))).
    + rewrite trim_id; [reflexivity|]. destruct (directive_clean (SMaxAge t)) as [C _]. now apply andb_true_iff in C.
    + right. eauto.
    + reflexivity.
    + intros d H. cbn [flag_names In] in H. repeat (destruct H as [H|H]; [discriminate H|]). destruct H.
    + intros d H. cbn [timed_names In] in H. repeat (destruct H as [H|H]; [discriminate H|]). destruct H.
Qed.

(** The exact result of writing any list of directives into any header map and reading it back. *)
Theorem C42_reads_back_as : forall h l, Forall u64_secs l ->
  cache_from_headers (cache_apply h l) = Ok (Some (flat_map survivor l)).
Proof.
  intros h l H. unfold cache_from_headers, cache_apply. rewrite with_all_apply.
  destruct l as [|d l]; [reflexivity|]. rewrite read_directives_trim. unfold comma_parts, cache_value. cbn [flat_map].
  rewrite app_nil_r. change c_comma with 44. rewrite pieces_text.
  - assert (R : read_directives (map directive_value (d :: l)) = Ok (flat_map survivor (d :: l))).
    { clear h. induction H as [|x xs Hx H IH]; [reflexivity|]. cbn [map read_directives flat_map]. rewrite (read_value x Hx), IH.
      cbn [bind]. destruct x as [|t|[t|]|t| | | | | | | | |t|t|t]; reflexivity. }
    rewrite R. reflexivity.
  - discriminate.
  - rewrite forallb_forall. intros t Ht. apply in_map_iff in Ht as (x & <- & _). apply directive_clean.
Qed.
(** So the list itself comes back when every duration is in whole seconds and there is no [SMaxAge]. *)
Theorem C42_round_trip_partial : forall h l,
  Forall (fun d => u64_secs d /\ (match dur_of d with Some t => nanos t = 0 | None => True end) /\ forall t, d <> SMaxAge t) l ->
  cache_from_headers (cache_apply h l) = Ok (Some l).
Proof.
  intros h l H. rewrite C42_reads_back_as by (eapply Forall_impl; [|exact H]; intros d X; apply X). do 2 f_equal.
  induction H as [|d l (_ & W & S) H IH]; [reflexivity|]. cbn [flat_map]. rewrite IH.
  destruct d as [|t|[t|]|t| | | | | | | | |t|t|t]; try reflexivity; try (elim (S t); reflexivity);
    cbn [dur_of] in W; destruct t as [s n]; cbn [nanos] in W; subst n; reflexivity.
Qed.
Example C42_round_trip_example :
  cache_value [MaxAge (from_secs 3600); MaxStale None; MaxStale (Some (from_secs 18446744073709551615)); Public]
    = lit "max-age=3600, max-stale, max-stale=18446744073709551615, public" /\
  cache_from_headers (cache_apply [] [MaxAge (from_secs 3600); MaxStale None; Public])
    = Ok (Some [MaxAge (from_secs 3600); MaxStale None; Public]).
Proof. vm_compute. auto. Qed.
Print Assumptions C42_reads_back_as.
Print Assumptions C42_round_trip_partial.

(** [SMaxAge] is written as "s-max-age" but read as "s-maxage": it disappears without an error. *)
Theorem C42_s_maxage_refuted : exists d, u64_secs d /\ nanos (match dur_of d with Some t => t | None => from_secs 0 end) = 0 /\
  cache_from_headers (cache_apply [] [d]) = Ok (Some []).
Proof. exists (SMaxAge (from_secs 60)). split; [vm_compute; discriminate|]. split; vm_compute; reflexivity. Qed.
(** Fractions of a second are cut off. *)
Theorem C42_fraction_refuted : exists d, cache_from_headers (cache_apply [] [MaxAge d]) = Ok (Some [MaxAge (from_secs 1)]) /\ d <> from_secs 1.
Proof. exists (Dur 1 999999999). split; [vm_compute; reflexivity|discriminate]. Qed.
(** An observation: the helpers call [Immutable] valid in neither direction, RFC 8246 defines it for responses. *)
Example immutable_valid_nowhere : valid_in_req Immutable = false /\ valid_in_res Immutable = false.
Proof. auto. Qed.
(** Where a directive may appear, by the name it is written under: requests may carry the seven of RFC 7234 section
    5.2.1, responses the eleven listed here (RFC 7234 section 5.2.2, RFC 5861). *)
Definition written_name (d : directive) : str := take_while (fun c => negb (c =? 61)) (directive_value d).
Theorem C42_valid_where : forall d,
  (valid_in_req d = true <-> In (written_name d) (map lit
     ["max-age"; "max-stale"; "min-fresh"; "no-cache"; "no-store"; "no-transform"; "only-if-cached"]%string)) /\
  (valid_in_res d = true <-> In (written_name d) (map lit
     ["must-revalidate"; "no-cache"; "no-store"; "no-transform"; "public"; "private"; "proxy-revalidate"; "max-age"; "s-max-age";
      "stale-if-error"; "stale-while-revalidate"]%string)).
Proof.
  assert (T : forall n x, In n (map lit ["max-age="; "max-stale="; "min-fresh="; "s-max-age="; "stale-if-error="; "stale-while-revalidate="]%string) ->
    take_while (fun c => negb (c =? 61)) (n ++ x) = take_while (fun c => negb (c =? 61)) n).
  { intros n x H. cbn [map In] in H. repeat (destruct H as [<-|H]; [reflexivity|]). destruct H. }
  assert (D : forall x (l : list str), (existsb (seqb x) l = true <-> In x l)).
  { intros x l. rewrite existsb_exists. split; [intros (y & I & E); apply seqb_eq in E; now subst|]. intros I. exists x. split; [exact I|apply seqb_refl]. }
  intros d. rewrite <- !D. unfold written_name.
  destruct d as [|t|[t|]|t| | | | | | | | |t|t|t]; cbn [directive_value]; try rewrite T by (cbn [map In]; tauto); vm_compute; split; split; auto.
Qed.
Print Assumptions C42_valid_where.
Print Assumptions C42_s_maxage_refuted.
Print Assumptions C42_fraction_refuted.

(** ** C43 *)
(** The numbers an IEEE double holds exactly: 53 significant bits. *)
Definition exact53 (n : N) : Prop := exists m e, n = m * 2 ^ e /\ m < 2 ^ 53.

Lemma pow_pos : forall e, 0 < 2 ^ e.
Proof. intros e. apply N.neq_0_lt_0, N.pow_nonzero. discriminate. Qed.
Lemma size_bounds : forall n, 0 < n -> n < 2 ^ N.size n /\ 2 ^ (N.size n - 1) <= n.
Proof.
  intros n P. split; [apply N.size_gt|]. assert (H := N.size_le n). rewrite N.succ_double_spec in H.
  assert (S : N.size n <> 0) by (destruct n; [lia|discriminate]).
  replace (N.size n) with (N.succ (N.size n - 1)) in H by lia. rewrite N.pow_succ_r' in H. lia.
Qed.

Lemma f64_exact : forall n, f64_of_u64 n = n <-> exact53 n.
Proof.
  intros n. destruct (N.eq_dec n 0) as [->|P].
  { split; [|reflexivity]. intros _. exists 0, 0. split; [reflexivity|vm_compute; reflexivity]. }
  destruct (size_bounds n ltac:(lia)) as [U L]. unfold f64_of_u64.
  set (e := N.size n - 53) in *. set (m := 2 ^ e).
  assert (M : 0 < m) by apply pow_pos.
  assert (D := N.div_mod n m ltac:(lia)). assert (R := N.mod_lt n m ltac:(lia)).
  assert (Q : n / m < 2 ^ 53).
  { apply N.div_lt_upper_bound; [lia|]. unfold m. rewrite N.mul_comm, <- N.pow_add_r. eapply N.lt_le_trans; [exact U|].
    apply N.pow_le_mono_r; [discriminate|]. unfold e. lia. }
  split.
  - intros H. exists (n / m), e. split; [|exact Q]. fold m. destruct ((2 * (n mod m) <? m) || _) eqn:C; nia.
  - intros (m0 & e0 & E & B).
    assert (Z : n mod m = 0).
    { apply N.mod_divide; [lia|]. destruct (N.le_gt_cases e e0) as [Le|Gt].
      - exists (m0 * 2 ^ (e0 - e)). rewrite E. unfold m. rewrite <- N.mul_assoc, <- N.pow_add_r. do 2 f_equal. lia.
      - exfalso. assert (X : n < 2 ^ (53 + e0)) by (rewrite N.pow_add_r, E; apply N.mul_lt_mono_pos_r; [apply pow_pos|exact B]).
        assert (Y : 2 ^ (53 + e0) <= 2 ^ (N.size n - 1)) by (apply N.pow_le_mono_r; [discriminate|]; unfold e in Gt; lia).
        lia. }
    rewrite Z. replace (2 * 0 <? m) with true by lia. cbn [orb]. rewrite Z in D. lia.
Qed.
Lemma f64_overflow : forall n, n <= u64_max -> (2 ^ 64 <= f64_of_u64 n <-> 2 ^ 64 - 1024 <= n).
Proof.
  intros n B. destruct (N.le_gt_cases (2 ^ 63) n) as [Hi|Lo].
  - assert (S : N.size n = 64).
    { rewrite N.size_log2 by lia. replace (N.log2 n) with 63; [reflexivity|]. symmetry. apply N.log2_unique; [lia|].
      split; [exact Hi|]. change (N.succ 63) with 64. unfold u64_max in B. change (2 ^ 64) with 18446744073709551616. lia. }
    unfold f64_of_u64. rewrite S. change (64 - 53) with 11. change (2 ^ 11) with 2048. change (2 ^ 64) with 18446744073709551616.
    unfold u64_max in B.
    destruct (N.even (n / 2048)) eqn:E.
    + apply N.even_spec in E as [x E]. destruct ((2 * (n mod 2048) <? 2048) || (2 * (n mod 2048) =? 2048) && true) eqn:C; lia.
    + assert (E' : N.odd (n / 2048) = true) by (rewrite <- N.negb_even, E; reflexivity). apply N.odd_spec in E' as [x E'].
      destruct ((2 * (n mod 2048) <? 2048) || (2 * (n mod 2048) =? 2048) && false) eqn:C; lia.
  - split; [|change (2 ^ 64) with 18446744073709551616; change (2 ^ 63) with 9223372036854775808 in Lo; lia].
    intros H. exfalso. destruct (N.eq_dec n 0) as [->|P]; [vm_compute in H; apply H; reflexivity|].
    unfold f64_of_u64 in H. set (e := N.size n - 53) in *. set (m := 2 ^ e) in *.
    assert (Sz : N.size n <= 63).
    { rewrite N.size_log2 by lia. assert (X : N.log2 n < 63) by (apply N.log2_lt_pow2; lia). lia. }
    assert (M : 0 < m) by apply pow_pos.
    assert (Q : n / m < 2 ^ 53).
    { apply N.div_lt_upper_bound; [lia|]. unfold m. rewrite N.mul_comm, <- N.pow_add_r.
      eapply N.lt_le_trans; [apply N.size_gt|]. apply N.pow_le_mono_r; [discriminate|]. unfold e. lia. }
    assert (Mm : m <= 2 ^ 10) by (apply N.pow_le_mono_r; [discriminate|]; unfold e; lia).
    change (2 ^ 53) with 9007199254740992 in Q. change (2 ^ 10) with 1024 in Mm. change (2 ^ 64) with 18446744073709551616 in H.
    destruct (_ || _) in H; nia.
Qed.

(** Writing an age of [n] whole seconds into any header map and reading it back: the exact outcome is the double
    nearest to [n]. *)
Lemma age_read_written : forall h n, n <= u64_max ->
  age_from_headers (age_apply h (from_secs n)) = (let* d := from_secs_f64 (f64_of_u64 n) in Ok (Some d)).
Proof.
  intros h n B. unfold age_from_headers, age_apply. rewrite with_last_apply. cbn [secs from_secs].
  rewrite (parse_show_dec u64_max n B). cbn [ok_or bind]. reflexivity.
Qed.
(** It is the same age exactly when [n] fits in 53 significant bits; *)
Theorem C43_round_trip_iff : forall h n, n <= u64_max ->
  (age_from_headers (age_apply h (from_secs n)) = Ok (Some (from_secs n)) <-> exact53 n).
Proof.
  intros h n B. rewrite age_read_written by exact B. rewrite <- f64_exact. unfold from_secs_f64. split.
  - destruct (f64_of_u64 n <? 2 ^ 64); cbn; [|discriminate]. intros H. injection H. auto.
  - intros ->. replace (n <? 2 ^ 64) with true by (unfold u64_max in B; change (2 ^ 64) with 18446744073709551616; lia). reflexivity.
Qed.
(** in particular for every age up to 2^53 seconds, about 285 million years; *)
Theorem C43_round_trip_partial : forall h n, n <= 2 ^ 53 ->
  age_from_headers (age_apply h (from_secs n)) = Ok (Some (from_secs n)).
Proof.
  intros h n B. change (2 ^ 53) with 9007199254740992 in B. apply C43_round_trip_iff; [unfold u64_max; lia|].
  destruct (N.eq_dec n 9007199254740992) as [->|D].
  - exists 1, 53. split; vm_compute; reflexivity.
  - exists n, 0. change (2 ^ 0) with 1. change (2 ^ 53) with 9007199254740992. lia.
Qed.
(** and it panics exactly for the 1024 largest u64 values. *)
Theorem C43_panics_iff : forall h n, n <= u64_max ->
  (age_from_headers (age_apply h (from_secs n)) = Panic <-> 2 ^ 64 - 1024 <= n).
Proof.
  intros h n B. rewrite age_read_written by exact B. rewrite <- (f64_overflow n B). unfold from_secs_f64.
  destruct (f64_of_u64 n <? 2 ^ 64) eqn:E; cbn [bind]; split; try discriminate; try reflexivity; lia.
Qed.
Theorem C43_rounded_refuted : exists n, n <= u64_max /\
  age_from_headers (age_apply [] (from_secs n)) = Ok (Some (from_secs (n - 1))).
Proof. exists (2 ^ 53 + 1). split; [vm_compute; discriminate|vm_compute; reflexivity]. Qed.
Theorem C43_panics_refuted : exists n, n <= u64_max /\ age_from_headers (age_apply [] (from_secs n)) = Panic.
Proof. exists u64_max. split; [vm_compute; discriminate|vm_compute; reflexivity]. Qed.
Example C43_round_trip_example :
  age_from_headers (age_apply [(lit "age", [lit "junk"])] (from_secs 123)) = Ok (Some (from_secs 123)) /\
  age_from_headers [(lit "age", [lit "12"; lit "9"])] = Ok (Some (from_secs 9)) /\
  age_from_headers [(lit "age", [lit "9"; lit "-1"])] = Err 400.
Proof. vm_compute. auto. Qed.
Print Assumptions C43_round_trip_iff.
Example C43_round_trip_iff_case : 9007199254740993 <= u64_max /\ exact53 9007199254740994 /\
  age_from_headers (age_apply [] (from_secs 9007199254740994)) = Ok (Some (from_secs 9007199254740994)) /\
  age_from_headers (age_apply [] (from_secs 9007199254740993)) = Ok (Some (from_secs 9007199254740992)).
Proof.
  split; [vm_compute; discriminate|]. assert (X : exact53 9007199254740994) by (apply (C43_round_trip_iff []); [vm_compute; discriminate|vm_compute; reflexivity]).
  split; [exact X|split; vm_compute; reflexivity].
Qed.
Print Assumptions C43_round_trip_partial.
Print Assumptions C43_panics_iff.
Print Assumptions C43_rounded_refuted.
Print Assumptions C43_panics_refuted.

(** ** C44 *)
Lemma clear_showable : forall c, showable (lit """*""") clear_from_str clear_str c.
Proof. intros c. repeat apply conj; destruct c; try reflexivity; try discriminate. Qed.
(** Every list of directives with any wildcard flag comes back from any header map, unless there is nothing to
    write. *)
Theorem C44_round_trip_partial : forall h l (w : bool), l <> [] \/ w = true ->
  clear_from_headers (clear_apply h (l, w)) = Ok (Some (l, w)).
Proof.
  intros h l w N. unfold clear_from_headers, clear_apply. rewrite with_all_apply. unfold clear_value. cbn [fst snd].
  rewrite (read_list_value (lit """*""") clear_from_str clear_str); [reflexivity| | |exact N].
  - split; [reflexivity|discriminate].
  - apply Forall_forall. intros c _. apply clear_showable.
Qed.
Example C44_round_trip_example :
  clear_value ([ClearCookies; ClearExecutionContexts], true) = lit """cookies"", ""executionContexts"", ""*""" /\
  clear_from_headers (clear_apply [] ([ClearCookies; ClearExecutionContexts], true)) = Ok (Some ([ClearCookies; ClearExecutionContexts], true)).
Proof. vm_compute. auto. Qed.
Print Assumptions C44_round_trip_partial.

(** Reading panics exactly when some comma separated piece is not one of the five known texts. *)
Definition clear_known : list str :=
  [lit """cache"""; lit """cookies"""; lit """storage"""; lit """executionContexts"""; lit """*"""].
Lemma clear_parse_known : forall s, s <> lit """*""" -> (clear_from_str s = Panic <-> ~ In s clear_known) /\
  (In s clear_known -> exists c, clear_from_str s = Ok c).
Proof.
  intros s N. unfold clear_from_str, clear_known. cbn [In].
  repeat match goal with |- context [if seqb s ?x then _ else _] => destruct (seqb_spec s x); [subst; split; [split; [discriminate|intros X; elim X; auto 8]|eauto]|] end.
  split; [split; [|reflexivity]|].
  - intros _ H. repeat (destruct H as [H|H]; [congruence|]). exact H.
  - intros H. repeat (destruct H as [H|H]; [congruence|]). destruct H.
Qed.
Theorem C44_panics_iff : forall h vs, h_get h (lit "clear-site-data") = Some vs ->
  (clear_from_headers h = Panic <->
   exists v p, In v vs /\ In p (split 44 v) /\ ~ In (trim p) clear_known).
Proof.
  intros h vs G. unfold clear_from_headers, with_all. change CLEAR_SITE_DATA with (lit "clear-site-data"). rewrite G.
  assert (P : forall ps, (read_parts (lit """*""") clear_from_str ps = Panic /\ exists p, In p ps /\ ~ In (trim p) clear_known) \/
                         ((exists r, read_parts (lit """*""") clear_from_str ps = Ok r) /\ forall p, In p ps -> In (trim p) clear_known)).
  { induction ps as [|p ps IH]; [right; split; [eexists; reflexivity|intros p []]|]. cbn [read_parts].
    destruct (seqb_spec (trim p) (lit """*""")) as [E|E].
    - destruct IH as [[IH (q & Q1 & Q2)]|[[[r1 r2] IH] Q]]; rewrite IH; cbn [bind].
      + left. split; [reflexivity|]. exists q. split; [now right|exact Q2].
      + right. split; [eexists; reflexivity|]. intros q [<-|Hq]; [rewrite E; cbn; auto 8|now apply Q].
    - destruct (clear_parse_known (trim p) E) as [K1 K2].
      destruct (in_dec str_eq_dec (trim p) clear_known) as [I|I].
      + destruct (K2 I) as [c C]. rewrite C. cbn [bind].
        destruct IH as [[IH (q & Q1 & Q2)]|[[[r1 r2] IH] Q]]; rewrite IH; cbn [bind].
        * left. split; [reflexivity|]. exists q. split; [now right|exact Q2].
        * right. split; [eexists; reflexivity|]. intros q [<-|Hq]; [exact I|now apply Q].
      + left. rewrite (proj2 K1 I). split; [reflexivity|]. exists p. split; [now left|exact I]. }
  assert (T : (exists p, In p (comma_parts vs) /\ ~ In (trim p) clear_known) <-> exists v p, In v vs /\ In p (split 44 v) /\ ~ In (trim p) clear_known).
  { unfold comma_parts. change c_comma with 44. split.
    - intros (p & I & K). apply in_flat_map in I as (v & Hv & I). apply (in_map trim) in I. rewrite pieces_trim in I.
      apply in_map_iff in I as (q & Q & I). exists v, q. rewrite Q. auto.
    - intros (v & p & Hv & I & K). apply (in_map trim) in I. rewrite <- pieces_trim in I. apply in_map_iff in I as (q & Q & I).
      exists q. rewrite Q. split; [apply in_flat_map; eauto|exact K]. }
  rewrite <- T. destruct (P (comma_parts vs)) as [[R Q]|[[r R] Q]]; rewrite R; cbn [bind].
  - split; [intros _; exact Q|reflexivity].
  - split; [discriminate|]. intros (p & I & K). elim K. now apply Q.
Qed.
(** So unknown directives and empty values, both of which a server may send, panic. *)
Theorem C44_unknown_panics_refuted : exists v,
  clear_from_headers [(lit "clear-site-data", [v])] = Panic /\ v = lit """cache"", ""clientHints""".
Proof. eexists. split; [|reflexivity]. vm_compute. reflexivity. Qed.
Theorem C44_unquoted_panics_refuted : exists v,
  clear_from_headers [(lit "clear-site-data", [v])] = Panic /\ v = lit "cache".
Proof. eexists. split; [|reflexivity]. vm_compute. reflexivity. Qed.
Theorem C44_empty_refuted : exists c, c = ([], false) /\ clear_from_headers (clear_apply [] c) = Panic.
Proof. eexists. split; [reflexivity|]. vm_compute. reflexivity. Qed.
Print Assumptions C44_panics_iff.
Example C44_panics_iff_case :
  clear_from_headers [(lit "clear-site-data", [lit """cache"",  ""*"""; lit """cookies"" "])] = Ok (Some ([ClearCache; ClearCookies], true)) /\
  clear_from_headers [(lit "clear-site-data", [lit """cache"""; lit """cookies"", ""clientHints"""])] = Panic.
Proof. split; vm_compute; reflexivity. Qed.
Print Assumptions C44_unknown_panics_refuted.
Print Assumptions C44_unquoted_panics_refuted.
Print Assumptions C44_empty_refuted.
