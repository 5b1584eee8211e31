(** C55-C60, C68, C72, C73: headers with one value, Allow, and headers holding a URL. *)
From Verif Require Import Base BaseFacts Headers HeadersFacts Typed TypedFacts Mime MimeFacts HttpDate Method Cache Other.
From Verif Require DateSpec DateProps.
From Coq Require Import ZifyBool ZifyNat ZifyN Permutation.

(** ** C55 *)
Theorem C55_round_trip : forall h n, n <= u64_max -> length_from_headers (length_apply h n) = Ok (Some n).
Proof.
  intros h n L. unfold length_from_headers, length_apply. rewrite with_last_apply. unfold length_parse.
  rewrite trim_id by apply show_dec_no_edge. rewrite parse_show_dec by exact L. reflexivity.
Qed.
Print Assumptions C55_round_trip.
(** The last value alone decides: a decimal number of at most 64 bits is the length, everything else is 400. *)
Theorem C55_texts_partial : forall h vs v, h_get h CONTENT_LENGTH = Some (vs ++ [v]) ->
  (forall n, length_from_headers h = Ok (Some n) <-> dec_text (trim v) n /\ n <= u64_max) /\
  ((forall n, dec_text (trim v) n -> u64_max < n) <-> length_from_headers h = Err 400).
Proof.
  intros h vs v H. unfold length_from_headers. rewrite (with_last_snoc _ h CONTENT_LENGTH vs v length_parse H). unfold length_parse.
  assert (S := parse_dec_spec u64_max (trim v)). destruct (parse_uint 10 u64_max (trim v)) as [m|]; cbn [ok_or bind]; split.
  - intros n. rewrite <- S. split; intros X; inv X; reflexivity.
  - split; [|discriminate]. intros X. destruct (proj1 (S m) eq_refl) as [D L]. apply X in D. lia.
  - intros n. rewrite <- S. split; discriminate.
  - split; [reflexivity|]. intros _ n D. destruct (N.lt_ge_cases u64_max n) as [|L]; [assumption|].
    assert (X := proj2 (S n) (conj D L)). discriminate.
Qed.
Print Assumptions C55_texts_partial.
(** False of the code: RFC 7230 allows digits only, the code also takes a plus sign; and of several different
    lengths it silently takes the last. *)
Theorem C55_refuted : exists h1 h2,
  h_get h1 CONTENT_LENGTH = Some [lit "+5"] /\ length_from_headers h1 = Ok (Some 5) /\
  h_get h2 CONTENT_LENGTH = Some [lit "5"; lit "7"] /\ length_from_headers h2 = Ok (Some 7).
Proof. exists [(CONTENT_LENGTH, [lit "+5"])], [(CONTENT_LENGTH, [lit "5"; lit "7"])]. vm_compute. auto. Qed.
Print Assumptions C55_refuted.
Example C55_example : length_from_headers [(CONTENT_LENGTH, [lit "18446744073709551615"])] = Ok (Some u64_max) /\
  length_from_headers [(CONTENT_LENGTH, [lit "18446744073709551616"])] = Err 400 /\
  length_from_headers [(CONTENT_LENGTH, [lit "1 2"])] = Err 400.
Proof. vm_compute. auto. Qed.

(** ** C56 *)
Theorem C56_round_trip : forall h s m, mime_parse s = Ok m -> ctype_from_headers (ctype_apply h m) = Ok (Some m).
Proof.
  intros h s m H. unfold ctype_from_headers, ctype_apply. rewrite with_last_apply. unfold ctype_parse.
  rewrite mime_round_trip; [reflexivity|]. destruct (mime_parse_good s) as [(m' & E & G)|E]; congruence.
Qed.
Print Assumptions C56_round_trip.
Theorem C56_texts : forall h vs v, h_get h CONTENT_TYPE = Some (vs ++ [v]) ->
  (exists m, mime_parse v = Ok m /\ ctype_from_headers h = Ok (Some m)) \/
  ((forall m, mime_parse v <> Ok m) /\ ctype_from_headers h = Err 400).
Proof.
  intros h vs v H. unfold ctype_from_headers. rewrite (with_last_snoc _ h CONTENT_TYPE vs v ctype_parse H). unfold ctype_parse.
  destruct (mime_parse_good v) as [(m & E & _)|E]; rewrite E.
  - left. exists m. split; reflexivity.
  - right. split; [discriminate|reflexivity].
Qed.
Print Assumptions C56_texts.
Example C56_example : ctype_from_headers [(CONTENT_TYPE, [lit "text/html"; lit "<nori ate the tag. yum.>"])] = Err 400 /\
  exists m, ctype_from_headers [(CONTENT_TYPE, [lit "x"; lit "Text/HTML; charset=utf-8"])] = Ok (Some m) /\ mime_format m = lit "text/html;charset=utf-8".
Proof. split; [vm_compute; reflexivity|]. eexists. split; vm_compute; reflexivity. Qed.

(** ** C72: date headers *)
Definition in_range (t : Z) : Prop := (0 <= t < 253402300800 * 1000000000)%Z.
Definition whole_seconds (t : Z) : Z := (t / 1000000000 * 1000000000)%Z.

Definition never_err {A} (o : outcome A) : Prop := forall e, o <> Err e.
Lemma never_err_bind : forall A B (o : outcome A) (f : A -> outcome B), never_err o -> (forall a, never_err (f a)) -> never_err (bind o f).
Proof. intros A B [a|e|] f H K; cbn [bind]; [apply K|elim (H e eq_refl)|discriminate]. Qed.
Lemma systime_never_err : forall d, never_err (systime_of_date d).
Proof.
  intros d. unfold systime_of_date, usub.
  repeat (cbv zeta; match goal with
  | |- never_err (bind _ _) => apply never_err_bind; [|intros ?]
  | |- never_err (if ?b then _ else _) => destruct b
  | |- never_err (Ok _) => discriminate
  | |- never_err Panic => discriminate
  end).
  unfold month_ydays. destruct (month d) as [|p]; [discriminate|].
  repeat (destruct p as [p|p|]; try discriminate).
Qed.
Lemma date_header_parse : forall s, date_parse DateHeader s = parse_http_date (trim s).
Proof.
  intros s. unfold date_parse, parse_http_date. destruct (date_from_str (trim s)) as [d|e|]; cbn [bind with_status]; try reflexivity.
  assert (N := systime_never_err d). destruct (systime_of_date d); [reflexivity|congruence|reflexivity].
Qed.
Lemma fmt_text : forall t, in_range t -> exists s, fmt_http_date t = Ok s /\ parse_http_date s = Ok (whole_seconds t) /\
  trim s = s /\ In 44 s.
Proof.
  intros t R. destruct (DateProps.C01_date_round_trip t R) as (s & F & P). exists s. split; [exact F|]. split; [exact P|].
  rewrite (DateProps.C02_date_is_gregorian t R) in F. injection F as F. subst s.
  assert (G : HttpDateText.good (DateSpec.day_at (Z.to_nat (t / 1000000000 / 86400)))).
  { apply HttpDateText.good_day_at. unfold in_range in R. rewrite Z2Nat.id by (apply Z.div_pos; [apply Z.div_pos|]; lia).
    apply Z.div_lt_upper_bound; [lia|]. apply Z.div_lt_upper_bound; lia. }
  assert (S : (0 <= t / 1000000000 mod 86400 < 86400)%Z) by (apply Z.mod_pos_bound; lia).
  split.
  - apply trim_id. apply (HttpDateText.imf_text_ascii _ _ G S).
  - unfold DateSpec.imf_text. apply in_or_app. right. left. reflexivity.
Qed.

(** Every instant up to the end of 9999 comes back, cut to whole seconds; all other instants cannot be written. *)
Theorem C72_round_trip : forall d h t, in_range t ->
  exists h', date_apply d h t = Ok h' /\ date_from_headers d h' = Ok (Some (whole_seconds t)).
Proof.
  intros d h t R. destruct (fmt_text t R) as (s & F & P & T & _). exists (apply_value h (date_name d) s).
  unfold date_apply. rewrite F. split; [reflexivity|]. unfold date_from_headers. rewrite with_last_apply.
  assert (E : date_parse d s = Ok (whole_seconds t)).
  { destruct d; try exact P. rewrite date_header_parse, T. exact P. }
  rewrite E. reflexivity.
Qed.
Print Assumptions C72_round_trip.
Theorem C72_write_panics : forall d h t, date_apply d h t = Panic <-> ~ in_range t.
Proof.
  intros d h t. assert (X := DateProps.C06_format_panics_iff_out_of_range t). unfold date_apply, in_range in *.
  unfold DateProps.end_9999 in X. destruct (fmt_http_date t) as [s|e|] eqn:E; cbn [bind].
  - split; [discriminate|]. intros N. assert (Y : Ok s = Panic) by (apply X; lia). discriminate.
  - split; [discriminate|]. intros N. assert (Y : Err e = @Panic str) by (apply X; lia). discriminate.
  - split; [|reflexivity]. intros _ N. assert (Y := proj1 X eq_refl). lia.
Qed.
Print Assumptions C72_write_panics.
(** Reading is total: the last value is a whole second in the range or a 400 error. *)
Theorem C72_read_total : forall d h vs v, h_get h (date_name d) = Some (vs ++ [v]) ->
  (exists t, date_from_headers d h = Ok (Some t) /\ in_range t /\ whole_seconds t = t) \/ date_from_headers d h = Err 400.
Proof.
  intros d h vs v H. unfold date_from_headers. rewrite (with_last_snoc _ h (date_name d) vs v (date_parse d) H).
  assert (X : exists w, date_parse d v = parse_http_date w).
  { destruct d; try (exists v; reflexivity). exists (trim v). apply date_header_parse. }
  destruct X as (w & ->). destruct (DateProps.C04_date_parse_total w) as [(n & -> & R)| ->]; [left|right; reflexivity].
  eexists. split; [reflexivity|]. split; [exact R|]. unfold whole_seconds. rewrite Z.div_mul by lia. reflexivity.
Qed.
Print Assumptions C72_read_total.
Example C72_example : in_range 784111777999999999 /\
  date_apply LastModified [] 784111777999999999%Z = Ok [(lit "last-modified", [lit "Sun, 06 Nov 1994 08:49:37 GMT"])] /\
  date_from_headers DateHeader [(lit "date", [lit "x"; lit " Sunday, 06-Nov-94 08:49:37 GMT "])] = Ok (Some (784111777 * NANOS)%Z) /\
  date_from_headers Expires [(lit "expires", [lit "0"])] = Err 400.
Proof. split; [unfold in_range; lia|vm_compute; auto]. Qed.

(** ** C57 *)
Lemma comma_not_dec : forall s, In 44 s -> parse_uint 10 u64_max s = None.
Proof.
  intros s I. destruct (parse_uint 10 u64_max s) as [n|] eqn:E; [|reflexivity].
  apply parse_dec_spec in E as [(ds & S & _ & F & _) _]. rewrite Forall_forall in F.
  assert (J : In 44 ds). { destruct S as [->| ->]; [exact I|]. destruct I as [X|X]; [discriminate|exact X]. }
  apply F in J. lia.
Qed.
(** A delay is cut to whole seconds, a date in the range likewise. *)
Theorem C57_delay_round_trip : forall h d, secs d <= u64_max ->
  exists h', retry_apply h (After d) = Ok h' /\ retry_from_headers h' = Ok (Some (After (from_secs (secs d)))).
Proof.
  intros h d L. eexists. split; [reflexivity|]. unfold retry_from_headers. rewrite with_last_apply. unfold retry_parse.
  rewrite parse_show_dec by exact L. reflexivity.
Qed.
Print Assumptions C57_delay_round_trip.
Theorem C57_date_round_trip : forall h t, in_range t ->
  exists h', retry_apply h (At t) = Ok h' /\ retry_from_headers h' = Ok (Some (At (whole_seconds t))).
Proof.
  intros h t R. destruct (fmt_text t R) as (s & F & P & _ & C). exists (apply_value h RETRY_AFTER s).
  unfold retry_apply. cbn [retry_value]. rewrite F. split; [reflexivity|]. unfold retry_from_headers. rewrite with_last_apply.
  unfold retry_parse. rewrite comma_not_dec by exact C. rewrite P. reflexivity.
Qed.
Print Assumptions C57_date_round_trip.
Theorem C57_write_panics : forall h r, retry_apply h r = Panic <-> exists t, r = At t /\ ~ in_range t.
Proof.
  intros h [d|t].
  - split; [discriminate|]. intros (t & X & _). discriminate.
  - assert (X := C72_write_panics Expires h t). unfold date_apply in X. unfold retry_apply. cbn [retry_value].
    destruct (fmt_http_date t) as [s|e|]; cbn [bind] in *.
    + split; [discriminate|]. intros (t' & Y & N). inv Y. apply X in N. discriminate.
    + split; [discriminate|]. intros (t' & Y & N). inv Y. apply X in N. discriminate.
    + split; [|reflexivity]. intros _. exists t. split; [reflexivity|]. apply X. reflexivity.
Qed.
Print Assumptions C57_write_panics.
(** Reading: a number is a delay, a date is a date, everything else is 400. *)
Theorem C57_texts : forall h vs v, h_get h RETRY_AFTER = Some (vs ++ [v]) ->
  (exists n, dec_text v n /\ n <= u64_max /\ retry_from_headers h = Ok (Some (After (from_secs n)))) \/
  ((forall n, dec_text v n -> u64_max < n) /\
   ((exists t, parse_http_date v = Ok t /\ retry_from_headers h = Ok (Some (At t))) \/
    ((forall t, parse_http_date v <> Ok t) /\ retry_from_headers h = Err 400))).
Proof.
  intros h vs v H. unfold retry_from_headers. rewrite (with_last_snoc _ h RETRY_AFTER vs v retry_parse H). unfold retry_parse.
  assert (S := parse_dec_spec u64_max v). destruct (parse_uint 10 u64_max v) as [n|].
  - left. exists n. destruct (proj1 (S n) eq_refl) as [D L]. auto.
  - right. split.
    + intros n D. destruct (N.lt_ge_cases u64_max n) as [|L]; [assumption|]. assert (X := proj2 (S n) (conj D L)). discriminate.
    + destruct (DateProps.C04_date_parse_total v) as [(t & -> & _)| ->].
      * left. eexists. split; reflexivity.
      * right. split; [discriminate|reflexivity].
Qed.
Print Assumptions C57_texts.
Example C57_example : retry_from_headers [(RETRY_AFTER, [lit "120"])] = Ok (Some (After (from_secs 120))) /\
  retry_from_headers [(RETRY_AFTER, [lit "120"; lit "Fri, 31 Dec 1999 23:59:59 GMT"])] = Ok (Some (At (946684799 * NANOS)%Z)) /\
  retry_from_headers [(RETRY_AFTER, [lit "-1"])] = Err 400 /\ retry_from_headers [(RETRY_AFTER, [lit " 1"])] = Err 400 /\
  retry_apply [] (At (-1)%Z) = Panic.
Proof. vm_compute. auto. Qed.

(** ** C58 *)
Theorem C58_only_100_continue : forall h vs v, h_get h EXPECT = Some (vs ++ [v]) ->
  (v = lit "100-continue" /\ expect_from_headers h = Ok (Some tt)) \/
  (v <> lit "100-continue" /\ expect_from_headers h = Err 400).
Proof.
  intros h vs v H. unfold expect_from_headers. erewrite with_last_snoc by exact H.
  destruct (seqb_spec v (lit "100-continue")); [left|right]; auto.
Qed.
Print Assumptions C58_only_100_continue.
Theorem C58_round_trip : forall h, expect_from_headers (expect_apply h) = Ok (Some tt).
Proof. intros h. unfold expect_from_headers, expect_apply. rewrite with_last_apply. reflexivity. Qed.
Print Assumptions C58_round_trip.
(** RFC 7231 section 5.1.1 makes the expectation case-insensitive; the code does not. *)
Example C58_example : expect_from_headers [(EXPECT, [lit "100-Continue"])] = Err 400 /\
  expect_from_headers [(EXPECT, [lit "x"; lit "100-continue"])] = Ok (Some tt) /\
  expect_from_headers [(EXPECT, [lit "100-continue"; lit "x"])] = Err 400 /\ expect_from_headers [] = Ok None.
Proof. vm_compute. auto. Qed.

(** ** C59 *)
Lemma method_text : forall m, clean (method_str m) = true /\ method_from_str (method_str m) = Ok m.
Proof. intros []; vm_compute; auto. Qed.
Lemma method_eqb_iff : forall a b, method_eqb a b = true <-> a = b.
Proof.
  intros a b. unfold method_eqb. rewrite seqb_eq. split; [|congruence]. intros E.
  destruct (method_text a) as [_ A], (method_text b) as [_ B]. rewrite E in A. congruence.
Qed.
Lemma allow_read_ext : forall ps qs s, map trim ps = map trim qs -> allow_read ps s = allow_read qs s.
Proof.
  induction ps as [|p ps IH]; intros [|q qs] s E; try discriminate; [reflexivity|]. cbn [map allow_read] in *.
  injection E as E1 E2. rewrite E1. destruct (method_from_str (trim q)); cbn [bind]; auto.
Qed.
Lemma allow_read_methods : forall l s, NoDup s -> exists s', allow_read (map method_str l) s = Ok s' /\ NoDup s' /\
  forall m, In m s' <-> In m s \/ In m l.
Proof.
  induction l as [|m l IH]; intros s N; cbn [map allow_read].
  - exists s. split; [reflexivity|]. split; [exact N|]. intros m. cbn [In]. tauto.
  - destruct (method_text m) as [C E]. apply andb_true_iff in C as [_ C]. rewrite trim_id by exact C. rewrite E. cbn [bind].
    assert (X : NoDup (set_insert m s) /\ forall x, In x (set_insert m s) <-> In x s \/ x = m).
    { unfold set_insert. destruct (existsb (method_eqb m) s) eqn:D.
      - split; [exact N|]. intros x. split; [auto|]. intros [| ->]; [assumption|].
        apply existsb_exists in D as (y & I & Y). apply method_eqb_iff in Y. now subst y.
      - split.
        + constructor; [|exact N]. intros I. assert (T : existsb (method_eqb m) s = true); [|congruence].
          apply existsb_exists. exists m. split; [exact I|]. now apply method_eqb_iff.
        + intros x. cbn [In]. split; intros [|]; auto. }
    destruct X as [N' I']. destruct (IH _ N') as (s' & R & N2 & I2). exists s'. split; [exact R|]. split; [exact N2|].
    intros x. rewrite I2, I'. cbn [In]. intuition.
Qed.
(** Any non-empty set written in any order is read back with the same members, each once. *)
Theorem C59_round_trip_partial : forall h order, order <> [] ->
  exists s, allow_from_headers (allow_apply h order) = Ok (Some s) /\ NoDup s /\ forall m, In m s <-> In m order.
Proof.
  intros h order N. unfold allow_from_headers, allow_apply. rewrite with_all_apply.
  unfold comma_parts, allow_value. cbn [flat_map]. rewrite app_nil_r.
  rewrite (allow_read_ext _ (map method_str order)).
  - destruct (allow_read_methods order [] (NoDup_nil _)) as (s & R & D & I). exists s. rewrite R. split; [reflexivity|].
    split; [exact D|]. intros m. rewrite I. cbn [In]. tauto.
  - change c_comma with 44. rewrite pieces_text.
    + rewrite map_map. apply map_ext. intros m. symmetry. apply trim_id. destruct (method_text m) as [C _].
      now apply andb_true_iff in C as [_ C].
    + destruct order; [congruence|discriminate].
    + rewrite forallb_forall. intros x I. apply in_map_iff in I as (m & <- & _). apply method_text.
Qed.
Print Assumptions C59_round_trip_partial.
(** False of the code: the empty set, which RFC 7231 allows, is written as an empty value that cannot be read. *)
Theorem C59_empty_set_refuted : exists order, NoDup order /\ forall h, allow_from_headers (allow_apply h order) = Err 500.
Proof.
  exists []. split; [constructor|]. intros h. unfold allow_from_headers, allow_apply. rewrite with_all_apply. reflexivity.
Qed.
Print Assumptions C59_empty_set_refuted.
(** Reading never panics; the only error is that of an unknown method name, and its status is 500. *)
Theorem C59_read_total : forall h, (exists s, allow_from_headers h = Ok s) \/ allow_from_headers h = Err 500.
Proof.
  intros h. unfold allow_from_headers, with_all. destruct (h_get h ALLOW) as [vs|]; [|left; eexists; reflexivity].
  generalize (comma_parts vs) as ps, (@nil method) as s. induction ps as [|p ps IH]; intros s; cbn [allow_read].
  - left. eexists. reflexivity.
  - unfold method_from_str. destruct (lookup_method method_table (to_upper (trim p))); cbn [ok_or bind]; auto.
Qed.
Print Assumptions C59_read_total.
Example C59_example : allow_value [M_Put; M_Get] = lit "PUT, GET" /\
  allow_from_headers [(ALLOW, [lit " get,PUT "; lit "Get"])] = Ok (Some [M_Put; M_Get]) /\
  allow_from_headers [(ALLOW, [lit "FROB"])] = Err 500.
Proof. vm_compute. auto. Qed.

(** ** C60 *)
Lemma hsts_age_part : forall n, n <= u64_max -> forall st ps, hsts_read ((lit "max-age=" ++ show_dec n) :: ps) st =
  hsts_read ps (let '(_, s, p) := st in (Some (from_secs n), s, p)).
Proof.
  intros n L [[a s] p] ps. cbn [hsts_read].
  assert (E : trim (lit "max-age=" ++ show_dec n) = lit "max-age=" ++ show_dec n).
  { apply trim_id. unfold no_edge. rewrite rev_app_distr.
    change (lit "max-age=" ++ show_dec n) with (109 :: (lit "ax-age=" ++ show_dec n)). cbv iota. change (is_ws 109) with false.
    assert (D := show_dec_digits n). assert (N := show_dec_nonempty n).
    destruct (rev (show_dec n)) as [|c r] eqn:R; [elim N; rewrite <- (rev_involutive (show_dec n)), R; reflexivity|].
    rewrite forallb_forall in D. assert (I : In c (show_dec n)) by (apply in_rev; rewrite R; left; reflexivity).
    cbn [app]. rewrite (digit_not_ws c (D _ I)). reflexivity. }
  rewrite E. change (lit "max-age=" ++ show_dec n) with (lit "max-age" ++ 61 :: show_dec n).
  rewrite (proj2 (seqb_neq _ (lit "includesubdomains"))) by (intros X; discriminate X).
  rewrite (proj2 (seqb_neq _ (lit "preload"))) by (intros X; discriminate X).
  change c_eq with 61. rewrite split_once_app by reflexivity. rewrite seqb_refl. rewrite parse_show_dec by exact L. reflexivity.
Qed.
(** What is read back: the age in whole seconds, the preload flag, and never the sub-domain flag. *)
Theorem C60_reads_back_partial : forall h s, secs (max_age s) <= u64_max ->
  hsts_from_headers (hsts_apply h s) = Ok (Some (Hsts (from_secs (secs (max_age s))) false (preload s))).
Proof.
  intros h [d sub pre] L. cbn [max_age preload] in *. unfold hsts_from_headers, hsts_apply. rewrite with_last_apply.
  unfold hsts_parse, hsts_value. cbn [max_age include_subdomains preload]. change c_semi with 59.
  assert (D : no_char 59 (lit "max-age=" ++ show_dec (secs d)) = true).
  { rewrite no_char_app. rewrite show_dec_no_char by reflexivity. reflexivity. }
  rewrite app_assoc. destruct sub, pre; cbn [app]; rewrite ?app_nil_r.
  - change (lit ";includeSubdomains" ++ lit ";preload") with (59 :: lit "includeSubdomains;preload").
    rewrite split_app, hsts_age_part by assumption. reflexivity.
  - change (lit ";includeSubdomains") with (59 :: lit "includeSubdomains").
    rewrite split_app, hsts_age_part by assumption. reflexivity.
  - change (lit ";preload") with (59 :: lit "preload").
    rewrite split_app, hsts_age_part by assumption. reflexivity.
  - rewrite split_no_char, hsts_age_part by assumption. reflexivity.
Qed.
Print Assumptions C60_reads_back_partial.
(** False of the code: a policy covering sub-domains is read back as one that does not. *)
Theorem C60_round_trip_refuted : exists s, include_subdomains s = true /\ forall h,
  hsts_from_headers (hsts_apply h s) = Ok (Some (Hsts (max_age s) false (preload s))).
Proof.
  exists (Hsts (from_secs 31536000) true true). split; [reflexivity|]. intros h.
  apply C60_reads_back_partial. vm_compute. discriminate.
Qed.
Print Assumptions C60_round_trip_refuted.
Theorem C60_read_total : forall h vs v, h_get h STRICT_TRANSPORT_SECURITY = Some (vs ++ [v]) ->
  (exists s, hsts_from_headers h = Ok (Some s)) \/ hsts_from_headers h = Err 400.
Proof.
  intros h vs v H. unfold hsts_from_headers. rewrite (with_last_snoc _ h STRICT_TRANSPORT_SECURITY vs v hsts_parse H). unfold hsts_parse.
  assert (X : forall ps st, (exists st', hsts_read ps st = Ok st') \/ hsts_read ps st = Err 400).
  { induction ps as [|p ps IH]; intros [[a s] b]; cbn [hsts_read]; [left; eexists; reflexivity|].
    destruct (seqb _ _); [apply IH|]. destruct (seqb _ _); [apply IH|]. destruct (split_once c_eq (trim p)) as [[k w]|]; [|apply IH].
    destruct (seqb k _); [|apply IH]. destruct (parse_uint 10 u64_max w); cbn [ok_or bind]; [apply IH|right; reflexivity]. }
  destruct (X (split c_semi v) (None, false, false)) as [([[[a|] s] p] & ->)| ->]; cbn [bind]; [left; eexists; reflexivity|right; reflexivity|right; reflexivity].
Qed.
Print Assumptions C60_read_total.
(** RFC 6797 section 6.1: directive names are case-insensitive; only the lower-case spelling is understood. *)
Example C60_example : hsts_value (Hsts (from_secs 2592000) true false) = lit "max-age=2592000;includeSubdomains" /\
  hsts_from_headers [(STRICT_TRANSPORT_SECURITY, [lit "max-age=1; includesubdomains ;preload"])] = Ok (Some (Hsts (from_secs 1) true true)) /\
  hsts_from_headers [(STRICT_TRANSPORT_SECURITY, [lit "Max-Age=1"])] = Err 400 /\
  hsts_from_headers [(STRICT_TRANSPORT_SECURITY, [lit "max-age=1; includeSubDomains"])] = Ok (Some (Hsts (from_secs 1) false false)).
Proof. vm_compute. auto. Qed.

(** ** C73: headers holding a URL, for any URL library whose printed URLs parse back. *)
Section Url.
  Context {url : Type} (url_parse : str -> option url) (url_join : url -> str -> option url) (url_show : url -> str).
  (** The contract of the url crate used here: a serialised URL is absolute, so it parses back, alone or against
      any base, and has no blanks at its ends; the empty text, ["*"] and ["null"] in quotes are not absolute URLs. *)
  Definition url_contract : Prop :=
    (forall u, url_parse (url_show u) = Some u) /\ (forall b u, url_join b (url_show u) = Some u) /\
    (forall u, no_edge is_ws (url_show u) = true) /\
    url_parse [] = None /\ url_parse (lit "*") = None /\ url_parse (lit """null""") = None.

  Theorem C73_location_round_trip : url_contract -> forall h b u,
    location_from_headers url_join (Some b) (location_apply url_show h u) = Ok (Some u).
  Proof.
    intros (_ & J & E & _) h b u. unfold location_from_headers, location_apply. rewrite with_last_apply.
    rewrite trim_id by apply E. rewrite J. reflexivity.
  Qed.
  Theorem C73_location_texts : forall b h vs v, h_get h CONTENT_LOCATION = Some (vs ++ [v]) ->
    (exists u, (exists x, b = Some x /\ url_join x (trim v) = Some u) /\ location_from_headers url_join b h = Ok (Some u)) \/
    ((forall x, b = Some x -> url_join x (trim v) = None) /\ location_from_headers url_join b h = Err 400).
  Proof.
    intros b h vs v H. unfold location_from_headers. erewrite with_last_snoc by exact H.
    destruct b as [x|]; [destruct (url_join x (trim v)) as [u|] eqn:J|].
    - left. exists u. split; [|reflexivity]. exists x. auto.
    - right. split; [|reflexivity]. intros y Y. now inv Y.
    - right. split; [discriminate|reflexivity].
  Qed.
  Theorem C73_reference_round_trip : url_contract -> forall r h b u,
    reference_from_headers url_parse url_join r b (reference_apply url_show r h u) = Ok (Some u).
  Proof.
    intros (P & _) r h b u. unfold reference_from_headers, reference_apply. rewrite with_last_apply.
    rewrite P. reflexivity.
  Qed.
  (** An absolute URL ignores the base; a relative one needs it; failures are reported as 500 although the text
      came from the peer. *)
  Theorem C73_reference_texts : forall r b h vs v, h_get h (reference_name r) = Some (vs ++ [v]) ->
    reference_from_headers url_parse url_join r b h =
    match url_parse v, b with
    | Some u, _ => Ok (Some u)
    | None, Some x => match url_join x (trim v) with Some u => Ok (Some u) | None => Err 500 end
    | None, None => Err 500
    end.
  Proof.
    intros r b h vs v H. unfold reference_from_headers. erewrite with_last_snoc by exact H.
    destruct (url_parse v); [reflexivity|]. destruct b as [x|]; [|reflexivity]. destruct (url_join x (trim v)); reflexivity.
  Qed.

  Lemma trim_start_shown : forall s, no_edge is_ws s = true -> trim_start_matches is_ws s = s.
  Proof.
    intros [|c s] H; [reflexivity|]. unfold no_edge in H. apply andb_true_iff in H as [H _].
    unfold trim_start_matches. apply drop_while_none. exact H.
  Qed.
  Lemma origins_read_ext : forall ps qs, map (trim_start_matches is_ws) ps = map (trim_start_matches is_ws) qs ->
    origins_read url_parse ps = origins_read url_parse qs.
  Proof.
    induction ps as [|p ps IH]; intros [|q qs] E; try discriminate; [reflexivity|]. cbn [map origins_read] in *.
    injection E as E1 E2. rewrite E1, (IH _ E2). reflexivity.
  Qed.
  Lemma origins_read_shown : url_contract -> forall us (tail : list str),
    origins_read url_parse (map url_show us ++ tail) =
    let* (vs, w) := origins_read url_parse tail in Ok (us ++ vs, w).
  Proof.
    intros (P & _ & E & _ & S & Q) us tail. induction us as [|u us IH].
    - cbn [map app]. destruct (origins_read url_parse tail) as [[vs w]| |]; reflexivity.
    - cbn [map app origins_read]. rewrite trim_start_shown by apply E.
      destruct (seqb_spec (url_show u) (lit "*")) as [X|_]; [rewrite <- X, P in S; discriminate|].
      destruct (seqb_spec (url_show u) (lit """null""")) as [X|_]; [rewrite <- X, P in Q; discriminate|].
      rewrite P. cbn [ok_or bind]. rewrite IH. destruct (origins_read url_parse tail) as [[vs w]| |]; reflexivity.
  Qed.
  Lemma split_list : forall (l : list str), l <> [] -> Forall (fun t => no_char 44 t = true /\ no_edge is_ws t = true) l ->
    map (trim_start_matches is_ws) (split 44 (join (lit ", ") l)) = map (trim_start_matches is_ws) l.
  Proof.
    intros [|x l] N F; [congruence|]. change (lit ", ") with [44; 32]. rewrite split_join_space.
    - cbn [map]. f_equal. rewrite map_map. apply map_ext. intros t. reflexivity.
    - reflexivity.
    - eapply Forall_impl; [|exact F]. intros t T. apply T.
  Qed.
  (** Lists of origins come back in order, provided no URL contains a comma and something is listed. *)
  Theorem C73_origins_round_trip_partial : url_contract -> forall h us (w : bool),
    Forall (fun u => no_char 44 (url_show u) = true) us -> us <> [] \/ w = true ->
    origins_from_headers url_parse (origins_apply url_show h (us, w)) = Ok (Some (us, w)).
  Proof.
    intros C h us w F N. unfold origins_from_headers, origins_apply. rewrite with_all_apply. cbn [flat_map]. rewrite app_nil_r.
    assert (V : origins_value url_show (us, w) = join (lit ", ") (map url_show us ++ if w then [lit "*"] else [])).
    { unfold origins_value, list_value. cbn [fst snd]. destruct w; [|now rewrite app_nil_r].
      destruct us as [|u us]; [reflexivity|].
      assert (J : forall x (l : list str), join (lit ", ") (x :: l ++ [lit "*"]) = join (lit ", ") (x :: l) ++ lit ", " ++ lit "*").
      { intros x l. revert x. induction l as [|y l IH]; intros x; [reflexivity|].
        change (join (lit ", ") (x :: (y :: l) ++ [lit "*"])) with (x ++ lit ", " ++ join (lit ", ") (y :: l ++ [lit "*"])).
        rewrite IH. change (join (lit ", ") (x :: y :: l)) with (x ++ lit ", " ++ join (lit ", ") (y :: l)). now rewrite <- !app_assoc. }
      cbn [map]. change ((url_show u :: map url_show us) ++ [lit "*"]) with (url_show u :: map url_show us ++ [lit "*"]). rewrite J.
      destruct (join (lit ", ") (url_show u :: map url_show us)) eqn:E; [|reflexivity].
      exfalso. destruct C as (P & _ & _ & Z & _). assert (X : url_show u = []).
      { destruct us; [exact E|]. change (url_show u ++ lit ", " ++ join (lit ", ") (map url_show (u0 :: us)) = []) in E.
        now apply app_eq_nil in E. }
      rewrite <- X, P in Z. discriminate. }
    rewrite V. change c_comma with 44.
    rewrite (origins_read_ext _ (map url_show us ++ if w then [lit "*"] else [])).
    - rewrite origins_read_shown by exact C. destruct w; cbn [origins_read].
      + change (seqb (trim_start_matches is_ws (lit "*")) (lit "*")) with true. cbn [bind]. now rewrite app_nil_r.
      + cbn [bind]. now rewrite app_nil_r.
    - apply split_list.
      + destruct N as [N|N]; [destruct us; [congruence|discriminate]|]. subst w. destruct us; discriminate.
      + apply Forall_app. split; [|destruct w; repeat constructor].
        apply Forall_forall. intros t T. apply in_map_iff in T as (u & <- & U). rewrite Forall_forall in F. split; [now apply F|apply C].
  Qed.
  (** The empty list is written as an empty value, which is refused. *)
  Theorem C73_origins_empty : url_contract -> forall h, origins_from_headers url_parse (origins_apply url_show h ([], false)) = Err 400.
  Proof.
    intros (_ & _ & _ & Z & _) h. unfold origins_from_headers, origins_apply. rewrite with_all_apply.
    change (flat_map (split c_comma) [origins_value url_show ([], false)]) with [@nil N]. cbn [origins_read].
    change (trim_start_matches is_ws []) with (@nil N). change (seqb [] (lit "*")) with false. change (seqb [] (lit """null""")) with false.
    rewrite Z. reflexivity.
  Qed.
  Theorem C73_origins_total : forall h,
    (exists a, origins_from_headers url_parse h = Ok a) \/ origins_from_headers url_parse h = Err 400.
  Proof.
    intros h. unfold origins_from_headers, with_all. destruct (h_get h TIMING_ALLOW_ORIGIN) as [vs|]; [|left; eexists; reflexivity].
    assert (X : forall ps, (exists a, origins_read url_parse ps = Ok a) \/ origins_read url_parse ps = Err 400).
    { induction ps as [|p ps IH]; cbn [origins_read]; [left; eexists; reflexivity|].
      destruct (seqb _ _); [destruct IH as [([us w] & ->)| ->]; [left; eexists; reflexivity|right; reflexivity]|].
      destruct (seqb _ _); [exact IH|]. destruct (url_parse _); cbn [ok_or bind]; [|right; reflexivity].
      destruct IH as [([us w] & ->)| ->]; [left; eexists; reflexivity|right; reflexivity]. }
    destruct (X (flat_map (split c_comma) vs)) as [([us w] & ->)| ->]; [left; eexists; reflexivity|right; reflexivity].
  Qed.
End Url.
Print Assumptions C73_location_round_trip.
Print Assumptions C73_location_texts.
Print Assumptions C73_reference_round_trip.
Print Assumptions C73_reference_texts.
Print Assumptions C73_origins_round_trip_partial.
Print Assumptions C73_origins_empty.
Print Assumptions C73_origins_total.

(** A URL library satisfying the contract, small enough to compute with: a URL is what stands between
    [https://h/] and a final slash. *)
Definition toy_show (u : str) : str := lit "https://h/" ++ u ++ lit "/".
Definition toy_parse (s : str) : option str :=
  match strip_prefix (lit "https://h/") s with Some r => strip_suffix (lit "/") r | None => None end.
Lemma toy_contract : url_contract toy_parse (fun _ => toy_parse) toy_show.
Proof.
  assert (P : forall u, toy_parse (toy_show u) = Some u).
  { intros u. unfold toy_parse, toy_show. now rewrite strip_prefix_app, strip_suffix_app. }
  split; [exact P|]. split; [intros _; exact P|]. split; [|vm_compute; auto].
  intros u. unfold toy_show, no_edge. rewrite !rev_app_distr. reflexivity.
Qed.
(** The url crate leaves commas in paths as they are, so such an origin is cut in two. *)
Theorem C73_origins_comma_refuted : exists (url : Type) (p : str -> option url) (j : url -> str -> option url) (s : url -> str) (u : url),
  url_contract p j s /\ forall h, origins_from_headers p (origins_apply s h ([u], false)) = Err 400.
Proof.
  exists str, toy_parse, (fun _ => toy_parse), toy_show, (lit "a,b"). split; [exact toy_contract|].
  intros h. unfold origins_from_headers, origins_apply. rewrite with_all_apply. vm_compute. reflexivity.
Qed.
Print Assumptions C73_origins_comma_refuted.
Example C73_example :
  origins_value toy_show ([lit "a"; lit "b"], true) = lit "https://h/a/, https://h/b/, *" /\
  origins_from_headers toy_parse [(TIMING_ALLOW_ORIGIN, [lit "https://h/a/"; lit "*,""null"", https://h/b/"])] = Ok (Some ([lit "a"; lit "b"], true)) /\
  reference_from_headers toy_parse (fun b r => Some (b ++ r)) Referer (Some (lit "x")) [(lit "referer", [lit " y "])] = Ok (Some (lit "xy")) /\
  reference_from_headers toy_parse (fun b r => Some (b ++ r)) Referer None [(lit "referer", [lit " y "])] = Err 500 /\
  location_from_headers (fun b r => Some (b ++ r)) (@None str) [(CONTENT_LOCATION, [lit "y"])] = Err 400.
Proof. vm_compute. auto 6. Qed.
