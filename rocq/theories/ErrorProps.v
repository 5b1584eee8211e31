(** C79: which status a header that cannot be read is reported with, and which readers can panic. *)
From Verif Require Import Base BaseFacts Headers HeadersFacts Typed TypedFacts Conditional ConditionalProps Cache CacheProps Auth AuthProps
  Float FloatFacts Mime MimeFacts MimeProps Negotiate NegotiateFacts NegotiateProps HttpDate Method EnumProps Other OtherProps Trace TraceProps Timing TimingProps ParseUtils Forwarded ForwardedProps.
From Coq Require Import ZifyBool ZifyNat ZifyN.
From Verif Require DateProps.

(** [fails_with f S]: the statuses of the errors of [f] are exactly those in [S]. *)
Definition fails_with {A} (f : headers -> outcome (option A)) (S : list N) : Prop :=
  (forall h e, f h = Err e -> In e S) /\ (forall e, In e S -> exists h, f h = Err e).
(** No header is stored without a value: what every use of the header map guarantees except inserting an empty list. *)
Definition stored (h : headers) : Prop := forall n vs, h_get h n = Some vs -> vs <> [].
Definition safe {A} (f : headers -> outcome (option A)) : Prop := forall h, stored h -> f h <> Panic.
(** The header alone, with one value. *)
Definition only (n v : str) : headers := [(n, [v])].

(** [errs S o]: an error of [o] has a status in [S]. *)
Definition errs {A} (S : list N) (o : outcome A) : Prop := forall e, o = Err e -> In e S.
Lemma errs_ok : forall A S (a : A), errs S (Ok a).
Proof. intros A S a e H. discriminate H. Qed.
Lemma errs_panic : forall A S, errs S (@Panic A).
Proof. intros A S e H. discriminate H. Qed.
Lemma errs_err : forall A S e, In e S -> errs S (@Err A e).
Proof. intros A S e I x H. injection H as <-. exact I. Qed.
Lemma errs_bind : forall A B S (o : outcome A) (k : A -> outcome B), errs S o -> (forall a, o = Ok a -> errs S (k a)) -> errs S (bind o k).
Proof. intros A B S o k H K e E. destruct o as [a|x|]; cbn [bind] in E; [exact (K a eq_refl e E)|apply H; congruence|discriminate E]. Qed.
Lemma errs_ok_or : forall A S n (o : option A), In n S -> errs S (ok_or n o).
Proof. intros A S n [a|] I e E; cbn [ok_or] in E; [discriminate E|injection E as <-; exact I]. Qed.
Lemma errs_status : forall A S n (o : outcome A), In n S -> errs S (with_status n o).
Proof. intros A S n [a|x|] I e E; cbn [with_status] in E; [discriminate E|injection E as <-; exact I|discriminate E]. Qed.
Lemma errs_unwrap : forall A S (o : option A), errs S (unwrap o).
Proof. intros A S [a|] e E; discriminate E. Qed.
Lemma errs_first : forall S vs, errs S (values_first vs).
Proof. intros S [|v vs] e E; discriminate E. Qed.
Lemma errs_last : forall S vs, errs S (values_last vs).
Proof. intros S vs e E. unfold values_last in E. destruct (rev vs); discriminate E. Qed.
Lemma errs_with_last : forall A S h n (k : str -> outcome A), (forall v, errs S (k v)) -> errs S (with_last h n k).
Proof.
  intros A S h n k K. unfold with_last. destruct (h_get h n); [|apply errs_ok]. apply errs_bind; [apply errs_last|]. intros v _.
  apply errs_bind; [apply K|]. intros; apply errs_ok.
Qed.
Lemma errs_with_all : forall A S h n (k : header_values -> outcome A), (forall v, errs S (k v)) -> errs S (with_all h n k).
Proof.
  intros A S h n k K. unfold with_all. destruct (h_get h n); [|apply errs_ok]. apply errs_bind; [apply K|]. intros; apply errs_ok.
Qed.
Lemma with_last_safe : forall A n (k : str -> outcome A), (forall v, k v <> Panic) -> safe (fun h => with_last h n k).
Proof.
  intros A n k K h T. unfold with_last. destruct (h_get h n) as [vs|] eqn:G; [|discriminate]. apply T in G.
  destruct (exists_last G) as (r & v & ->). unfold values_last. rewrite rev_app_distr. cbn [rev app bind]. specialize (K v). destruct (k v); cbn [bind]; congruence.
Qed.
(** Walks through a computation. *)
Ltac walk :=
  repeat first
    [ apply errs_ok | apply errs_panic | (apply errs_err; cbn [In]; tauto) | (apply errs_ok_or; cbn [In]; tauto) | (apply errs_status; cbn [In]; tauto)
    | apply errs_unwrap | apply errs_first | apply errs_last
    | (apply errs_bind; [|intros ? _]) | (apply errs_with_last; intros ?) | (apply errs_with_all; intros ?)
    | match goal with |- errs _ (match ?x with _ => _ end) => destruct x eqn:?X end
    | match goal with |- errs _ (if ?x then _ else _) => destruct x eqn:?X end ].
Ltac member := intros ? I; cbn [In] in I; repeat (destruct I as [<-|I]); try destruct I.

(** ** Readers that report every malformed header as 400 and never panic. *)
Theorem C79_etag : fails_with etag_from_headers [400] /\ safe etag_from_headers.
Proof.
  split; [split; [intros h; change (errs [400] (etag_from_headers h)); unfold etag_from_headers, etag_from_str; walk|member; exists (only ETAG (lit "x")); vm_compute; reflexivity]|].
  apply with_last_safe. intros v. unfold etag_from_str. repeat match goal with |- context [match ?x with _ => _ end] => destruct x end; discriminate.
Qed.
(** From "with a last value it is read or 400". *)
Lemma last_total : forall A (f : headers -> outcome (option A)) n, (forall h, h_get h n = None -> exists o, f h = Ok o) ->
  (forall h vs v, h_get h n = Some (vs ++ [v]) -> (exists o, f h = Ok o) \/ f h = Err 400) -> safe f.
Proof.
  intros A f n X Y h T. destruct (h_get h n) as [vs|] eqn:G.
  - assert (E := T _ _ G). destruct (exists_last E) as (r & v & ->). destruct (Y h r v G) as [(o & ->)| ->]; discriminate.
  - destruct (X h G) as (o & ->). discriminate.
Qed.
Lemma total_safe : forall A (f : headers -> outcome (option A)) s, (forall h, (exists o, f h = Ok o) \/ f h = Err s) -> safe f.
Proof. intros A f s H h _. destruct (H h) as [(o & ->)| ->]; discriminate. Qed.
Lemma total_errs : forall A (f : headers -> outcome (option A)) s, (forall h, (exists o, f h = Ok o) \/ f h = Err s) -> forall h e, f h = Err e -> In e [s].
Proof. intros A f s H h e E. destruct (H h) as [(o & X)|X]; rewrite X in E; [discriminate E|injection E as <-; left; reflexivity]. Qed.
Theorem C79_conditions : forall k, fails_with (cond_from_headers k) [400] /\ safe (cond_from_headers k).
Proof.
  intros k. split; [|eapply total_safe; apply C40_total]. split; [apply total_errs, C40_total|]. member. exists (only (cond_name k) (lit "x")). destruct k; vm_compute; reflexivity.
Qed.
Theorem C79_cache_control : fails_with cache_from_headers [400] /\ safe cache_from_headers.
Proof.
  split; [|eapply total_safe; apply C42_total]. split; [apply total_errs, C42_total|]. member. exists (only CACHE_CONTROL (lit "max-age=x")). vm_compute. reflexivity.
Qed.
Theorem C79_authorization : fails_with auth_from_headers [400] /\ safe auth_from_headers.
Proof.
  split; [split; [intros h; change (errs [400] (auth_from_headers h)); unfold auth_from_headers, auth_parse, scheme_from_str; walk|member; exists (only AUTHORIZATION (lit "x")); vm_compute; reflexivity]|].
  apply (last_total _ _ AUTHORIZATION).
  - intros h G. unfold auth_from_headers, with_last. rewrite G. eauto.
  - intros h vs v G. destruct (C46_total h vs v G) as [(a & E)|E]; eauto.
Qed.
Theorem C79_basic : fails_with basic_from_headers [400] /\ safe basic_from_headers.
Proof.
  split; [split; [|member; exists (only AUTHORIZATION (lit "x")); vm_compute; reflexivity]|].
  - intros h. change (errs [400] (basic_from_headers h)). unfold basic_from_headers, auth_from_headers, auth_parse, scheme_from_str, basic_from_credentials. walk.
  - apply (last_total _ _ AUTHORIZATION).
    + intros h G. unfold basic_from_headers, auth_from_headers, with_last. rewrite G. cbn [bind]. eauto.
    + intros h vs v G. destruct (C45_total h vs v G) as [(a & E)|E]; eauto.
Qed.
Theorem C79_challenge : fails_with www_from_headers [400] /\ safe www_from_headers.
Proof.
  split; [split; [intros h; change (errs [400] (www_from_headers h)); unfold www_from_headers, www_parse, scheme_from_str; walk|member; exists (only WWW_AUTHENTICATE (lit "x")); vm_compute; reflexivity]|].
  apply (last_total _ _ WWW_AUTHENTICATE).
  - intros h G. unfold www_from_headers, with_last. rewrite G. eauto.
  - intros h vs v G. destruct (C47_total h vs v G) as [(a & E)|E]; eauto.
Qed.
Theorem C79_content_length : fails_with length_from_headers [400] /\ safe length_from_headers.
Proof.
  split; [split; [intros h; change (errs [400] (length_from_headers h)); unfold length_from_headers, length_parse; walk|member; exists (only CONTENT_LENGTH (lit "x")); vm_compute; reflexivity]|].
  apply with_last_safe. intros v. unfold length_parse. destruct (parse_uint _ _ _); discriminate.
Qed.
Theorem C79_content_type : fails_with ctype_from_headers [400] /\ safe ctype_from_headers.
Proof.
  split; [split; [intros h; change (errs [400] (ctype_from_headers h)); unfold ctype_from_headers, ctype_parse; walk|member; exists (only CONTENT_TYPE (lit "x")); vm_compute; reflexivity]|].
  apply with_last_safe. intros v. unfold ctype_parse. destruct (mime_parse_good v) as [(m & -> & _)| ->]; discriminate.
Qed.
Theorem C79_dates : forall d, fails_with (date_from_headers d) [400] /\ safe (date_from_headers d).
Proof.
  intros d. assert (T : forall v, (exists t, date_parse d v = Ok t) \/ date_parse d v = Err 400).
  { intros v. assert (X : exists w, date_parse d v = parse_http_date w) by (destruct d; [exists v| exists v| exists v| exists v|exists (trim v); apply date_header_parse]; reflexivity).
    destruct X as (w & ->). destruct (DateProps.C04_date_parse_total w) as [(n & -> & R)| ->]; eauto. }
  split; [split|].
  - intros h. change (errs [400] (date_from_headers d h)). apply errs_with_last. intros v e E. destruct (T v) as [(t & X)|X]; rewrite X in E; [discriminate E|injection E as <-; left; reflexivity].
  - member. exists (only (date_name d) (lit "x")). destruct d; vm_compute; reflexivity.
  - apply with_last_safe. intros v. destruct (T v) as [(t & X)|X]; rewrite X; discriminate.
Qed.
Theorem C79_retry_after : fails_with retry_from_headers [400] /\ safe retry_from_headers.
Proof.
  assert (T : forall v, (exists t, retry_parse v = Ok t) \/ retry_parse v = Err 400).
  { intros v. unfold retry_parse. destruct (parse_uint _ _ _); [eauto|]. destruct (DateProps.C04_date_parse_total v) as [(n & -> & R)| ->]; cbn [bind]; eauto. }
  split; [split|].
  - intros h. change (errs [400] (retry_from_headers h)). apply errs_with_last. intros v e E. destruct (T v) as [(t & X)|X]; rewrite X in E; [discriminate E|injection E as <-; left; reflexivity].
  - member. exists (only RETRY_AFTER (lit "x")). vm_compute. reflexivity.
  - apply with_last_safe. intros v. destruct (T v) as [(t & X)|X]; rewrite X; discriminate.
Qed.
Theorem C79_expect : fails_with expect_from_headers [400] /\ safe expect_from_headers.
Proof.
  split; [split; [intros h; change (errs [400] (expect_from_headers h)); unfold expect_from_headers; walk|member; exists (only EXPECT (lit "x")); vm_compute; reflexivity]|].
  apply with_last_safe. intros v. destruct (seqb _ _); discriminate.
Qed.
Theorem C79_hsts : fails_with hsts_from_headers [400] /\ safe hsts_from_headers.
Proof.
  split; [split|].
  - intros h. change (errs [400] (hsts_from_headers h)). apply errs_with_last. intros v. unfold hsts_parse. apply errs_bind; [|intros [[[a|] s] p] _; walk].
    generalize (None : option duration, false, false) as st. induction (split c_semi v) as [|p ps IH]; intros [[a s] b]; cbn [hsts_read]; [apply errs_ok|].
    destruct (seqb _ _); [apply IH|]. destruct (seqb _ _); [apply IH|]. destruct (split_once c_eq (trim p)) as [[k w]|]; [|apply IH].
    destruct (seqb _ _); [|apply IH]. apply errs_bind; [apply errs_ok_or; left; reflexivity|]. intros n _. apply IH.
  - member. exists (only STRICT_TRANSPORT_SECURITY (lit "x")). vm_compute. reflexivity.
  - apply (last_total _ _ STRICT_TRANSPORT_SECURITY).
    + intros h G. unfold hsts_from_headers, with_last. rewrite G. eauto.
    + intros h vs v G. destruct (C60_read_total h vs v G) as [(a & E)|E]; eauto.
Qed.
(** URL-valued headers; [url_parse] and [url_join] are whatever the url crate does, as long as something is refused. *)
Theorem C79_content_location : forall url (join : url -> str -> option url) base,
  (forall h e, location_from_headers join base h = Err e -> e = 400) /\ safe (location_from_headers join base).
Proof.
  intros url join base. split.
  - intros h e E. assert (X : errs [400] (location_from_headers join base h)) by (unfold location_from_headers; walk). apply X in E as [<-|[]]. reflexivity.
  - apply with_last_safe. intros v. destruct base as [b|]; [destruct (join b (trim v))|]; discriminate.
Qed.
Theorem C79_origins : forall url (parse : str -> option url),
  (forall h e, origins_from_headers parse h = Err e -> e = 400) /\ safe (origins_from_headers parse).
Proof.
  intros url parse. split; [|eapply total_safe; apply C73_origins_total].
  intros h e E. destruct (C73_origins_total parse h) as [(a & X)|X]; congruence.
Qed.
Lemma ascii_split : forall d s p, is_ascii s = true -> In p (split d s) -> is_ascii p = true.
Proof.
  intros d. induction s as [|c s IH]; intros p A I; cbn [split] in I; [destruct I as [<-|[]]; reflexivity|].
  unfold is_ascii in A. cbn [forallb] in A. apply andb_true_iff in A as [C A]. destruct (c =? d).
  - destruct I as [<-|I]; [reflexivity|]. exact (IH p A I).
  - destruct (split d s) as [|q ps]; [destruct I as [<-|[]]; unfold is_ascii; cbn [forallb]; rewrite C; reflexivity|].
    destruct I as [<-|I]; [|apply IH; [exact A|right; exact I]]. unfold is_ascii. cbn [forallb]. rewrite C. apply IH; [exact A|left; reflexivity].
Qed.
(** Vary: 500 for text that is not ASCII, which a checked header value never is; otherwise everything is accepted. *)
Theorem C79_vary : fails_with vary_from_headers [500] /\ safe vary_from_headers /\
  forall h vs, h_get h VARY = Some vs -> Forall (fun v => is_ascii v = true) vs -> exists v, vary_from_headers h = Ok (Some v).
Proof.
  assert (P : forall p, errs [500] (name_from_str (trim p))) by (intros p; unfold name_from_str; walk).
  split; [split|split].
  - intros h. change (errs [500] (vary_from_headers h)). apply errs_with_all. intros vs.
    generalize (comma_parts vs) as ps. induction ps as [|p ps IH]; cbn [read_parts]; [apply errs_ok|].
    destruct (seqb _ _); [apply errs_bind; [exact IH|intros [? ?] _; apply errs_ok]|].
    apply errs_bind; [apply P|intros ? _]. apply errs_bind; [exact IH|intros [? ?] _; apply errs_ok].
  - member. exists (only VARY [233]). vm_compute. reflexivity.
  - intros h _. apply C41_total.
  - intros h vs G F. unfold vary_from_headers, with_all. rewrite G.
    assert (A : forall p, In p (comma_parts vs) -> is_ascii p = true).
    { intros p I. unfold comma_parts in I. apply in_flat_map in I as (v & Iv & I). rewrite Forall_forall in F. apply F in Iv.
      assert (T : is_ascii (trim v) = true) by (apply is_ascii_trim; exact Iv). apply (ascii_split 44 (trim v) p T I). }
    assert (R : exists r, read_parts (lit "*") (fun p => name_from_str (trim p)) (comma_parts vs) = Ok r).
    { revert A. generalize (comma_parts vs) as ps. induction ps as [|p ps IH]; intros A; [eexists; reflexivity|]. cbn [read_parts].
      destruct IH as ([es w] & E); [intros q I; apply A; right; exact I|]. rewrite E. destruct (seqb _ _); [eexists; reflexivity|].
      unfold name_from_str. rewrite !is_ascii_trim by (try apply is_ascii_trim; apply A; left; reflexivity). eexists. reflexivity. }
    destruct R as (r & ->). eexists. reflexivity.
Qed.

Print Assumptions C79_etag.
Print Assumptions C79_conditions.
Print Assumptions C79_cache_control.
Print Assumptions C79_authorization.
Print Assumptions C79_basic.
Print Assumptions C79_challenge.
Print Assumptions C79_content_length.
Print Assumptions C79_content_type.
Print Assumptions C79_dates.
Print Assumptions C79_retry_after.
Print Assumptions C79_expect.
Print Assumptions C79_hsts.
Print Assumptions C79_content_location.
Print Assumptions C79_origins.
Print Assumptions C79_vary.

(** ** Readers with another status, or that can panic on text a peer may send: the statuses they use (missing: that it is 400 alone,
    or that they never panic), then the texts that show it. *)
Lemma read_skipping_errs : forall A S (parse : str -> outcome (option A)) ps, (forall p, errs S (parse p)) -> errs S (read_skipping parse ps).
Proof.
  intros A S parse ps P. induction ps as [|p ps IH]; cbn [read_skipping]; [apply errs_ok|].
  destruct (seqb _ _); [exact IH|]. destruct (seqb _ _); [apply errs_bind; [exact IH|intros [? ?] _; apply errs_ok]|].
  apply errs_bind; [apply P|intros ? _]. apply errs_bind; [exact IH|intros [? ?] _; apply errs_ok].
Qed.
Lemma read_skipping_safe : forall A (parse : str -> outcome (option A)) ps, (forall p, parse p <> Panic) -> read_skipping parse ps <> Panic.
Proof.
  intros A parse ps P. induction ps as [|p ps IH]; cbn [read_skipping]; [discriminate|].
  destruct (seqb _ _); [exact IH|]. destruct (seqb _ _); [destruct (read_skipping parse ps) as [[? ?]| |]; cbn [bind]; congruence|].
  specialize (P (trim p)). destruct (parse (trim p)) as [o| |]; cbn [bind]; try congruence. destruct (read_skipping parse ps) as [[? ?]| |]; cbn [bind]; congruence.
Qed.
Lemma with_all_safe : forall A n (k : header_values -> outcome A), (forall v, k v <> Panic) -> safe (fun h => with_all h n k).
Proof. intros A n k K h T. unfold with_all. destruct (h_get h n) as [vs|]; [|discriminate]. specialize (K vs). destruct (k vs); cbn [bind]; congruence. Qed.

(** Accept-Encoding and TE: a weight that is no number is 400, one out of range is 500. *)
Theorem C79_codings_partial : forall k, fails_with (accept_from_headers k) [400; 500] /\ safe (accept_from_headers k).
Proof.
  intros k. split; [split|].
  - intros h. change (errs [400; 500] (accept_from_headers k h)). apply errs_with_all. intros vs. apply read_skipping_errs. intros p.
    unfold proposal_from_str, parse_weight, proposal_new. walk.
  - member; [exists (only (accept_name k) (lit "gzip;q=x"))|exists (only (accept_name k) (lit "gzip;q=2"))]; destruct k; vm_compute; reflexivity.
  - apply with_all_safe. intros vs. apply read_skipping_safe. intros p. unfold proposal_from_str. assert (NE := split_nonempty c_semi p).
    destruct (split c_semi p) as [|c r]; [congruence|]. destruct (coding_from_str k c); [|discriminate].
    destruct r as [|w r]; cbn [bind]; [unfold proposal_new; destruct (weight_ok _); discriminate|].
    unfold parse_weight. destruct (split c_eq w) as [|a [|b ?]]; cbn [bind]; try discriminate. destruct (seqb _ _); cbn [bind]; try discriminate.
    destruct (parse_float f32 b); cbn [ok_or bind]; try discriminate. unfold proposal_new. destruct (weight_ok _); discriminate.
Qed.
(** Accept: everything is 500. *)
Theorem C79_accept_partial : fails_with media_from_headers [500] /\ safe media_from_headers.
Proof.
  assert (R : forall m, good_mime m -> remove_param m (lit "q") <> Panic /\ forall e, remove_param m (lit "q") <> Err e).
  { intros m _. unfold remove_param, param_name. change (is_ascii (lit "q")) with true. cbn [bind]. split; [|intros e]; repeat match goal with |- context [match ?x with _ => _ end] => destruct x end; discriminate. }
  split; [split|].
  - intros h. change (errs [500] (media_from_headers h)). apply errs_with_all. intros vs. apply read_skipping_errs. intros p.
    unfold media_from_str. apply errs_bind; [|intros ? _; apply errs_ok]. destruct (mime_parse_good p) as [(m & -> & G)| ->]; cbn [bind]; [|walk].
    apply errs_bind; [intros e E; elim (proj2 (R m G) e E)|intros [q m'] _]. unfold media_new. walk.
  - member. exists (only ACCEPT (lit "text")). vm_compute. reflexivity.
  - apply with_all_safe. intros vs. apply read_skipping_safe. intros p. unfold media_from_str. destruct (mime_parse_good p) as [(m & -> & G)| ->]; cbn [bind]; [|discriminate].
    destruct (remove_param m (lit "q")) as [[q m']| |] eqn:E; cbn [bind]; [|discriminate|elim (proj1 (R m G) E)].
    destruct q as [t|]; cbn [bind]; [destruct (parse_float f32 t); cbn [ok_or bind]; [|discriminate]|]; unfold media_new; destruct (weight_ok _); discriminate.
Qed.
Theorem C79_allow_partial : fails_with allow_from_headers [500] /\ safe allow_from_headers.
Proof.
  split; [|eapply total_safe; apply C59_read_total]. split; [apply total_errs, C59_read_total|]. member. exists (only ALLOW (lit "x")). vm_compute. reflexivity.
Qed.
Theorem C79_references_partial : forall url (parse : str -> option url) join r base,
  (forall h e, reference_from_headers parse join r base h = Err e -> e = 500) /\ safe (reference_from_headers parse join r base).
Proof.
  intros url parse join r base. split.
  - intros h e E. assert (X : errs [500] (reference_from_headers parse join r base h)) by (unfold reference_from_headers; walk). apply X in E as [<-|[]]. reflexivity.
  - apply with_last_safe. intros v. destruct (parse v); [discriminate|]. destruct base as [b|]; [destruct (join b (trim v))|]; discriminate.
Qed.
(** Age: errors are 400. *)
Theorem C79_age_partial : fails_with age_from_headers [400].
Proof.
  split.
  - intros h. change (errs [400] (age_from_headers h)). unfold age_from_headers. walk. unfold from_secs_f64. walk.
  - member. exists (only AGE (lit "x")). vm_compute. reflexivity.
Qed.
(** Clear-Site-Data and the applied codings never return an error. *)
Theorem C79_clear_site_data_partial : fails_with clear_from_headers [].
Proof.
  split.
  - intros h. change (errs [] (clear_from_headers h)). apply errs_with_all. intros vs.
    generalize (comma_parts vs) as ps. induction ps as [|p ps IH]; cbn [read_parts]; [apply errs_ok|].
    destruct (seqb _ _); [apply errs_bind; [exact IH|intros [? ?] _; apply errs_ok]|].
    apply errs_bind; [unfold clear_from_str; walk|intros ? _]. apply errs_bind; [exact IH|intros [? ?] _; apply errs_ok].
  - intros e [].
Qed.
Theorem C79_applied_coding_partial : forall k, fails_with (encoding_from_headers k) [].
Proof.
  intros k. split.
  - intros h. change (errs [] (encoding_from_headers k h)). unfold encoding_from_headers. walk.
  - intros e [].
Qed.
(** traceparent: a bad version is 500, every other bad field 400. *)
Theorem C79_traceparent_partial : forall id, fails_with (context_from_headers id) [400; 500].
Proof.
  intros id. split.
  - intros h. change (errs [400; 500] (context_from_headers id h)). unfold context_from_headers, context_parse, part, hex. walk.
  - member; [exists (only TRACEPARENT (lit "00-x"))|exists (only TRACEPARENT (lit "x"))]; vm_compute; reflexivity.
Qed.
(** Server-Timing: errors are 400. *)
Theorem C79_server_timing_partial : forall nanos_of, fails_with (timing_from_headers nanos_of) [400].
Proof.
  intros nanos. split.
  - intros h. change (errs [400] (timing_from_headers nanos h)). apply errs_with_all. intros vs.
    generalize (comma_parts vs) as ps. induction ps as [|p ps IH]; cbn [parse_entries]; [apply errs_ok|]. apply errs_bind; [walk|intros ? _].
    apply errs_bind; [exact IH|intros ? _; apply errs_ok].
  - member. exists (only SERVER_TIMING (lit "a;dur=x")). vm_compute. reflexivity.
Qed.
Lemma split_at_errs : forall S s n, errs S (split_at s n).
Proof.
  intros S. induction s as [|c s IH]; intros n; cbn [split_at]; destruct (n =? 0); walk. apply IH.
Qed.
Lemma parse_value_errs : forall S s, errs S (parse_value s).
Proof.
  intros S s. unfold parse_value, parse_token, parse_quoted_string. walk; try apply split_at_errs; unfold parse_quoted_string; walk; apply split_at_errs.
Qed.
Theorem C79_forwarded_partial : forall ipv6, fails_with (fw_from_headers ipv6) [500].
Proof.
  intros ip. split.
  - intros h. change (errs [500] (fw_from_headers ip h)). unfold fw_from_headers, from_forwarded_header, from_x_headers, first_value.
    assert (P : forall s, errs [500] (fw_parse s)).
    { assert (F : forall fuel f s, errs [500] (parse_for fuel f s)).
      { induction fuel as [|n IH]; intros f s; cbn [parse_for]; [apply errs_panic|]. apply errs_bind; [unfold match_ignore_case; walk; apply split_at_errs|]. intros [m r] _.
        destruct m; [|walk]. apply errs_bind; [apply parse_value_errs|]. intros [[v|] r'] _; [|walk]. destruct r' as [|c r']; [walk|]. destruct (c =? 44); [apply IH|walk]. }
      assert (Q : forall f s, errs [500] (parse_forwarded_pair f s)).
      { intros f s. unfold parse_forwarded_pair. apply errs_bind; [unfold parse_token; walk; apply split_at_errs|]. intros [[k|] r] _; [|walk].
        destruct (strip_prefix (lit "=") r); [|walk]. apply errs_bind; [apply parse_value_errs|]. intros [[v|] r'] _; walk. }
      intros s. unfold fw_parse. generalize (length s) as fuel, fw_new as f. intros fuel. revert s. induction fuel as [|n IH]; intros [|c s] f; cbn [parse_loop]; try apply errs_ok; [apply errs_panic|].
      apply errs_bind; [unfold starts_with_ignore_case; walk; apply split_at_errs|]. intros b _. apply errs_bind; [destruct b; [apply F|apply Q]|]. intros [f' r] _. apply IH. }
    walk; apply P.
  - member. exists (only FORWARDED (lit "x")). vm_compute. reflexivity.
Qed.

(** FALSE: the status is 400. *)
Lemma only_stored : forall n v, stored (only n v).
Proof. intros n v m vs H. unfold h_get, only in H. cbn [hm_get] in H. destruct (seqb _ _); [injection H as <-; discriminate|discriminate H]. Qed.
Theorem C79_codings_refuted : exists s, forall k, accept_from_headers k (only (accept_name k) s) = Err 500.
Proof. exists (lit "gzip;q=2"). intros k. destruct k; vm_compute; reflexivity. Qed.
(** A weight out of range, one that is no number, and a media range that does not parse. *)
Theorem C79_accept_refuted : exists a b c, a = lit "text/html;q=2" /\ b = lit "text/html;q=x" /\ c = lit "html" /\
  Forall (fun s => media_from_headers (only ACCEPT s) = Err 500) [a; b; c].
Proof. exists (lit "text/html;q=2"), (lit "text/html;q=x"), (lit "html"). repeat (split; [reflexivity|]). repeat (apply Forall_cons; [vm_compute; reflexivity|]). apply Forall_nil. Qed.
Theorem C79_allow_refuted : exists s, allow_from_headers (only ALLOW s) = Err 500.
Proof. exists (lit "x"). vm_compute. reflexivity. Qed.
(** A relative reference without a base, which no URL parser accepts. *)
Theorem C79_references_refuted : exists s, forall url (parse : str -> option url) join r, parse s = None ->
  reference_from_headers parse join r None (only (reference_name r) s) = Err 500.
Proof.
  exists (lit "/path"). intros url parse join r P. unfold reference_from_headers, with_last, only. unfold h_get. cbn [hm_get]. rewrite (proj2 (seqb_eq _ _) eq_refl).
  cbn [values_last rev app bind]. rewrite P. reflexivity.
Qed.
(** FALSE: reading never panics.  A number within 1024 of 2^64, an unknown word, too few fields, a duration no [Duration] can hold, a comma at the end. *)
Theorem C79_age_refuted : exists h, stored h /\ age_from_headers h = Panic.
Proof. exists (only AGE (lit "18446744073709551615")). split; [apply only_stored|vm_compute; reflexivity]. Qed.
Theorem C79_clear_site_data_refuted : exists h, stored h /\ clear_from_headers h = Panic.
Proof. exists (only CLEAR_SITE_DATA (lit "x")). split; [apply only_stored|vm_compute; reflexivity]. Qed.
Theorem C79_applied_coding_refuted : exists s, forall k, encoding_from_headers k (only (encoding_name k) s) = Panic.
Proof. exists (lit "x"). intros k. destruct k; vm_compute; reflexivity. Qed.
Theorem C79_traceparent_refuted : exists h, stored h /\ forall id, context_from_headers id h = Panic.
Proof. exists (only TRACEPARENT (lit "00")). split; [apply only_stored|intros id; vm_compute; reflexivity]. Qed.
Theorem C79_server_timing_refuted : exists h, stored h /\ forall nanos_of, timing_from_headers nanos_of h = Panic.
Proof. exists (only SERVER_TIMING (lit "a;dur=-1")). split; [apply only_stored|intros nanos; vm_compute; reflexivity]. Qed.
Theorem C79_forwarded_refuted : exists h, stored h /\ forall ipv6, fw_from_headers ipv6 h = Panic.
Proof. exists (only FORWARDED (lit "for=a,")). split; [apply only_stored|intros ip; vm_compute; reflexivity]. Qed.
Print Assumptions C79_codings_partial.
Print Assumptions C79_codings_refuted.
Print Assumptions C79_accept_partial.
Print Assumptions C79_accept_refuted.
Print Assumptions C79_allow_partial.
Print Assumptions C79_allow_refuted.
Print Assumptions C79_references_partial.
Print Assumptions C79_references_refuted.
Print Assumptions C79_age_partial.
Print Assumptions C79_age_refuted.
Print Assumptions C79_clear_site_data_partial.
Print Assumptions C79_clear_site_data_refuted.
Print Assumptions C79_applied_coding_partial.
Print Assumptions C79_applied_coding_refuted.
Print Assumptions C79_traceparent_partial.
Print Assumptions C79_traceparent_refuted.
Print Assumptions C79_server_timing_partial.
Print Assumptions C79_server_timing_refuted.
Print Assumptions C79_forwarded_partial.
Print Assumptions C79_forwarded_refuted.
Example C79_example : etag_from_headers (only ETAG (lit "W/x")) = Err 400 /\ ctype_from_headers (only CONTENT_TYPE (lit "text")) = Err 400 /\
  cond_from_headers IfMatch (only (lit "if-match") (lit """a"", b")) = Err 400 /\ length_from_headers (only CONTENT_LENGTH (lit "-1")) = Err 400 /\
  stored (only ETAG (lit "x")) /\ vary_from_headers (only VARY (lit "a, ,?")) = Ok (Some ([lit "a"; []; lit "?"], false)).
Proof.
  repeat match goal with |- _ /\ _ => split end; try (vm_compute; reflexivity). intros n vs H. unfold h_get, only in H. cbn [hm_get] in H.
  destruct (seqb _ _); [injection H as <-; discriminate|discriminate H].
Qed.
