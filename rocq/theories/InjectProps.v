(** C76: header values that cannot break out of their line.  C77: the predefined header names. *)
From Verif Require Import Base BaseFacts Headers HeadersFacts HeadersProps Typed TypedFacts Conditional ConditionalProps Cache CacheProps Auth AuthProps
  Float FloatFacts Mime MimeFacts MimeProps Negotiate NegotiateFacts NegotiateProps HttpDate Method Other OtherProps Trace Timing Security StableProps.
From Coq Require Import ZifyBool ZifyNat ZifyN.
From Verif Require DateSpec DateProps Utf8.

(** Visible ASCII and the space: what a receiver shows unchanged on one line. *)
Definition printable (c : N) : bool := (32 <=? c) && (c <=? 126).
Definition one_line (s : str) : Prop := forallb printable s = true.
(** Weaker: no line break and no NUL, the characters RFC 7230 section 3.2 is strict about. *)
Definition unbroken (s : str) : Prop := ~ In 10 s /\ ~ In 13 s /\ ~ In 0 s.

Lemma one_line_app : forall a b, one_line (a ++ b) <-> one_line a /\ one_line b.
Proof. intros a b. unfold one_line. rewrite forallb_app. split; [intros H; apply andb_true_iff in H; exact H|intros H; apply andb_true_iff; exact H]. Qed.
Lemma one_line_join : forall sep l, one_line sep -> Forall one_line l -> one_line (join sep l).
Proof.
  intros sep l S F. destruct F as [|x l X F]; [reflexivity|]. revert x X. induction F as [|y l Y F IH]; intros x X; [exact X|].
  change (join sep (x :: y :: l)) with (x ++ sep ++ join sep (y :: l)). rewrite !one_line_app. split; [exact X|]. split; [exact S|]. apply IH. exact Y.
Qed.
Lemma one_line_list : forall star l w, one_line star -> Forall one_line l -> one_line (list_value star l w).
Proof.
  intros star l w S F. unfold list_value. assert (J := one_line_join (lit ", ") l eq_refl F). destruct w; [|exact J].
  destruct (join (lit ", ") l) eqn:E; [exact S|]. rewrite !one_line_app. split; [exact J|]. split; [reflexivity|exact S].
Qed.
Lemma one_line_map : forall A (f : A -> str) l, (forall a, one_line (f a)) -> Forall one_line (map f l).
Proof. intros A f l H. apply Forall_forall. intros x I. apply in_map_iff in I as (a & <- & _). apply H. Qed.
Lemma digits_line : forall s, forallb is_digit s = true -> one_line s.
Proof. intros s H. unfold one_line. eapply forallb_impl; [|exact H]. intros c C. unfold is_digit in C. unfold printable. lia. Qed.
Lemma dec_line : forall n, one_line (show_dec n).
Proof. intros n. apply digits_line, show_dec_digits. Qed.
Lemma milli_line : forall k, k <= 1000 -> one_line (show_milli k).
Proof.
  intros k K. unfold one_line. destruct (weight_text k K) as (_ & _ & _ & T & _). eapply forallb_impl; [|exact T]. intros c C.
  unfold is_token_cp, is_lower, is_upper, is_digit in C. cbn [existsb] in C. unfold printable. lia.
Qed.
Lemma letters_line : forall s, forallb (fun c => is_lower c || is_upper c) s = true -> one_line s.
Proof. intros s H. unfold one_line. eapply forallb_impl; [|exact H]. intros c C. unfold is_lower, is_upper in C. unfold printable. lia. Qed.

(** Whatever values are given to these headers, what they write is one line. *)
Theorem C76_cache_control : forall l, one_line (cache_value l).
Proof.
  intros l. apply one_line_join; [reflexivity|]. apply one_line_map. intros d.
  destruct d as [|t|[t|]|t| | | | | | | | |t|t|t]; first [reflexivity | (cbn [directive_value]; rewrite one_line_app; split; [reflexivity|apply dec_line])].
Qed.
Theorem C76_numbers : forall n, one_line (show_dec n).
Proof. exact dec_line. Qed.
Theorem C76_clear_site_data : forall c, one_line (clear_value c).
Proof. intros [l w]. apply one_line_list; [reflexivity|]. apply one_line_map. intros d. destruct d; reflexivity. Qed.
Lemma b64_line : forall bs, Forall (fun b => b < 256) bs -> one_line (b64_encode bs).
Proof.
  assert (C : forall i, i < 64 -> printable (b64_char i) = true).
  { intros i L. unfold b64_char, printable. destruct (i <? 26) eqn:A; [lia|]. destruct (i <? 52) eqn:B; [lia|]. destruct (i <? 62) eqn:D; [lia|]. destruct (i =? 62); reflexivity. }
  induction bs as [|a|a b|a b c r IH] using three_ind; intros H; unfold one_line; cbn [b64_encode forallb].
  - reflexivity.
  - inv H. rewrite !C by lia. reflexivity.
  - inv H. inv H3. rewrite !C by lia. reflexivity.
  - inv H. inv H3. inv H4. rewrite !C by lia. cbn [andb]. apply IH. assumption.
Qed.
Theorem C76_basic : forall h u p, valid_str u = true -> valid_str p = true ->
  exists v, h_get (basic_apply h (u, p)) (lit "authorization") = Some [v] /\ one_line v.
Proof.
  intros h u p U P. eexists. split; [apply get_apply|]. unfold auth_value. cbn [fst snd scheme_show]. rewrite !one_line_app. split; [reflexivity|]. split; [reflexivity|].
  apply b64_line, Utf8.utf8_encode_bytes. unfold valid_str in *. rewrite !forallb_app, U, P. reflexivity.
Qed.
Theorem C76_codings : forall a, Forall (fun p => good_weight (p_weight p)) (fst a) -> one_line (accept_value a).
Proof.
  intros [l w] F. cbn [fst] in F. apply one_line_list; [reflexivity|]. cbn [fst]. apply Forall_forall. intros x I. apply in_map_iff in I as ([c v] & <- & I).
  rewrite Forall_forall in F. apply F in I. cbn [p_weight] in I. unfold proposal_value. cbn [p_coding p_weight]. rewrite one_line_app. split; [destruct c; reflexivity|].
  destruct v as [x|]; [|reflexivity]. destruct I as (v & -> & L). rewrite one_line_app. split; [reflexivity|]. cbn [show3]. apply milli_line, thousandths_le, L.
Qed.
Theorem C76_coding : forall c, one_line (coding_show c).
Proof. intros c. destruct c; reflexivity. Qed.
Theorem C76_allow : forall l, one_line (allow_value l).
Proof. intros l. apply one_line_join; [reflexivity|]. apply one_line_map. intros m. destruct m; reflexivity. Qed.
Theorem C76_hsts : forall s, one_line (hsts_value s).
Proof.
  intros [d sub pre]. unfold hsts_value. cbn [max_age include_subdomains preload]. rewrite !one_line_app. split; [reflexivity|]. split; [apply dec_line|].
  destruct sub, pre; split; reflexivity.
Qed.
Lemma pad_line : forall w c s, printable c = true -> one_line s -> one_line (pad_left w c s).
Proof.
  intros w c s C S. unfold pad_left. rewrite one_line_app. split; [|exact S]. unfold one_line. induction (w - length s)%nat as [|n IH]; [reflexivity|].
  cbn [repeat forallb]. rewrite C. exact IH.
Qed.
Lemma name_line : forall l i, Forall one_line l -> one_line (DateSpec.name l i).
Proof.
  intros l i F. unfold DateSpec.name. destruct (nth_in_or_default (Z.to_nat (i - 1)) l []) as [I|E]; [|rewrite E; reflexivity].
  rewrite Forall_forall in F. apply F. exact I.
Qed.
Theorem C76_dates : forall t s, fmt_http_date t = Ok s -> one_line s.
Proof.
  intros t s H. assert (R : in_range t).
  { destruct (Z.lt_ge_cases t 0) as [L|L]; [|destruct (Z.lt_ge_cases t DateProps.end_9999) as [M|M]; [exact (conj L M)|]];
      (assert (Y : fmt_http_date t = Panic) by (apply DateProps.C06_format_panics_iff_out_of_range; auto)); congruence. }
  rewrite (DateProps.C02_date_is_gregorian t R) in H. injection H as <-.
  unfold DateSpec.imf_text, DateSpec.time_text, DateSpec.num. rewrite !one_line_app.
  repeat split; try reflexivity; try (apply pad_line; [reflexivity|apply dec_line]); apply name_line; repeat constructor.
Qed.
Theorem C76_retry_after : forall r v, retry_value r = Ok v -> one_line v.
Proof. intros [d|t] v H; [injection H as <-; apply dec_line|eapply C76_dates; exact H]. Qed.
Lemma hex_line : forall n, one_line (show_radix 16 n).
Proof.
  intros n. unfold show_radix. destruct (digits_spec 16 n ltac:(lia)) as [_ F]. unfold one_line. rewrite forallb_forall. intros c I. apply in_map_iff in I as (d & <- & I).
  rewrite Forall_forall in F. apply F in I. unfold digit_char, printable. destruct (d <? 10) eqn:E; lia.
Qed.
Theorem C76_traceparent : forall c, one_line (context_show c).
Proof. intros c. unfold context_show, hex_field. rewrite !one_line_app. repeat split; try reflexivity; apply pad_line; try reflexivity; apply hex_line. Qed.
Print Assumptions C76_cache_control.
Print Assumptions C76_numbers.
Print Assumptions C76_clear_site_data.
Print Assumptions C76_basic.
Print Assumptions C76_codings.
Example C76_codings_case : Forall (fun p => good_weight (p_weight p)) [Proposal Gzip (milli 333); Proposal Brotli None] /\
  accept_value ([Proposal Gzip (milli 333); Proposal Brotli None], true) = lit "gzip;q=0.333, br, *".
Proof.
  split; [|vm_compute; reflexivity]. constructor; [|constructor; [exact I|constructor]]. eexists. split; [vm_compute; reflexivity|vm_compute; discriminate].
Qed.
Print Assumptions C76_coding.
Print Assumptions C76_allow.
Print Assumptions C76_hsts.
Print Assumptions C76_dates.
Example C76_dates_case : fmt_http_date 784111777000000000%Z = Ok (lit "Sun, 06 Nov 1994 08:49:37 GMT") /\ one_line (lit "Sun, 06 Nov 1994 08:49:37 GMT").
Proof. assert (E : fmt_http_date 784111777000000000%Z = Ok (lit "Sun, 06 Nov 1994 08:49:37 GMT")) by (vm_compute; reflexivity). split; [exact E|exact (C76_dates _ _ E)]. Qed.
Print Assumptions C76_retry_after.
Example C76_retry_after_case : retry_value (After (from_secs 7)) = Ok (lit "7") /\ retry_value (At 784111777000000000%Z) = Ok (lit "Sun, 06 Nov 1994 08:49:37 GMT").
Proof. split; vm_compute; reflexivity. Qed.
Print Assumptions C76_traceparent.

(** Media types that were parsed, with any weights: tabs and Latin-1 are possible, line breaks and NUL are not. *)
Definition safe_char (c : N) : bool := negb (c =? 10) && negb (c =? 13) && negb (c =? 0).
Lemma unbroken_iff : forall s, unbroken s <-> forallb safe_char s = true.
Proof.
  intros s. rewrite forallb_forall. unfold unbroken, safe_char. split.
  - intros (A & B & C) c I. destruct (N.eqb_spec c 10); [subst; contradiction|]. destruct (N.eqb_spec c 13); [subst; contradiction|].
    destruct (N.eqb_spec c 0); [subst; contradiction|]. reflexivity.
  - intros H. repeat split; intros I; apply H in I; discriminate I.
Qed.
Lemma unbroken_app : forall a b, unbroken (a ++ b) <-> unbroken a /\ unbroken b.
Proof. intros a b. rewrite !unbroken_iff, forallb_app. apply andb_true_iff. Qed.
Lemma line_unbroken : forall s, one_line s -> unbroken s.
Proof. intros s H. apply unbroken_iff. eapply forallb_impl; [|exact H]. intros c C. unfold printable in C. unfold safe_char. lia. Qed.
Lemma token_line : forall s, forallb is_token_cp s = true -> one_line s.
Proof.
  intros s H. unfold one_line. eapply forallb_impl; [|exact H]. intros c C.
  unfold is_token_cp, is_lower, is_upper, is_digit in C. cbn [existsb] in C. unfold printable. lia.
Qed.
Lemma good_mime_unbroken : forall m, good_mime m -> unbroken (mime_format m).
Proof.
  intros m (B1 & B2 & B3 & S1 & S2 & S3 & E & _ & G). unfold mime_format. rewrite E, !unbroken_app.
  repeat split; try (apply line_unbroken, token_line; assumption); try (intros I; cbn [In] in I; lia);
    try (destruct (is_utf8 m); intros I; vm_compute in I; intuition discriminate);
    revert G; generalize (params m) as ps; intros ps G.
  all: assert (U : unbroken (flat_map (fun p => format_param (fst p) (snd p)) ps)); [|apply U].
  all: apply unbroken_iff; rewrite forallb_forall; intros c I; apply in_flat_map in I as ([n v] & J & I); cbn [fst snd] in I;
    destruct (G _ J) as (_ & T & _ & V & _); cbn [fst snd] in T, V; revert c I; rewrite <- forallb_forall; apply unbroken_iff.
  all: assert (Un : unbroken n) by (apply line_unbroken, token_line; exact T); unfold format_param;
    destruct (forallb is_token_cp v && _) eqn:K; rewrite !unbroken_app.
  all: repeat match goal with |- _ /\ _ => split end; try exact Un; try (apply line_unbroken; reflexivity).
  all: try (apply andb_true_iff in K as [K _]; apply line_unbroken, token_line; exact K).
  all: apply unbroken_iff; clear - V; induction v as [|c v IH]; [reflexivity|]; cbn [forallb] in V; unfold escape_value; cbn [flat_map]; rewrite forallb_app;
    apply andb_true_iff; split; [|apply IH; lia]; unfold is_qs_cp in V; unfold safe_char; destruct ((c =? 34) || (c =? 92)); cbn [forallb]; lia.
Qed.
Theorem C76_content_type : forall s m, mime_parse s = Ok m -> unbroken (mime_format m).
Proof. intros s m H. apply good_mime_unbroken. destruct (mime_parse_good s) as [(m' & E & G)|E]; congruence. Qed.
Print Assumptions C76_content_type.
Lemma unbroken_join : forall sep l, unbroken sep -> Forall unbroken l -> unbroken (join sep l).
Proof.
  intros sep l S F. destruct F as [|x l X F]; [repeat split; exact (fun I => I)|]. revert x X. induction F as [|y l Y F IH]; intros x X; [exact X|].
  change (join sep (x :: y :: l)) with (x ++ sep ++ join sep (y :: l)). rewrite !unbroken_app. split; [exact X|]. split; [exact S|]. apply IH. exact Y.
Qed.
Lemma unbroken_list : forall l w, Forall unbroken l -> unbroken (list_value (lit "*") l w).
Proof.
  intros l w F. assert (C : unbroken (lit ", ")) by (apply line_unbroken; reflexivity).
  assert (S : unbroken (lit "*")) by (apply line_unbroken; reflexivity).
  unfold list_value. assert (J := unbroken_join (lit ", ") l C F). destruct w; [|exact J].
  destruct (join (lit ", ") l) eqn:E; [exact S|]. rewrite !unbroken_app. split; [exact J|]. split; [exact C|exact S].
Qed.
Theorem C76_accept : forall a,
  Forall (fun p => (exists s, mime_parse s = Ok (mp_type p)) /\ good_weight (mp_weight p)) (fst a) -> unbroken (media_list_value a).
Proof.
  intros [l w] F. cbn [fst] in F. apply unbroken_list. cbn [fst]. apply Forall_forall. intros x I. apply in_map_iff in I as ([m v] & <- & I).
  rewrite Forall_forall in F. apply F in I. cbn [mp_type mp_weight] in I. destruct I as [(s & P) G]. unfold media_value. cbn [mp_type mp_weight]. rewrite unbroken_app. split; [eapply C76_content_type; exact P|].
  destruct v as [x|]; [|apply line_unbroken; reflexivity]. destruct G as (v & -> & L). rewrite unbroken_app. split; [apply line_unbroken; reflexivity|]. apply line_unbroken. cbn [show3]. apply milli_line, thousandths_le, L.
Qed.
Print Assumptions C76_accept.
Example C76_accept_case :
  Forall (fun p => (exists s, mime_parse s = Ok (mp_type p)) /\ good_weight (mp_weight p)) [MediaProposal MIME_JSON (milli 333)].
Proof.
  constructor; [|constructor]. split; [exists (lit "application/json"); vm_compute; reflexivity|]. eexists. split; [vm_compute; reflexivity|vm_compute; discriminate].
Qed.
(** What was read from an Accept header qualifies. *)
Theorem C76_accept_read : forall h a, media_from_headers h = Ok (Some a) -> unbroken (media_list_value a).
Proof.
  intros h [l w] H. assert (W := C52_media_parsed h l w H). apply with_all_inv in H as (vs & _ & H).
  assert (F : Forall (fun p => sendable (mp_type p)) l).
  { unfold read_media in H. assert (PC := part_no_comma vs). revert l w H W. induction (comma_parts vs) as [|p ps IH]; intros l w H W; cbn [read_skipping] in H.
    - injection H as <- <-. constructor.
    - assert (PC' : forall q, In q ps -> no_char 44 q = true) by (intros q I; apply PC; right; exact I).
      destruct (seqb (trim p) []); [apply (IH PC' _ _ H W)|]. destruct (seqb (trim p) (lit "*")).
      + destruct (read_skipping _ ps) as [[es w']| |] eqn:R; cbn [bind] in H; try discriminate H. injection H as <- <-. apply (IH PC' es w' eq_refl W).
      + destruct (media_from_str (trim p)) as [m| |] eqn:M; cbn [bind] in H; try discriminate H.
        destruct (read_skipping _ ps) as [[es w']| |] eqn:R; cbn [bind] in H; try discriminate H. injection H as <- <-. inv W.
        constructor; [|apply (IH PC' es w' eq_refl); assumption]. eapply media_read_sendable; [|exact M]. apply trim_no_comma, PC. left. reflexivity. }
  apply C76_accept. cbn [fst]. rewrite Forall_forall in *. intros p I. split; [|apply W; exact I].
  exists (mime_format (mp_type p)). apply mime_round_trip. apply F. exact I.
Qed.
Print Assumptions C76_accept_read.
Example C76_accept_read_case : exists a, media_from_headers [(lit "accept", [lit "a/b;c=""d" ++ [9] ++ lit "e"";q=0.5, */*"])] = Ok (Some a) /\
  media_list_value a = lit "a/b;c=""d" ++ [9] ++ lit "e"";q=0.500, */*;q=1.000".
Proof. eexists. split; [vm_compute; reflexivity|vm_compute; reflexivity]. Qed.
(** Entity tags read from a header: the grammar leaves no room for a break. *)
Lemma etag_read_unbroken : forall s e, etag_from_str s = Ok e -> unbroken (etag_show e).
Proof.
  assert (T : forall t, forallb etag_char t = true -> unbroken t).
  { intros t F. apply unbroken_iff. eapply forallb_impl; [|exact F]. intros c C. unfold etag_char in C. unfold safe_char. lia. }
  intros s e H. unfold etag_from_str in H. destruct (match strip_prefix (lit "W/") s with Some r => (true, r) | None => (false, s) end) as [k r].
  destruct (match strip_prefix [34] r with Some r => strip_suffix [34] r | None => None end) as [t|]; [|discriminate H].
  destruct (forallb etag_char t) eqn:F; [|discriminate H]. injection H as <-. apply T in F.
  destruct k; unfold etag_show; rewrite !unbroken_app; repeat match goal with |- _ /\ _ => split end; try exact F; apply line_unbroken; reflexivity.
Qed.
Theorem C76_etag_read : forall h e, etag_from_headers h = Ok (Some e) -> unbroken (etag_show e).
Proof. intros h e H. apply with_last_inv in H as (v & H). eapply etag_read_unbroken. exact H. Qed.
Theorem C76_conditions_read : forall k h c, cond_from_headers k h = Ok (Some c) -> unbroken (cond_value c).
Proof.
  intros k h [l w] H. apply with_all_inv in H as (vs & _ & H). apply unbroken_list. cbn [fst]. apply Forall_forall. intros x I. apply in_map_iff in I as (e & <- & I).
  destruct (read_parts_inv _ _ _ _ _ _ H) as [F _]. rewrite Forall_forall in F. apply F in I as (p & _ & P & _). eapply etag_read_unbroken. exact P.
Qed.
Print Assumptions C76_etag_read.
Example C76_etag_read_case : etag_from_headers [(lit "etag", [lit "W/""b"""])] = Ok (Some (Weak (lit "b"))) /\ etag_show (Weak (lit "b")) = lit "W/""b""".
Proof. split; vm_compute; reflexivity. Qed.
Print Assumptions C76_conditions_read.
Example C76_conditions_read_case : exists c, cond_from_headers IfMatch [(lit "if-match", [lit """a"", W/""b"", *"])] = Ok (Some c) /\ cond_value c = lit """a"", W/""b"", *".
Proof. eexists. split; [vm_compute; reflexivity|vm_compute; reflexivity]. Qed.

(** ** What is not checked.  Text can carry a line break into a header. *)
Definition evil : str := lit "x" ++ [13; 10] ++ lit "set-cookie: a=b".
(** A header value, and a header name, may be any ASCII text, also empty or with line breaks, colons and spaces. *)
Theorem C76_value_refuted : exists s, value_from_str s = Ok s /\ ~ unbroken s.
Proof. exists evil. split; [reflexivity|]. intros (H & _). apply H. vm_compute. auto 10. Qed.
Theorem C76_any_ascii_value : forall s, is_ascii s = true -> forall h n, exists h', h_insert h n (TvText s) = (h', Ok (hm_get h n)) /\ h_get h' n = Some [s].
Proof.
  intros s A h n. unfold h_insert, to_header_values, value_from_str. rewrite A. cbn [bind]. eexists. split; [reflexivity|].
  apply hm_get_insert_same.
Qed.
Theorem C76_name_refuted : exists s n, name_from_str s = Ok n /\ n = evil /\ name_from_str [] = Ok [].
Proof. exists evil, evil. vm_compute. auto. Qed.
(** The typed constructors that take text pass it on. *)
Theorem C76_etag_refuted : exists s e, etag_new true false s = Ok e /\ ~ unbroken (etag_show e).
Proof. exists evil, (Strong evil). split; [reflexivity|]. intros (H & _). apply H. vm_compute. auto 10. Qed.
Theorem C76_authorization_refuted : exists a, ~ unbroken (auth_value a).
Proof. exists (Bearer, evil). intros (H & _). apply H. vm_compute. auto 20. Qed.
Theorem C76_challenge_refuted : exists a, ~ unbroken (www_value a).
Proof. exists (Basic, evil). intros (H & _). apply H. vm_compute. auto 20. Qed.
Theorem C76_vary_refuted : exists s v t, vary_push ([], false) s = Ok v /\ vary_value v = Ok t /\ ~ unbroken t.
Proof. exists evil, ([evil], false), evil. split; [reflexivity|]. split; [reflexivity|]. intros (H & _). apply H. vm_compute. auto 20. Qed.
Theorem C76_server_timing_refuted : forall show_f64, exists m, metric_new evil None None = Ok m /\ ~ unbroken (timing_value show_f64 [m]).
Proof. intros sh. eexists. split; [reflexivity|]. intros (H & _). apply H. vm_compute. auto 20. Qed.
Theorem C76_csp_refuted : exists c, ~ unbroken (snd (csp_value c (directives c))).
Proof. exists (build csp_new [Directive DefaultSrc evil]). intros (H & _). apply H. vm_compute. auto 40. Qed.
Print Assumptions C76_value_refuted.
Print Assumptions C76_any_ascii_value.
Print Assumptions C76_name_refuted.
Print Assumptions C76_etag_refuted.
Print Assumptions C76_authorization_refuted.
Print Assumptions C76_challenge_refuted.
Print Assumptions C76_vary_refuted.
Print Assumptions C76_server_timing_refuted.
Print Assumptions C76_csp_refuted.
(** A break inside a received value is refused by the entity-tag and media-type parsers, and is harmless inside Basic credentials. *)
Example C76_example :
  etag_from_str (lit """" ++ evil ++ lit """") = Err 400 /\ mime_parse (lit "text/plain; a=""" ++ evil ++ lit """") = mime_parse (lit "text/plain") /\
  h_get (basic_apply [] (evil, lit "p")) (lit "authorization") = Some [lit "Basic eA0Kc2V0LWNvb2tpZTogYT1iOnA="] /\
  exists m, mime_parse (lit "text/plain; a=""b" ++ [9] ++ lit "c""") = Ok m /\ mime_format m = lit "text/plain;a=""b" ++ [9] ++ lit "c""".
Proof. split; [vm_compute; reflexivity|]. split; [vm_compute; reflexivity|]. split; [vm_compute; reflexivity|]. eexists. split; vm_compute; reflexivity. Qed.

(** ** C77 *)
Fixpoint nodup_strs (l : list str) : bool :=
  match l with [] => true | x :: r => negb (existsb (seqb x) r) && nodup_strs r end.
Lemma nodup_strs_spec : forall l, nodup_strs l = true -> NoDup l.
Proof.
  induction l as [|x l IH]; intros H; [constructor|]. cbn [nodup_strs] in H. apply andb_true_iff in H as [A B]. constructor; [|apply IH; exact B].
  intros I. apply negb_true_iff in A. assert (E : existsb (seqb x) l = true) by (apply existsb_exists; exists x; split; [exact I|apply seqb_eq; reflexivity]). congruence.
Qed.
(** Every predefined name is an RFC 7230 token, and no two are the same. *)
Theorem C77_tokens : Forall token header_constants /\ NoDup header_constants.
Proof.
  split; [|apply nodup_strs_spec; vm_compute; reflexivity].
  assert (F : forallb (fun s => negb (seqb s []) && forallb is_token_cp s) header_constants = true) by (vm_compute; reflexivity).
  rewrite forallb_forall in F. apply Forall_forall. intros s I. apply F in I. apply andb_true_iff in I as [A B].
  split; [intros ->; discriminate A|]. rewrite forallb_forall in B. apply Forall_forall. intros c J. apply is_token_tchar, B, J.
Qed.
Print Assumptions C77_tokens.
Lemma constant_into : forall n s, In n header_constants -> (name_into s = Ok n <-> to_lower s = n).
Proof.
  intros n s I. destruct (C15_constants_are_lower_case n I) as [A _]. unfold name_into, name_from_str. split.
  - destruct (is_ascii s); [|discriminate]. intros H. injection H as H. exact H.
  - intros H. rewrite <- H, is_ascii_to_lower in A. rewrite A, H. reflexivity.
Qed.
(** Text names a predefined header exactly when it is that name up to ASCII case; text that is not, never does. *)
Theorem C77_spelling : forall n s, In n header_constants -> (name_into s = Ok n <-> to_lower s = n) /\ (name_eq n s = true <-> to_lower s = n).
Proof.
  intros n s I. split; [apply constant_into; exact I|]. destruct (C15_constants_are_lower_case n I) as [A L]. unfold name_eq, name_from_str.
  split.
  - destruct (is_ascii s); [|discriminate]. intros H. apply seqb_eq in H. symmetry. exact H.
  - intros H. rewrite <- H, is_ascii_to_lower in A. rewrite A. apply seqb_eq. symmetry. exact H.
Qed.
Print Assumptions C77_spelling.
(** A header set through any spelling is what the constant reads, and no other constant reads anything different. *)
Theorem C77_stored : forall h n s v k, In n header_constants -> to_lower s = n -> is_ascii v = true -> name_into s = Ok k ->
  let h' := fst (h_insert h k (TvText v)) in
  h_get h' n = Some [v] /\ h_index h' s = Ok [v] /\ forall m, In m header_constants -> m <> n -> h_get h' m = h_get h m.
Proof.
  intros h n s v k I E V K. apply (constant_into n s I) in E. assert (k = n) by congruence. subst k.
  unfold h_insert, to_header_values, value_from_str. rewrite V. cbn [bind fst].
  split; [apply hm_get_insert_same|]. split.
  - unfold h_index. unfold name_into in E. destruct (name_from_str s) as [x| |]; try discriminate E. injection E as ->. cbn [bind]. rewrite hm_get_insert_same. reflexivity.
  - intros m _ N. apply hm_get_insert_other. exact N.
Qed.
Print Assumptions C77_stored.
Example C77_example : In (lit "content-type") header_constants /\ name_into (lit "CONTENT-Type") = Ok (lit "content-type") /\ length header_constants = 65%nat.
Proof. vm_compute. auto 80. Qed.
