(** C68: which of several values decides.  C74: a list may be spread over several values. *)
From Verif Require Import Base BaseFacts Headers HeadersFacts Typed TypedFacts Conditional Cache Auth Mime Negotiate Other Trace Timing Forwarded.
From Coq Require Import ZifyBool ZifyNat ZifyN.

(** Reading a message whose header holds several values gives what the last one alone gives. *)
Definition last_decides {A} (from : headers -> outcome A) (n : str) : Prop :=
  forall h vs v, h_get h n = Some (vs ++ [v]) -> from h = from (fst (h_insert h n (TvValues [v]))).
Definition first_decides {A} (from : headers -> outcome A) (n : str) : Prop :=
  forall h vs v, h_get h n = Some (v :: vs) -> from h = from (fst (h_insert h n (TvValues [v]))).
(** A header that is absent is [None], whatever else the message holds. *)
Definition absent_is_none {A} (from : headers -> outcome (option A)) (n : str) : Prop := forall h, h_get h n = None -> from h = Ok None.
(** Nothing but the header itself is looked at. *)
Definition own_header_only {A} (from : headers -> outcome A) (n : str) : Prop := forall h h', h_get h n = h_get h' n -> from h = from h'.

Lemma with_last_decides : forall A n (k : str -> outcome A), last_decides (fun h => with_last h n k) n.
Proof. intros A n k h vs v H. rewrite (with_last_snoc _ h n vs v k H). symmetry. apply with_last_apply. Qed.
Lemma basic_decides : last_decides basic_from_headers AUTHORIZATION.
Proof. intros h vs v H. unfold basic_from_headers. unfold auth_from_headers. rewrite (with_last_decides _ AUTHORIZATION auth_parse h vs v H). reflexivity. Qed.

Theorem C68_last_value_decides_partial :
  last_decides etag_from_headers (lit "etag") /\
  last_decides age_from_headers (lit "age") /\
  last_decides auth_from_headers (lit "authorization") /\
  last_decides basic_from_headers (lit "authorization") /\
  last_decides www_from_headers (lit "www-authenticate") /\
  last_decides length_from_headers (lit "content-length") /\
  last_decides ctype_from_headers (lit "content-type") /\
  last_decides (date_from_headers Expires) (lit "expires") /\
  last_decides (date_from_headers LastModified) (lit "last-modified") /\
  last_decides (date_from_headers IfModifiedSince) (lit "if-modified-since") /\
  last_decides (date_from_headers IfUnmodifiedSince) (lit "if-unmodified-since") /\
  last_decides (date_from_headers DateHeader) (lit "date") /\
  last_decides retry_from_headers (lit "retry-after") /\
  last_decides expect_from_headers (lit "expect") /\
  last_decides hsts_from_headers (lit "strict-transport-security").
Proof. repeat (split; [first [apply with_last_decides | apply basic_decides]|]). apply with_last_decides. Qed.
Theorem C68_last_url_decides : forall (url : Type) (parse : str -> option url) (ujoin : url -> str -> option url) base,
  last_decides (location_from_headers ujoin base) (lit "content-location") /\
  last_decides (reference_from_headers parse ujoin Referer base) (lit "referer") /\
  last_decides (reference_from_headers parse ujoin SourceMap base) (lit "sourcemap").
Proof. intros. repeat split; apply with_last_decides. Qed.

(** Trace contexts and Forwarded look at the FIRST value. *)
Theorem C68_first_value_decides : forall id,
  first_decides (context_from_headers id) (lit "traceparent") /\ first_decides from_forwarded_header (lit "forwarded").
Proof.
  intros id. split; intros h vs v H.
  - unfold context_from_headers. change TRACEPARENT with (lit "traceparent"). rewrite H. 
    change (fst (h_insert h (lit "traceparent") (TvValues [v]))) with (apply_value h (lit "traceparent") v). rewrite get_apply. reflexivity.
  - unfold from_forwarded_header, first_value. change FORWARDED with (lit "forwarded"). rewrite H.
    change (fst (h_insert h (lit "forwarded") (TvValues [v]))) with (apply_value h (lit "forwarded") v). rewrite get_apply. reflexivity.
Qed.
Lemma last_coding_snoc : forall k vs v, last_coding k (vs ++ [v]) = match coding_from_str k v with Some c => Some c | None => last_coding k vs end.
Proof. intros k vs v. unfold last_coding. rewrite fold_left_app. reflexivity. Qed.
(** Content-Encoding and Transfer-Encoding: the last value decides if it names a known coding... *)
Theorem C68_coding_partial : forall k h vs v c, h_get h (encoding_name k) = Some (vs ++ [v]) -> in_family k c = true -> trim v = coding_show c ->
  encoding_from_headers k h = Ok (Some c).
Proof.
  intros k h vs v c H I C. unfold encoding_from_headers, with_all. rewrite H, last_coding_snoc.
  replace (coding_from_str k v) with (Some c); [reflexivity|]. unfold coding_from_str. rewrite C. destruct k, c; (discriminate I || reflexivity).
Qed.
(** ... FALSE in general: after an unknown one, an earlier value decides. *)
Theorem C68_coding_refuted : exists k, ~ last_decides (encoding_from_headers k) (encoding_name k).
Proof. exists Content. intros H. specialize (H [(lit "content-encoding", [lit "gzip"; lit "compress"])] [lit "gzip"] (lit "compress") eq_refl). vm_compute in H. discriminate H. Qed.
Theorem C68_traceparent_refuted : exists id, ~ last_decides (context_from_headers id) (lit "traceparent").
Proof.
  exists 7. intros H. specialize (H [(lit "traceparent", [lit "00-1-1-00"; lit "00-2-2-00"])] [lit "00-1-1-00"] (lit "00-2-2-00") eq_refl).
  vm_compute in H. discriminate H.
Qed.
Print Assumptions C68_last_value_decides_partial.
Print Assumptions C68_last_url_decides.
Print Assumptions C68_first_value_decides.
Print Assumptions C68_coding_partial.
Example C68_coding_partial_case : encoding_from_headers Transfer [(encoding_name Transfer, [lit "gzip"; lit "?"; lit " chunked"])] = Ok (Some Chunked).
Proof. apply (C68_coding_partial Transfer _ [lit "gzip"; lit "?"] (lit " chunked")); vm_compute; reflexivity. Qed.
Print Assumptions C68_coding_refuted.
Print Assumptions C68_traceparent_refuted.

(** Every typed reader returns [None] without its header and looks at no other. *)
Lemma with_last_own : forall A n (k : str -> outcome A), absent_is_none (fun h => with_last h n k) n /\ own_header_only (fun h => with_last h n k) n.
Proof. intros A n k. split; intros h; [intros H|intros h' H]; unfold with_last; rewrite H; reflexivity. Qed.
Lemma with_all_own : forall A n (k : header_values -> outcome A), absent_is_none (fun h => with_all h n k) n /\ own_header_only (fun h => with_all h n k) n.
Proof. intros A n k. split; intros h; [intros H|intros h' H]; unfold with_all; rewrite H; reflexivity. Qed.
Definition reads_only {A} (from : headers -> outcome (option A)) (n : str) : Prop := absent_is_none from n /\ own_header_only from n.
Theorem C68_reads_only_its_header : forall id nanos_of c k,
  reads_only etag_from_headers (lit "etag") /\ reads_only age_from_headers (lit "age") /\
  reads_only auth_from_headers (lit "authorization") /\ reads_only basic_from_headers (lit "authorization") /\
  reads_only www_from_headers (lit "www-authenticate") /\ reads_only length_from_headers (lit "content-length") /\
  reads_only ctype_from_headers (lit "content-type") /\ (forall d, reads_only (date_from_headers d) (date_name d)) /\
  reads_only retry_from_headers (lit "retry-after") /\ reads_only expect_from_headers (lit "expect") /\
  reads_only hsts_from_headers (lit "strict-transport-security") /\ reads_only (context_from_headers id) (lit "traceparent") /\
  reads_only from_forwarded_header (lit "forwarded") /\ reads_only (cond_from_headers c) (cond_name c) /\
  reads_only vary_from_headers (lit "vary") /\ reads_only cache_from_headers (lit "cache-control") /\
  reads_only clear_from_headers (lit "clear-site-data") /\ reads_only (accept_from_headers k) (accept_name k) /\
  reads_only (encoding_from_headers k) (encoding_name k) /\ reads_only media_from_headers (lit "accept") /\
  reads_only allow_from_headers (lit "allow") /\ reads_only (timing_from_headers nanos_of) (lit "server-timing").
Proof.
  assert (B : reads_only basic_from_headers (lit "authorization")).
  { split; intros h; [intros H|intros h' H]; unfold basic_from_headers, auth_from_headers, with_last; change AUTHORIZATION with (lit "authorization"); rewrite H; reflexivity. }
  assert (T : forall id, reads_only (context_from_headers id) (lit "traceparent")).
  { intros id. split; intros h; [intros H|intros h' H]; unfold context_from_headers; change TRACEPARENT with (lit "traceparent"); rewrite H; reflexivity. }
  assert (F : reads_only from_forwarded_header (lit "forwarded")).
  { split; intros h; [intros H|intros h' H]; unfold from_forwarded_header, first_value; change FORWARDED with (lit "forwarded"); rewrite H; reflexivity. }
  intros id nanos_of c k. repeat (split; [first [exact B|apply T|exact F|apply with_last_own|apply with_all_own|intros d; apply with_last_own]|]).
  apply with_all_own.
Qed.
Print Assumptions C68_reads_only_its_header.

Example C68_example :
  length_from_headers [(lit "content-length", [lit "5"; lit "7"])] = Ok (Some 7) /\
  etag_from_headers [(lit "etag", [lit "junk"; lit """a"""])] = Ok (Some (Strong (lit "a"))) /\
  length_from_headers [(lit "content-length", [lit "7"; lit "x"])] = Err 400.
Proof. vm_compute. repeat split. Qed.

(** ** C74: a list spread over several values reads like the list in one value. *)
Lemma split_app_any : forall d a b, split d (a ++ d :: b) = split d a ++ split d b.
Proof.
  intros d a b. induction a as [|c a IH]; cbn [app split].
  - rewrite N.eqb_refl. reflexivity.
  - destruct (c =? d) eqn:E; [rewrite IH; reflexivity|]. rewrite IH. assert (Nn := split_nonempty d a). destruct (split d a); [congruence|]. reflexivity.
Qed.
Lemma split_join_flat : forall d l, l <> [] -> split d (join [d] l) = flat_map (split d) l.
Proof.
  intros d l. induction l as [|x [|y l] IH]; intros N; [congruence|cbn [join flat_map]; rewrite app_nil_r; reflexivity|].
  change (join [d] (x :: y :: l)) with (x ++ d :: join [d] (y :: l)). rewrite split_app_any. rewrite IH by discriminate. reflexivity.
Qed.
Lemma no_edge_mid : forall a c b, is_ws c = false -> no_edge is_ws a = true -> no_edge is_ws b = true -> no_edge is_ws (a ++ c :: b) = true.
Proof.
  intros a c b C A B. unfold no_edge in *. apply andb_true_iff in A as [A1 _], B as [_ B2]. apply andb_true_iff. split.
  - destruct a as [|x a]; cbn [app]; [rewrite C; reflexivity|exact A1].
  - rewrite rev_app_distr. cbn [rev]. destruct (rev b) as [|x r]; cbn [app]; [rewrite C; reflexivity|exact B2].
Qed.
Lemma no_edge_join : forall l, Forall (fun v => no_edge is_ws v = true) l -> no_edge is_ws (join [44] l) = true.
Proof.
  induction l as [|x [|y l] IH]; intros F; [reflexivity|inversion F; assumption|]. inversion F as [|? ? Fx Fl]; subst.
  change (join [44] (x :: y :: l)) with (x ++ 44 :: join [44] (y :: l)). apply no_edge_mid; [reflexivity|exact Fx|apply IH; exact Fl].
Qed.
(** Values as they arrive: without white space around them. *)
Definition trimmed (v : str) : Prop := trim v = v.
Lemma comma_parts_join : forall vs, vs <> [] -> Forall trimmed vs -> comma_parts [join [44] vs] = comma_parts vs.
Proof.
  intros vs N F. unfold comma_parts. cbn [flat_map]. rewrite app_nil_r.
  rewrite trim_id by (apply no_edge_join; eapply Forall_impl; [|exact F]; intros v H; apply no_edge_of_trim; exact H).
  change c_comma with 44. rewrite split_join_flat by exact N.
  clear N. induction F as [|v vs V F IH]; [reflexivity|]. cbn [flat_map]. rewrite IH. unfold trimmed in V. rewrite V. reflexivity.
Qed.
(** The values joined by commas, as an intermediary may do, in place of the separate ones. *)
Definition list_header {A} (from : headers -> outcome A) (n : str) : Prop :=
  forall h vs, h_get h n = Some vs -> vs <> [] -> Forall trimmed vs -> from h = from (fst (h_insert h n (TvValues [join (lit ",") vs]))).
Lemma with_all_list : forall A n (k : list str -> outcome A), list_header (fun h => with_all h n (fun vs => k (comma_parts vs))) n.
Proof.
  intros A n k h vs H N F. change (fst (h_insert h n (TvValues [join (lit ",") vs]))) with (apply_value h n (join (lit ",") vs)).
  rewrite with_all_apply. change (lit ",") with [44]. rewrite (comma_parts_join vs N F). unfold with_all. rewrite H. reflexivity.
Qed.
Theorem C74_values_join : forall c k nanos_of,
  list_header (cond_from_headers c) (cond_name c) /\
  list_header vary_from_headers (lit "vary") /\
  list_header cache_from_headers (lit "cache-control") /\
  list_header clear_from_headers (lit "clear-site-data") /\
  list_header (accept_from_headers k) (accept_name k) /\
  list_header media_from_headers (lit "accept") /\
  list_header allow_from_headers (lit "allow") /\
  list_header (timing_from_headers nanos_of) (lit "server-timing").
Proof.
  intros c k nanos_of. 
  split; [apply (with_all_list _ (cond_name c) (fun ps => read_parts (lit "*") etag_from_str ps))|].
  split; [apply (with_all_list _ VARY (fun ps => read_parts (lit "*") (fun p => name_from_str (trim p)) ps))|].
  split; [apply (with_all_list _ CACHE_CONTROL read_directives)|].
  split; [apply (with_all_list _ CLEAR_SITE_DATA (fun ps => read_parts (lit """*""") clear_from_str ps))|].
  split; [apply (with_all_list _ (accept_name k) (fun ps => read_proposals k ps))|].
  split; [apply (with_all_list _ ACCEPT read_media)|].
  split; [apply (with_all_list _ ALLOW (fun ps => allow_read ps []))|].
  apply (with_all_list _ SERVER_TIMING (parse_entries nanos_of)).
Qed.
Theorem C74_origins_join : forall (url : Type) (parse : str -> option url) h vs, h_get h (lit "timing-allow-origin") = Some vs -> vs <> [] ->
  origins_from_headers parse h = origins_from_headers parse (fst (h_insert h (lit "timing-allow-origin") (TvValues [join (lit ",") vs]))).
Proof.
  intros url parse h vs H N. change (fst (h_insert h (lit "timing-allow-origin") (TvValues [join (lit ",") vs]))) with (apply_value h TIMING_ALLOW_ORIGIN (join (lit ",") vs)).
  unfold origins_from_headers. rewrite with_all_apply. unfold with_all. change TIMING_ALLOW_ORIGIN with (lit "timing-allow-origin"). rewrite H.
  cbn [flat_map]. rewrite app_nil_r. change c_comma with 44. change (lit ",") with [44]. rewrite split_join_flat by exact N. reflexivity.
Qed.
Print Assumptions C74_values_join.
Print Assumptions C74_origins_join.
(** FALSE for the two coding headers, whose grammar is a list too: the joined list panics. *)
Theorem C74_coding_list_refuted : exists h, h_get h (lit "transfer-encoding") = Some [lit "gzip"; lit "chunked"] /\
  encoding_from_headers Transfer h = Ok (Some Chunked) /\
  encoding_from_headers Transfer (fst (h_insert h (lit "transfer-encoding") (TvValues [lit "gzip,chunked"]))) = Panic.
Proof. exists [(lit "transfer-encoding", [lit "gzip"; lit "chunked"])]. vm_compute. repeat split. Qed.
Print Assumptions C74_coding_list_refuted.
Example C74_example :
  vary_from_headers [(lit "vary", [lit "Accept, X"; lit "*"])] = vary_from_headers [(lit "vary", [lit "Accept, X,*"])] /\
  cache_from_headers [(lit "cache-control", [lit "no-store"; lit "max-age=5"])] = Ok (Some [NoStore; MaxAge (from_secs 5)]).
Proof. vm_compute. repeat split. Qed.
