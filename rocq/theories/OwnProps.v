(** C83: a typed header reads and writes exactly the header it is named after. *)
From Verif Require Import Base BaseFacts Headers HeadersFacts Typed TypedFacts Conditional Cache Auth Mime Negotiate HttpDate Other Trace Timing Forwarded Security LastProps.
From Coq Require Import ZifyBool ZifyNat ZifyN.

(** [after] holds exactly one value under [n], and under every other name what [before] holds. *)
Definition replaced (n : str) (before after : headers) : Prop :=
  (exists v, h_get after n = Some [v]) /\ forall n', n' <> n -> h_get after n' = h_get before n'.
Definition writes {A} (apply : headers -> A -> headers) (n : str) : Prop := forall h x, replaced n h (apply h x).
(** The writers that can fail: when they do not. *)
Definition writes_ok {A} (apply : headers -> A -> outcome headers) (n : str) : Prop :=
  forall h x h', apply h x = Ok h' -> replaced n h h'.
(** What is read is decided by the one header, and is [None] without it. *)
Definition owns {A B} (from : headers -> outcome (option B)) (apply : headers -> A -> headers) (n : str) : Prop :=
  reads_only from n /\ writes apply n.
Definition owns_ok {A B} (from : headers -> outcome (option B)) (apply : headers -> A -> outcome headers) (n : str) : Prop :=
  reads_only from n /\ writes_ok apply n.

Lemma apply_replaced : forall h n v, replaced n h (apply_value h n v).
Proof. intros h n v. split; [exists v; apply get_apply|intros n' H; now apply get_apply_other]. Qed.

Ltac own := split; [first [apply with_last_own|apply with_all_own]|intros h x; apply apply_replaced].

(** src/conditional, src/cache, src/auth *)
Theorem C83_conditional_cache_auth :
  owns etag_from_headers etag_apply (lit "etag") /\
  owns (cond_from_headers IfMatch) (cond_apply IfMatch) (lit "if-match") /\
  owns (cond_from_headers IfNoneMatch) (cond_apply IfNoneMatch) (lit "if-none-match") /\
  owns_ok vary_from_headers vary_apply (lit "vary") /\
  owns cache_from_headers cache_apply (lit "cache-control") /\
  owns age_from_headers age_apply (lit "age") /\
  owns clear_from_headers clear_apply (lit "clear-site-data") /\
  owns auth_from_headers auth_apply (lit "authorization") /\
  owns basic_from_headers basic_apply (lit "authorization") /\
  owns www_from_headers www_apply (lit "www-authenticate").
Proof.
  split; [own|]. split; [own|]. split; [own|].
  split. { split; [apply with_all_own|]. intros h x h' H. unfold vary_apply in H. destruct (vary_value x); [|discriminate H|discriminate H].
           injection H as <-. apply apply_replaced. }
  split; [own|]. split; [own|]. split; [own|]. split; [own|].
  split; [|own]. split; [|intros h x; apply apply_replaced].
  split; intros h; [intros H|intros h' H]; unfold basic_from_headers, auth_from_headers, with_last; change AUTHORIZATION with (lit "authorization"); rewrite H; reflexivity.
Qed.
Print Assumptions C83_conditional_cache_auth.

(** src/content, src/transfer *)
Theorem C83_content : forall (url : Type) (url_join : url -> str -> option url) (url_show : url -> str) base,
  owns (encoding_from_headers Content) (encoding_apply Content) (lit "content-encoding") /\
  owns (encoding_from_headers Transfer) (encoding_apply Transfer) (lit "transfer-encoding") /\
  owns (accept_from_headers Content) (accept_apply Content) (lit "accept-encoding") /\
  owns (accept_from_headers Transfer) (accept_apply Transfer) (lit "te") /\
  owns media_from_headers media_apply (lit "accept") /\
  owns length_from_headers length_apply (lit "content-length") /\
  owns ctype_from_headers ctype_apply (lit "content-type") /\
  owns (location_from_headers url_join base) (location_apply url_show) (lit "content-location").
Proof. intros. repeat (split; [own|]). own. Qed.
Print Assumptions C83_content.

Lemma date_writes : forall d, writes_ok (date_apply d) (date_name d).
Proof. intros d h x h' H. unfold date_apply in H. destruct (fmt_http_date x); [|discriminate H|discriminate H]. injection H as <-. apply apply_replaced. Qed.

(** src/other, the dates, src/security, src/trace *)
Theorem C83_others : forall (url : Type) (url_parse : str -> option url) (url_join : url -> str -> option url) (url_show : url -> str) base nanos_of show_ms id,
  owns_ok (date_from_headers DateHeader) (date_apply DateHeader) (lit "date") /\
  owns_ok (date_from_headers Expires) (date_apply Expires) (lit "expires") /\
  owns_ok (date_from_headers LastModified) (date_apply LastModified) (lit "last-modified") /\
  owns_ok (date_from_headers IfModifiedSince) (date_apply IfModifiedSince) (lit "if-modified-since") /\
  owns_ok (date_from_headers IfUnmodifiedSince) (date_apply IfUnmodifiedSince) (lit "if-unmodified-since") /\
  owns_ok retry_from_headers retry_apply (lit "retry-after") /\
  owns expect_from_headers (fun h (_ : unit) => expect_apply h) (lit "expect") /\
  owns allow_from_headers allow_apply (lit "allow") /\
  owns (reference_from_headers url_parse url_join Referer base) (reference_apply url_show Referer) (lit "referer") /\
  owns (reference_from_headers url_parse url_join SourceMap base) (reference_apply url_show SourceMap) (lit "sourcemap") /\
  owns hsts_from_headers hsts_apply (lit "strict-transport-security") /\
  owns (origins_from_headers url_parse) (origins_apply url_show) (lit "timing-allow-origin") /\
  owns (timing_from_headers nanos_of) (timing_apply show_ms) (lit "server-timing") /\
  owns (context_from_headers id) context_apply (lit "traceparent").
Proof.
  intros.
  repeat (split; [split; [apply with_last_own|exact (date_writes _)]|]).
  split. { split; [apply with_last_own|]. intros h x h' H. unfold retry_apply in H. destruct (retry_value x); [|discriminate H|discriminate H].
           injection H as <-. apply apply_replaced. }
  repeat (split; [own|]).
  split; [|intros h x; apply apply_replaced].
  split; intros h; [intros H|intros h' H]; unfold context_from_headers; change TRACEPARENT with (lit "traceparent"); rewrite H; reflexivity.
Qed.
Print Assumptions C83_others.

(** So setting one typed header does not change what is read from another. *)
Theorem C83_no_interference : forall A B C D (from : headers -> outcome (option B)) (apply : headers -> A -> headers)
    (from' : headers -> outcome (option D)) (apply' : headers -> C -> headers) n n',
  owns from apply n -> owns from' apply' n' -> n <> n' ->
  forall h x, from' (apply h x) = from' h.
Proof.
  intros A B C D from apply from' apply' n n' [_ W] [[_ R] _] NE h x.
  apply R. destruct (W h x) as [_ O]. apply O. congruence.
Qed.
Print Assumptions C83_no_interference.

(** Forwarding information comes from five headers and nothing else. *)
Theorem C83_forwarded : forall ipv6 h h',
  Forall (fun n => h_get h n = h_get h' n)
    [lit "forwarded"; lit "x-forwarded-for"; lit "x-forwarded-by"; lit "x-forwarded-proto"; lit "x-forwarded-host"] ->
  fw_from_headers ipv6 h = fw_from_headers ipv6 h'.
Proof.
  intros ipv6 h h' F. apply Forall_inv in F as E0. apply Forall_inv_tail in F. apply Forall_inv in F as E1. apply Forall_inv_tail in F.
  apply Forall_inv in F as E2. apply Forall_inv_tail in F. apply Forall_inv in F as E3. apply Forall_inv_tail in F. apply Forall_inv in F as E4.
  unfold fw_from_headers, from_forwarded_header, from_x_headers, first_value. change FORWARDED with (lit "forwarded").
  rewrite E0, E1, E2, E3, E4. reflexivity.
Qed.
Print Assumptions C83_forwarded.

Example C83_example :
  let h := [(lit "age", [lit "5"; lit "6"]); (lit "etag", [lit """x"""]); (lit "te", [lit "gzip"])] in
  age_apply h (Dur 9 0) = [(lit "age", [lit "9"]); (lit "etag", [lit """x"""]); (lit "te", [lit "gzip"])] /\
  etag_from_headers (age_apply h (Dur 9 0)) = Ok (Some (Strong (lit "x"))) /\
  encoding_from_headers Content h = Ok None.
Proof. vm_compute. repeat split. Qed.
