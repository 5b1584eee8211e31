(** Model of the [Debug] output of further types of the crate: proposals and their lists, Strict-Transport-Security, Age, Content-Length,
    Content-Type, Retry-After, the headers that hold a date, Report-To, connections and extensions. *)
From Verif Require Import Base Headers Typed Mime Float Cache Negotiate HttpDate Other ReportTo Debug.

(** [Debug for i32] and [i64] (std). *)
Definition dbg_int (z : Z) : str := (if (z <? 0)%Z then lit "-" else []) ++ show_dec (Z.abs_N z).
(** [Debug for SystemTime] (std, on Unix): whole seconds, rounded down, and nanoseconds. *)
Definition dbg_time (t : systime) : str :=
  lit "SystemTime { tv_sec: " ++ dbg_int (t / 1000000000) ++ lit ", tv_nsec: " ++ show_dec (Z.to_N (t mod 1000000000)) ++ lit " }".

(** ** Structs with one field *)
(** src/cache/age.rs:32-35, derived. *)
Definition dbg_age (d : duration) : str := lit "Age { dur: " ++ dbg_duration d ++ lit " }".
(** src/content/content_length.rs:28-31, derived. *)
Definition dbg_length (n : N) : str := lit "ContentLength { length: " ++ show_dec n ++ lit " }".
(** src/security/strict_transport_security.rs:12-18, derived. *)
Definition dbg_hsts (s : hsts) : str :=
  lit "StrictTransportSecurity { max_age: " ++ dbg_duration (Other.max_age s) ++ lit ", include_subdomains: " ++ dbg_bool (Other.include_subdomains s)
  ++ lit ", preload: " ++ dbg_bool (preload s) ++ lit " }".
(** src/cache/expires.rs:36-39, src/conditional/last_modified.rs:37-40, src/conditional/if_modified_since.rs:38-41,
    src/conditional/if_unmodified_since.rs:38-41 and src/other/date.rs:35-38, derived. *)
Definition dbg_date (d : date_header) (t : systime) : str :=
  match d with
  | Expires => lit "Expires { instant: " | LastModified => lit "LastModified { instant: " | IfModifiedSince => lit "IfModifiedSince { instant: "
  | IfUnmodifiedSince => lit "IfUnmodifiedSince { instant: " | DateHeader => lit "Date { at: "
  end ++ dbg_time t ++ lit " }".
(** src/other/retry_after.rs:35-38, 120-124, derived. *)
Definition dbg_retry (r : retry) : str :=
  lit "RetryAfter { inner: " ++ match r with After d => lit "Duration(" ++ dbg_duration d ++ lit ")" | At t => lit "SystemTime(" ++ dbg_time t ++ lit ")" end ++ lit " }".
(** src/other/expect.rs:32-35, derived: the field has the unit type. *)
Definition dbg_expect : str := lit "Expect { _priv: () }".
(** src/upgrade/connection.rs:12-17: nothing of the stream. *)
Definition dbg_connection : str := lit "Connection { inner: ""Box<dyn Asyncread + AsyncWrite + Send + Sync + Unpin>"" }".
(** src/extensions.rs:79-83: nothing of the values. *)
Definition dbg_extensions : str := lit "Extensions".

Section DebugMore.
  (** As in Debug.v. *)
  Context (shown : N -> bool).
  (** src/content/content_type.rs:35-38, derived. *)
  Definition dbg_ctype (m : mime) : str := lit "ContentType { media_type: " ++ dbg_mime shown m ++ lit " }".
  (** src/security/csp.rs:96-100, derived. *)
  Definition dbg_endpoint (u : str) : str := lit "ReportToEndpoint { url: " ++ dbg_str shown u ++ lit " }".
  (** src/security/csp.rs:81-90, derived. *)
  Definition dbg_report (r : report) : str :=
    lit "ReportTo { group: " ++ dbg_option (dbg_str shown) (group r) ++ lit ", max_age: " ++ dbg_int (ReportTo.max_age r)
    ++ lit ", endpoints: " ++ dbg_list dbg_endpoint (endpoints r) ++ lit ", include_subdomains: " ++ dbg_option dbg_bool (ReportTo.include_subdomains r) ++ lit " }".

  (** [Debug for f32] (std): the shortest decimal text that is read back as the same value; a parameter. *)
  Context (dbg_f32 : float -> str).
  (** src/content/encoding_proposal.rs:10-19, src/transfer/encoding_proposal.rs:12-21, derived. *)
  Definition dbg_proposal (p : proposal) : str :=
    lit "EncodingProposal { encoding: " ++ dbg_coding (p_coding p) ++ lit ", weight: " ++ dbg_option dbg_f32 (p_weight p) ++ lit " }".
  (** src/content/accept_encoding.rs:272-280, src/transfer/te.rs:270-278: the entries, not the wildcard. *)
  Definition dbg_accept (a : list proposal * bool) : str := dbg_list dbg_proposal (fst a).
  (** src/content/media_type_proposal.rs:12-21, derived. *)
  Definition dbg_media (p : media_proposal) : str :=
    lit "MediaTypeProposal { media_type: " ++ dbg_mime shown (mp_type p) ++ lit ", weight: " ++ dbg_option dbg_f32 (mp_weight p) ++ lit " }".
  (** src/content/accept.rs:279-287 *)
  Definition dbg_media_list (a : list media_proposal * bool) : str := dbg_list dbg_media (fst a).

  (** [Debug for Url] of the url crate; a parameter. *)
  Context {url : Type} (dbg_url : url -> str).
  (** src/security/timing_allow_origin.rs:248-256 *)
  Definition dbg_origins (o : list url * bool) : str := dbg_list dbg_url (fst o).
  (** src/content/content_location.rs:33-36, derived. *)
  Definition dbg_location (u : url) : str := lit "ContentLocation { url: " ++ dbg_url u ++ lit " }".
  (** src/other/referer.rs:36-39, src/other/source_map.rs:33-36, derived. *)
  Definition dbg_reference (k : reference) (u : url) : str :=
    match k with Referer => lit "Referer { location: " | SourceMap => lit "SourceMap { location: " end ++ dbg_url u ++ lit " }".
End DebugMore.
