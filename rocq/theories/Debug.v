(** Model of the [Debug] output ([{:?}], not the indented form [{:#?}]) of the types of the crate: the implementations written by hand and
    the derived ones, on top of the formatting helpers of std. *)
From Verif Require Import Base Headers Typed Mime Method StatusCode Body Conditional Cache Auth Forwarded Trace Negotiate Timing.

(** ** std *)
Section Debug.
  (** Which characters outside ASCII std prints as they are: [core::unicode::printable] and the Grapheme_Extend table, both data of std. *)
  Context (shown : N -> bool).
  (** [char::escape_debug_ext] as [Debug for str] calls it (std): single quotes are not escaped. *)
  Definition dbg_char (c : N) : str :=
    if c =? 0 then [92; 48] else if c =? 9 then [92; 116] else if c =? 13 then [92; 114] else if c =? 10 then [92; 110]
    else if c =? 34 then [92; 34] else if c =? 92 then [92; 92]
    else if (if c <? 128 then (32 <=? c) && (c <=? 126) else shown c) then [c]
    else lit "\u{" ++ show_radix 16 c ++ lit "}".
  (** [Debug for str], [String], [Cow<str>] (std). *)
  Definition dbg_str (s : str) : str := [34] ++ flat_map dbg_char s ++ [34].
  (** [Debug for Option] (std, derived). *)
  Definition dbg_option {A} (f : A -> str) (o : option A) : str := match o with Some x => lit "Some(" ++ f x ++ lit ")" | None => lit "None" end.
  (** [Debug for bool] (std). *)
  Definition dbg_bool (b : bool) : str := if b then lit "true" else lit "false".
  (** [Formatter::debug_list] (std). *)
  Definition dbg_list {A} (f : A -> str) (l : list A) : str := lit "[" ++ join (lit ", ") (map f l) ++ lit "]".
  (** [fmt_decimal] of std's [Duration]: the whole part, then the fraction ([w] digits wide) without its trailing zeros. *)
  Definition dbg_decimal (i frac : N) (w : nat) : str :=
    show_dec i ++ (if frac =? 0 then [] else [46] ++ trim_end_matches (N.eqb 48) (pad_left w 48 (show_dec frac))).
  (** [Debug for Duration] (std): the largest unit that is not zero; 181 is the micro sign. *)
  Definition dbg_duration (d : duration) : str :=
    if 0 <? secs d then dbg_decimal (secs d) (nanos d) 9 ++ lit "s"
    else if 1000000 <=? nanos d then dbg_decimal (nanos d / 1000000) (nanos d mod 1000000) 6 ++ lit "ms"
    else if 1000 <=? nanos d then dbg_decimal (nanos d / 1000) (nanos d mod 1000) 3 ++ [181; 115]
    else show_dec (nanos d) ++ lit "ns".

  (** ** Header names, values and maps *)
  (** src/headers/header_name.rs:63-67 *)
  Definition dbg_name (n : str) : str := dbg_str n.
  (** src/headers/header_value.rs:98-102 *)
  Definition dbg_value (v : str) : str := dbg_str v.
  (** src/headers/header_values.rs:82-90 *)
  Definition dbg_values (vs : header_values) : str := match vs with [v] => dbg_value v | _ => dbg_list dbg_value vs end.
  (** src/headers/header_values.rs:92-100, [Display]: always a list. *)
  Definition show_values (vs : header_values) : str := dbg_list dbg_value vs.
  (** src/headers/headers.rs:185-189, [Formatter::debug_map] (std); [h] is in the order in which the hash map is iterated. *)
  Definition dbg_headers (h : headers) : str :=
    lit "{" ++ join (lit ", ") (map (fun e => dbg_name (fst e) ++ lit ": " ++ dbg_values (snd e)) h) ++ lit "}".
  (** src/trailers.rs:63-66, derived. *)
  Definition dbg_trailers (h : headers) : str := lit "Trailers { headers: " ++ dbg_headers h ++ lit " }".

  (** ** Bodies, status codes, methods *)
  (** src/body.rs:539-547 *)
  Definition dbg_body (b : body) : str :=
    lit "Body { reader: ""<hidden>"", length: " ++ dbg_option show_dec (body_len b) ++ lit ", bytes_read: " ++ show_dec (body_read b) ++ lit " }".
  (** src/status_code.rs:707-711: the same text as [Display]. *)
  Definition dbg_status (c : status_code) : str := show_dec (code_u16 c) ++ lit ": " ++ canonical_reason c.
  (** src/method.rs:13-338, derived. *)
  Definition dbg_method (m : method) : str :=
  match m with
  | M_Acl => lit "Acl" | M_BaselineControl => lit "BaselineControl" | M_Bind => lit "Bind" | M_Checkin => lit "Checkin" | M_Checkout => lit "Checkout" 
  | M_Connect => lit "Connect" | M_Copy => lit "Copy" | M_Delete => lit "Delete" | M_Get => lit "Get" | M_Head => lit "Head" 
  | M_Label => lit "Label" | M_Link => lit "Link" | M_Lock => lit "Lock" | M_Merge => lit "Merge" | M_MkActivity => lit "MkActivity" 
  | M_MkCalendar => lit "MkCalendar" | M_MkCol => lit "MkCol" | M_MkRedirectRef => lit "MkRedirectRef" | M_MkWorkspace => lit "MkWorkspace" | M_Move => lit "Move" 
  | M_Options => lit "Options" | M_OrderPatch => lit "OrderPatch" | M_Patch => lit "Patch" | M_Post => lit "Post" | M_Pri => lit "Pri" 
  | M_PropFind => lit "PropFind" | M_PropPatch => lit "PropPatch" | M_Put => lit "Put" | M_Rebind => lit "Rebind" | M_Report => lit "Report" 
  | M_Search => lit "Search" | M_Trace => lit "Trace" | M_Unbind => lit "Unbind" | M_Uncheckout => lit "Uncheckout" | M_Unlink => lit "Unlink" 
  | M_Unlock => lit "Unlock" | M_Update => lit "Update" | M_UpdateRedirectRef => lit "UpdateRedirectRef" | M_VersionControl => lit "VersionControl"
  end.
  (** src/server/allow.rs:165-173; the methods are in the order in which the hash set is iterated. *)
  Definition dbg_allow (ms : list method) : str := dbg_list dbg_method ms.

  (** ** Conditions and caching *)
  (** src/conditional/etag.rs:33-39, derived. *)
  Definition dbg_etag (e : etag) : str := match e with Strong s => lit "Strong(" ++ dbg_str s ++ lit ")" | Weak s => lit "Weak(" ++ dbg_str s ++ lit ")" end.
  (** src/conditional/if_match.rs:220-228, src/conditional/if_none_match.rs:226-234: the entries, not the wildcard. *)
  Definition dbg_cond (c : list etag * bool) : str := dbg_list dbg_etag (fst c).
  (** src/conditional/vary.rs:227-235 *)
  Definition dbg_vary (v : vary) : str := dbg_list dbg_name (fst v).
  (** src/cache/clear_site_data/directive.rs:7-27, derived. *)
  Definition dbg_clear (c : clear) : str :=
    match c with ClearCache => lit "Cache" | ClearCookies => lit "Cookies" | ClearStorage => lit "Storage" | ClearExecutionContexts => lit "ExecutionContexts" end.
  (** src/cache/clear_site_data/mod.rs:204-212 *)
  Definition dbg_clear_list (c : list clear * bool) : str := dbg_list dbg_clear (fst c).
  (** src/cache/cache_control/cache_directive.rs:7-44, derived. *)
  Definition dbg_directive (d : directive) : str :=
    let timed n d := lit n ++ lit "(" ++ dbg_duration d ++ lit ")" in
    match d with
    | Immutable => lit "Immutable" | MaxAge d => timed "MaxAge"%string d
    | MaxStale o => lit "MaxStale(" ++ dbg_option dbg_duration o ++ lit ")" | MinFresh d => timed "MinFresh"%string d
    | MustRevalidate => lit "MustRevalidate" | NoCache => lit "NoCache" | NoStore => lit "NoStore" | NoTransform => lit "NoTransform"
    | OnlyIfCached => lit "OnlyIfCached" | Private => lit "Private" | ProxyRevalidate => lit "ProxyRevalidate" | Public => lit "Public"
    | SMaxAge d => timed "SMaxAge"%string d | StaleIfError d => timed "StaleIfError"%string d | StaleWhileRevalidate d => timed "StaleWhileRevalidate"%string d
    end.
  (** src/cache/cache_control/cache_control.rs:192-200 *)
  Definition dbg_cache (l : list directive) : str := dbg_list dbg_directive l.

  (** ** Credentials *)
  (** src/auth/authentication_scheme.rs:7-30, derived. *)
  Definition dbg_scheme (s : scheme) : str :=
    match s with
    | Basic => lit "Basic" | Bearer => lit "Bearer" | Digest => lit "Digest" | Hoba => lit "Hoba" | Mutual => lit "Mutual" | Auth.Negotiate => lit "Negotiate"
    | OAuth => lit "OAuth" | ScramSha1 => lit "ScramSha1" | ScramSha256 => lit "ScramSha256" | Vapid => lit "Vapid"
    end.
  (** src/auth/authorization.rs:33-37, derived. *)
  Definition dbg_authorization (a : scheme * str) : str :=
    lit "Authorization { scheme: " ++ dbg_scheme (fst a) ++ lit ", credentials: " ++ dbg_str (snd a) ++ lit " }".
  (** src/auth/basic_auth.rs:37-41, derived. *)
  Definition dbg_basic (a : str * str) : str :=
    lit "BasicAuth { username: " ++ dbg_str (fst a) ++ lit ", password: " ++ dbg_str (snd a) ++ lit " }".
  (** src/auth/www_authenticate.rs:39-43, derived. *)
  Definition dbg_www (a : scheme * str) : str :=
    lit "WwwAuthenticate { scheme: " ++ dbg_scheme (fst a) ++ lit ", realm: " ++ dbg_str (snd a) ++ lit " }".

  (** ** Codings, media types, the rest *)
  (** src/content/encoding.rs:6-18, src/transfer/encoding.rs:8-22, derived; src/content/content_encoding.rs:132-136 and
      src/transfer/transfer_encoding.rs:129-133 print the same. *)
  Definition dbg_coding (c : coding) : str :=
    match c with Gzip => lit "Gzip" | Deflate => lit "Deflate" | Brotli => lit "Brotli" | Zstd => lit "Zstd" | Identity => lit "Identity" | Chunked => lit "Chunked" end.
  (** A pair, and src/mime/mod.rs:211-212, 246-247, derived. *)
  Definition dbg_mime_param (p : str * str) : str :=
    lit "(ParamName(" ++ dbg_str (fst p) ++ lit "), ParamValue(" ++ dbg_str (snd p) ++ lit "))".
  (** src/mime/mod.rs:31-40, derived. *)
  Definition dbg_mime (m : mime) : str :=
    lit "Mime { essence: " ++ dbg_str (essence m) ++ lit ", basetype: " ++ dbg_str (basetype m) ++ lit ", subtype: " ++ dbg_str (subtype m)
    ++ lit ", is_utf8: " ++ dbg_bool (is_utf8 m) ++ lit ", params: " ++ dbg_list dbg_mime_param (params m) ++ lit " }".
  (** src/proxies/forwarded.rs:15-21, derived. *)
  Definition dbg_forwarded (f : forwarded) : str :=
    lit "Forwarded { by: " ++ dbg_option dbg_str (fw_by f) ++ lit ", forwarded_for: " ++ dbg_list dbg_str (fw_for f)
    ++ lit ", host: " ++ dbg_option dbg_str (fw_host f) ++ lit ", proto: " ++ dbg_option dbg_str (fw_proto f) ++ lit " }".
  (** src/trace/trace_context.rs:37-44, derived. *)
  Definition dbg_context (c : context) : str :=
    lit "TraceContext { id: " ++ show_dec (ctx_id c) ++ lit ", version: " ++ show_dec (ctx_version c) ++ lit ", trace_id: " ++ show_dec (ctx_trace c)
    ++ lit ", parent_id: " ++ dbg_option show_dec (ctx_parent c) ++ lit ", flags: " ++ show_dec (ctx_flags c) ++ lit " }".
  (** src/trace/server_timing/metric.rs:17-22, derived. *)
  Definition dbg_metric (m : metric) : str :=
    lit "Metric { name: " ++ dbg_str (m_name m) ++ lit ", dur: " ++ dbg_option dbg_duration (m_dur m) ++ lit ", desc: " ++ dbg_option dbg_str (m_desc m) ++ lit " }".
  (** src/trace/server_timing/mod.rs:63-66, derived. *)
  Definition dbg_timing (l : list metric) : str := lit "ServerTiming { timings: " ++ dbg_list dbg_metric l ++ lit " }".
End Debug.
