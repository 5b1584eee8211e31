(** Single headers: content/content_length.rs, content/content_type.rs, other/{expect,retry_after,date}.rs,
    cache/expires.rs, conditional/{last_modified,if_modified_since,if_unmodified_since}.rs, server/allow.rs,
    security/strict_transport_security.rs and, over an abstract [Url], content/content_location.rs,
    other/{referer,source_map}.rs, security/timing_allow_origin.rs. *)
From Verif Require Import Base Headers Typed Mime HttpDate Method Cache.

(** ** content/content_length.rs *)
Definition CONTENT_LENGTH : str := lit "content-length".
(** src/content/content_length.rs:50 *)
Definition length_parse (s : str) : outcome N := ok_or 400 (parse_uint 10 u64_max (trim s)).
(** src/content/content_length.rs:41-52 *)
Definition length_from_headers (h : headers) : outcome (option N) := with_last h CONTENT_LENGTH length_parse.
(** src/content/content_length.rs:69-74 *)
Definition length_apply (h : headers) (n : N) : headers := apply_value h CONTENT_LENGTH (show_dec n).

(** ** content/content_type.rs *)
Definition CONTENT_TYPE : str := lit "content-type".
(** src/content/content_type.rs:70-73: every error gets status 400. *)
Definition ctype_parse (s : str) : outcome mime := with_status 400 (mime_parse s).
(** src/content/content_type.rs:60-75 *)
Definition ctype_from_headers (h : headers) : outcome (option mime) := with_last h CONTENT_TYPE ctype_parse.
(** src/content/content_type.rs:82-86 *)
Definition ctype_apply (h : headers) (m : mime) : headers := apply_value h CONTENT_TYPE (mime_format m).

(** ** The date headers *)
Inductive date_header : Type := Expires | LastModified | IfModifiedSince | IfUnmodifiedSince | DateHeader.
(** src/cache/expires.rs:75-77, src/conditional/last_modified.rs:70-72, src/conditional/if_modified_since.rs:71-73, src/conditional/if_unmodified_since.rs:71-73, src/other/date.rs:77-79. *)
Definition date_name (d : date_header) : str :=
  match d with
  | Expires => lit "expires" | LastModified => lit "last-modified" | IfModifiedSince => lit "if-modified-since"
  | IfUnmodifiedSince => lit "if-unmodified-since" | DateHeader => lit "date"
  end.
(** src/cache/expires.rs:69, src/conditional/last_modified.rs:64, src/conditional/if_modified_since.rs:65, src/conditional/if_unmodified_since.rs:65; src/other/date.rs:63-71 parses
    an [HttpDate] from the trimmed text, gives every error status 400, and converts. *)
Definition date_parse (d : date_header) (s : str) : outcome systime :=
  match d with
  | DateHeader => let* x := with_status 400 (date_from_str (trim s)) in systime_of_date x
  | _ => parse_http_date s
  end.
(** src/cache/expires.rs:59-71, src/conditional/last_modified.rs:54-66, src/conditional/if_modified_since.rs:55-67, src/conditional/if_unmodified_since.rs:55-67, src/other/date.rs:54-73 *)
Definition date_from_headers (d : date_header) (h : headers) : outcome (option systime) :=
  with_last h (date_name d) (date_parse d).
(** src/cache/expires.rs:78-83, src/conditional/last_modified.rs:73-78, src/conditional/if_modified_since.rs:74-79, src/conditional/if_unmodified_since.rs:74-79,
    src/other/date.rs:81-87 (the same conversion to [HttpDate] and its [Display]). *)
Definition date_apply (d : date_header) (h : headers) (t : systime) : outcome headers :=
  let* v := fmt_http_date t in Ok (apply_value h (date_name d) v).

(** ** other/retry_after.rs *)
Definition RETRY_AFTER : str := lit "retry-after".
(** src/other/retry_after.rs:121-124 *)
Inductive retry : Type := After (d : duration) | At (t : systime).
(** src/other/retry_after.rs:67-73 *)
Definition retry_parse (s : str) : outcome retry :=
  match parse_uint 10 u64_max s with
  | Some n => Ok (After (from_secs n))
  | None => let* t := parse_http_date s in Ok (At t)
  end.
(** src/other/retry_after.rs:61-75 *)
Definition retry_from_headers (h : headers) : outcome (option retry) := with_last h RETRY_AFTER retry_parse.
(** src/other/retry_after.rs:97-104 *)
Definition retry_value (r : retry) : outcome str :=
  match r with After d => Ok (show_dec (secs d)) | At t => fmt_http_date t end.
(** src/headers/header.rs:15-22 with src/other/retry_after.rs:92-105. *)
Definition retry_apply (h : headers) (r : retry) : outcome headers :=
  let* v := retry_value r in Ok (apply_value h RETRY_AFTER v).

(** ** other/expect.rs *)
Definition EXPECT : str := lit "expect".
(** src/other/expect.rs:44-56 *)
Definition expect_from_headers (h : headers) : outcome (option unit) :=
  with_last h EXPECT (fun v => if seqb v (lit "100-continue") then Ok tt else Err 400).
(** src/other/expect.rs:63-67 *)
Definition expect_apply (h : headers) : headers := apply_value h EXPECT (lit "100-continue").

(** ** server/allow.rs *)
Definition ALLOW : str := lit "allow".
(** std [HashSet<Method>]: a list without repetitions; the order carries no meaning.  Derived [PartialEq] of src/method.rs:12-14. *)
Definition method_eqb (a b : method) : bool := seqb (method_str a) (method_str b).
(** [HashSet::insert] (std), src/server/allow.rs:62, 71. *)
Definition set_insert (m : method) (s : list method) : list method := if existsb (method_eqb m) s then s else m :: s.
(** src/server/allow.rs:59-64 *)
Fixpoint allow_read (parts : list str) (s : list method) : outcome (list method) :=
  match parts with
  | [] => Ok s
  | p :: ps => let* m := method_from_str (trim p) in allow_read ps (set_insert m s)
  end.
(** src/server/allow.rs:52-67 *)
Definition allow_from_headers (h : headers) : outcome (option (list method)) :=
  with_all h ALLOW (fun vs => allow_read (comma_parts vs) []).
(** src/server/allow.rs:91-102; [order] is the order in which the set is iterated. *)
Definition allow_value (order : list method) : str := join (lit ", ") (map method_str order).
(** src/headers/header.rs:15-22 with src/server/allow.rs:87-103. *)
Definition allow_apply (h : headers) (order : list method) : headers := apply_value h ALLOW (allow_value order).

(** ** security/strict_transport_security.rs *)
Definition STRICT_TRANSPORT_SECURITY : str := lit "strict-transport-security".
(** src/security/strict_transport_security.rs:14-18. *)
Record hsts : Type := Hsts { max_age : duration; include_subdomains : bool; preload : bool }.
(** src/security/strict_transport_security.rs:78-90 *)
Definition hsts_value (s : hsts) : str :=
  lit "max-age=" ++ show_dec (secs (max_age s))
  ++ (if include_subdomains s then lit ";includeSubdomains" else []) ++ (if preload s then lit ";preload" else []).
(** src/security/strict_transport_security.rs:113-131, the loop; the state is (max_age, include_subdomains, preload). *)
Fixpoint hsts_read (parts : list str) (st : option duration * bool * bool) : outcome (option duration * bool * bool) :=
  match parts with
  | [] => Ok st
  | p :: ps =>
      let t := trim p in
      let '(age, sub, pre) := st in
      if seqb t (lit "includesubdomains") then hsts_read ps (age, true, pre)
      else if seqb t (lit "preload") then hsts_read ps (age, sub, true)
      else match split_once c_eq t with
           | None => hsts_read ps st
           | Some (k, v) =>
               if seqb k (lit "max-age") then
                 let* n := ok_or 400 (parse_uint 10 u64_max v) in hsts_read ps (Some (from_secs n), sub, pre)
               else hsts_read ps st
           end
  end.
(** src/security/strict_transport_security.rs:107-146 *)
Definition hsts_parse (s : str) : outcome hsts :=
  let* st := hsts_read (split c_semi s) (None, false, false) in
  let '(age, sub, pre) := st in
  match age with Some a => Ok (Hsts a sub pre) | None => Err 400 end.
(** src/security/strict_transport_security.rs:97-105 *)
Definition hsts_from_headers (h : headers) : outcome (option hsts) := with_last h STRICT_TRANSPORT_SECURITY hsts_parse.
(** src/headers/header.rs:15-22 with src/security/strict_transport_security.rs:73-91. *)
Definition hsts_apply (h : headers) (s : hsts) : headers := apply_value h STRICT_TRANSPORT_SECURITY (hsts_value s).

(** ** Headers holding a [Url]; the url crate is a parameter: [parse], [join] and [show] ([Display]). *)
Section Url.
  Context {url : Type} (url_parse : str -> option url) (url_join : url -> str -> option url) (url_show : url -> str).

  (** src/content/content_location.rs:45-65; [base] is the result of [base_url.try_into()]. *)
  Definition CONTENT_LOCATION : str := lit "content-location".
  (** src/content/content_location.rs:45-65. *)
  Definition location_from_headers (base : option url) (h : headers) : outcome (option url) :=
    with_last h CONTENT_LOCATION (fun v =>
      match base with
      | Some b => ok_or 400 (url_join b (trim v))
      | None => Err 400
      end).
  (** src/content/content_location.rs:85-87 *)
  Definition location_apply (h : headers) (u : url) : headers := apply_value h CONTENT_LOCATION (url_show u).

  (** src/other/referer.rs:48-71 and src/other/source_map.rs:45-68, the same code. *)
  Inductive reference : Type := Referer | SourceMap.
  (** src/other/referer.rs:90-92, src/other/source_map.rs:87-89. *)
  Definition reference_name (r : reference) : str := match r with Referer => lit "referer" | SourceMap => lit "sourcemap" end.
  (** src/other/referer.rs:48-71, src/other/source_map.rs:45-68. *)
  Definition reference_from_headers (r : reference) (base : option url) (h : headers) : outcome (option url) :=
    with_last h (reference_name r) (fun v =>
      match url_parse v with
      | Some u => Ok u
      | None => match base with
                | Some b => ok_or 500 (url_join b (trim v))
                | None => Err 500
                end
      end).
  (** src/other/referer.rs:94-99, src/other/source_map.rs:91-96 *)
  Definition reference_apply (r : reference) (h : headers) (u : url) : headers := apply_value h (reference_name r) (url_show u).

  (** src/security/timing_allow_origin.rs:88-99, the loop ([trim_start], not [trim]). *)
  Definition TIMING_ALLOW_ORIGIN : str := lit "timing-allow-origin".
  (** src/security/timing_allow_origin.rs:80-102. *)
  Fixpoint origins_read (parts : list str) : outcome (list url * bool) :=
    match parts with
    | [] => Ok ([], false)
    | p :: ps =>
        let o := trim_start_matches is_ws p in
        if seqb o (lit "*") then let* (us, _) := origins_read ps in Ok (us, true)
        else if seqb o (lit """null""") then origins_read ps
        else let* u := ok_or 400 (url_parse o) in
             let* (us, w) := origins_read ps in Ok (u :: us, w)
    end.
  (** src/security/timing_allow_origin.rs:80-102; the values are not trimmed before they are split. *)
  Definition origins_from_headers (h : headers) : outcome (option (list url * bool)) :=
    with_all h TIMING_ALLOW_ORIGIN (fun vs => origins_read (flat_map (split c_comma) vs)).
  (** src/security/timing_allow_origin.rs:138-156 *)
  Definition origins_value (a : list url * bool) : str := list_value (lit "*") (map url_show (fst a)) (snd a).
  (** src/headers/header.rs:15-22 with src/security/timing_allow_origin.rs:134-157. *)
  Definition origins_apply (h : headers) (a : list url * bool) : headers := apply_value h TIMING_ALLOW_ORIGIN (origins_value a).
End Url.
