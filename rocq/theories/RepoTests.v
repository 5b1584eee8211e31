(** * The crate's own tests, run on the model
    One [Example] for each unit and integration test of /repo whose subject is modelled.
    Each is computed by the kernel from the same inputs and compared with the value that the Rust test asserts.
    These are tests of the model against what the authors of the crate say that it does, not proofs of a property.
    The texts of errors are not modelled, so a test that compares one is replayed as the status of the error. *)
From Coq Require Import String List NArith ZArith Bool.
From Verif Require Import Base Headers Typed Float Mime ParseUtils Method StatusCode HttpDate Auth Cache Conditional
  Negotiate Other Lists Compare Clock Timing TimingProps Trace Body Message MessageOps Forwarded HeaderIter.
From Verif Require Security Query Debug Files.
Import ListNotations.
Open Scope N_scope.

(** ** Helpers *)
Definition name (s : string) : str := match name_into (lit s) with Ok n => n | _ => [] end.
Definition ins (n v : string) : headers := fst (h_insert headers_new (name n) (TvText (lit v))).
Definition add (h : headers) (n v : string) : headers := fst (h_append h (name n) (TvText (lit v))).
Definition w (s : string) : option float := parse_float f32_format (lit s).
Definition nori : string := "<nori ate the tag. yum.>".
Definition SEC : Z := 1000000000.
(** An instant with a part below the second, in place of [SystemTime::now()]. *)
Definition now : systime := (1475419451 * SEC + 123456789)%Z.
Definition whole_second : systime := (1475419451 * SEC)%Z.
Definition is_err {A} (n : N) (o : outcome A) : bool := match o with Err m => m =? n | _ => false end.
Definition ok_and {A} (f : A -> bool) (o : outcome A) : bool := match o with Ok a => f a | _ => false end.

(** ** src/auth *)
(** src/auth/authorization.rs:113-127 *)
Example t_authorization_smoke :
  auth_from_headers (auth_apply headers_new (Basic, lit "0xdeadbeef202020")) = Ok (Some (Basic, lit "0xdeadbeef202020")).
Proof. vm_compute. reflexivity. Qed.
(** src/auth/authorization.rs:129-137 *)
Example t_authorization_bad_request : auth_from_headers (ins "authorization" nori) = Err 400.
Proof. vm_compute. reflexivity. Qed.
(** src/auth/basic_auth.rs:119-133 *)
Example t_basic_smoke :
  basic_from_headers (basic_apply headers_new (lit "nori", lit "secret_fish!!")) = Ok (Some (lit "nori", lit "secret_fish!!")).
Proof. vm_compute. reflexivity. Qed.
(** src/auth/basic_auth.rs:135-143 *)
Example t_basic_bad_request : basic_from_headers (ins "authorization" nori) = Err 400.
Proof. vm_compute. reflexivity. Qed.
(** src/auth/www_authenticate.rs:135-154 *)
Example t_www_smoke :
  let h := www_apply headers_new (Basic, lit "Access to the staging site") in
  h_index h (lit "WWW-Authenticate") = Ok [lit "Basic realm=""Access to the staging site"", charset=""UTF-8"""] /\
  www_from_headers h = Ok (Some (Basic, lit "Access to the staging site")).
Proof. vm_compute. split; reflexivity. Qed.
(** src/auth/www_authenticate.rs:156-164 *)
Example t_www_bad_request : www_from_headers (ins "www-authenticate" nori) = Err 400.
Proof. vm_compute. reflexivity. Qed.

(** ** src/cache *)
(** src/cache/age.rs:90-100 *)
Example t_age_smoke : age_from_headers (age_apply headers_new (from_secs 12)) = Ok (Some (from_secs 12)).
Proof. vm_compute. reflexivity. Qed.
(** src/cache/age.rs:102-108 *)
Example t_age_bad_request : age_from_headers (ins "age" nori) = Err 400.
Proof. vm_compute. reflexivity. Qed.
(** src/cache/cache_control/mod.rs:21-35 *)
Example t_cache_control_smoke :
  cache_from_headers (cache_apply headers_new [Immutable; NoStore]) = Ok (Some [Immutable; NoStore]).
Proof. vm_compute. reflexivity. Qed.
(** src/cache/cache_control/mod.rs:37-45 *)
Example t_cache_control_unknown : cache_from_headers (ins "cache-control" "barrel_roll") = Ok (Some []).
Proof. vm_compute. reflexivity. Qed.
(** src/cache/cache_control/mod.rs:47-53 *)
Example t_cache_control_bad_request : cache_from_headers (ins "cache-control" "min-fresh=0.9") = Err 400.
Proof. vm_compute. reflexivity. Qed.
(** src/cache/clear_site_data/mod.rs:246-260 *)
Example t_clear_smoke :
  clear_from_headers (clear_apply headers_new (c_push (c_push c_new ClearCache) ClearCookies)) =
  Ok (Some ([ClearCache; ClearCookies], false)).
Proof. vm_compute. reflexivity. Qed.
(** src/cache/clear_site_data/mod.rs:262-276 *)
Example t_clear_wildcard :
  clear_from_headers (clear_apply headers_new (c_set_wildcard (c_push c_new ClearCache) true)) = Ok (Some ([ClearCache], true)).
Proof. vm_compute. reflexivity. Qed.
(** src/cache/clear_site_data/mod.rs:278-298 *)
Example t_clear_quotes :
  clear_from_headers (ins "clear-site-data" """cookies""") = Ok (Some ([ClearCookies], false)) /\
  clear_from_headers (ins "clear-site-data" """*""") = Ok (Some ([], true)).
Proof. vm_compute. split; reflexivity. Qed.
(** src/cache/expires.rs:91-105, src/conditional/last_modified.rs:87-101, if_modified_since.rs:88-102,
    if_unmodified_since.rs:88-102 and src/other/date.rs:114-127: the instant read back is within a second. *)
Example t_dates_smoke : forall d,
  (let* h := date_apply d headers_new (now + 300 * SEC)%Z in date_from_headers d h) = Ok (Some (whole_second + 300 * SEC)%Z).
Proof. intros [| | | |]; vm_compute; reflexivity. Qed.
(** src/cache/expires.rs:107-113, src/conditional/last_modified.rs:103-111, if_modified_since.rs:104-112,
    if_unmodified_since.rs:104-112 and src/other/date.rs:129-135 *)
Example t_dates_bad_request :
  date_from_headers Expires (ins "expires" nori) = Err 400 /\
  date_from_headers LastModified (ins "last-modified" nori) = Err 400 /\
  date_from_headers IfModifiedSince (ins "if-modified-since" nori) = Err 400 /\
  date_from_headers IfUnmodifiedSince (ins "if-unmodified-since" nori) = Err 400 /\
  date_from_headers DateHeader (ins "date" nori) = Err 400.
Proof. vm_compute. repeat split; reflexivity. Qed.

(** ** src/conditional *)
(** src/conditional/etag.rs:140-150 *)
Example t_etag_smoke :
  (let* e := etag_new true false (lit "0xcafebeef") in etag_from_headers (etag_apply headers_new e)) =
  Ok (Some (Strong (lit "0xcafebeef"))).
Proof. vm_compute. reflexivity. Qed.
(** src/conditional/etag.rs:152-162 *)
Example t_etag_smoke_weak :
  (let* e := etag_new true true (lit "0xcafebeef") in etag_from_headers (etag_apply headers_new e)) =
  Ok (Some (Weak (lit "0xcafebeef"))).
Proof. vm_compute. reflexivity. Qed.
(** src/conditional/etag.rs:164-170, 172-185 and 187-191 *)
Example t_etag_invalid :
  forallb (fun v => is_err 400 (etag_from_headers (fst (h_insert headers_new (lit "etag") (TvText v)))))
    [lit nori; lit """hello"; lit "hello"""; lit "/O""valid content"""; lit "/Wvalid content""";
     lit """""hello"""; lit """hello" ++ [127] ++ lit """"] = true.
Proof. vm_compute. reflexivity. Qed.
(** src/conditional/if_match.rs:236-256 and if_none_match.rs:242-262 *)
Example t_cond_smoke : forall k,
  cond_from_headers k (cond_apply k headers_new
    (c_push (c_push c_new (Strong (lit "0xcafebeef"))) (Strong (lit "0xbeefcafe")))) =
  Ok (Some ([Strong (lit "0xcafebeef"); Strong (lit "0xbeefcafe")], false)).
Proof. intros [|]; vm_compute; reflexivity. Qed.
(** src/conditional/if_match.rs:258-275 and if_none_match.rs:264-281 *)
Example t_cond_wildcard : forall k,
  cond_from_headers k (cond_apply k headers_new (c_set_wildcard (c_push c_new (Strong (lit "0xcafebeef"))) true)) =
  Ok (Some ([Strong (lit "0xcafebeef")], true)).
Proof. intros [|]; vm_compute; reflexivity. Qed.
(** src/conditional/vary.rs:243-257: the names read back compare equal to the names pushed, whatever their case. *)
Example t_vary_smoke :
  ok_and (fun o => match o with
                   | Some ([a; b], false) => name_eq a (lit "User-Agent") && name_eq b (lit "Accept-Encoding")
                   | _ => false end)
    (let* v := vary_push ([], false) (lit "User-Agent") in
     let* v := vary_push v (lit "Accept-Encoding") in
     let* h := vary_apply headers_new v in vary_from_headers h) = true.
Proof. vm_compute. reflexivity. Qed.
(** src/conditional/vary.rs:259-273 *)
Example t_vary_wildcard :
  ok_and (fun o => match o with Some ([a], true) => name_eq a (lit "User-Agent") | _ => false end)
    (let* v := vary_push ([], false) (lit "User-Agent") in
     let* h := vary_apply headers_new (c_set_wildcard v true) in vary_from_headers h) = true.
Proof. vm_compute. reflexivity. Qed.

(** ** src/content and src/transfer: negotiation *)
Definition media_back (l : list media_proposal) (wild : bool) : outcome (option (list media_proposal * bool)) :=
  media_from_headers (media_apply headers_new (l, wild)).
Definition types (a : list media_proposal * bool) : list mime := map mp_type (fst a).
Definition media (l : list (mime * option float)) : outcome (list media_proposal) :=
  map_outcome (fun p => media_new (fst p) (snd p)) l.
(** Round trip, then sort, then list the media types. *)
Definition media_sorted (l : list (mime * option float)) : outcome (option (list mime)) :=
  let* ps := media l in let* o := media_back ps false in Ok (option_map (fun a => types (m_sort a)) o).
Definition nego (l : list (mime * option float)) (wild : bool) (available : list mime) : outcome mime :=
  let* ps := media l in media_negotiate (ps, wild) available.

(** src/content/accept.rs:295-306, 308-319, 321-334 and 336-350 *)
Example t_accept_back :
  (let* o := media_back [media_of MIME_HTML] false in Ok (option_map types o)) = Ok (Some [MIME_HTML]) /\
  (let* o := media_back [] true in Ok (option_map snd o)) = Ok (Some true) /\
  (let* o := media_back [media_of MIME_HTML] true in Ok (option_map (fun a => (types a, snd a)) o)) = Ok (Some ([MIME_HTML], true)) /\
  (let* o := media_back [media_of MIME_HTML; media_of MIME_XML] false in Ok (option_map types o)) = Ok (Some [MIME_HTML; MIME_XML]).
Proof. vm_compute. repeat split; reflexivity. Qed.
(** src/content/accept.rs:352-369 *)
Example t_accept_reorder :
  media_sorted [(MIME_HTML, w "0.4"); (MIME_XML, None); (MIME_PLAIN, w "0.8")] = Ok (Some [MIME_XML; MIME_PLAIN; MIME_HTML]).
Proof. vm_compute. reflexivity. Qed.
(** src/content/accept.rs:371-388 *)
Example t_accept_reorder_location :
  media_sorted [(MIME_HTML, None); (MIME_XML, None); (MIME_PLAIN, w "0.8")] = Ok (Some [MIME_XML; MIME_HTML; MIME_PLAIN]).
Proof. vm_compute. reflexivity. Qed.
(** src/content/accept.rs:390-399, 401-412, 414-422 and 424-441 *)
Example t_accept_negotiate :
  nego [(MIME_HTML, w "0.4"); (MIME_PLAIN, w "0.8"); (MIME_XML, None)] false [MIME_HTML; MIME_XML] = Ok MIME_XML /\
  nego [] false [MIME_JSON] = Err 406 /\
  nego [(MIME_JSON, w "0.8")] false [MIME_XML] = Err 406 /\
  nego [(MIME_JSON, w "0.8")] true [MIME_XML] = Ok MIME_XML /\
  (let* m := mime_parse (lit "text/html") in nego [(m, None)] false [MIME_HTML]) = Ok MIME_HTML.
Proof. vm_compute. repeat split; reflexivity. Qed.

Definition codings (a : list proposal * bool) : list coding := map p_coding (fst a).
Definition props (l : list (coding * option float)) : outcome (list proposal) :=
  map_outcome (fun p => proposal_new (fst p) (snd p)) l.
Definition accept_back (k : family) (l : list proposal) (wild : bool) : outcome (option (list coding * bool)) :=
  let* o := accept_from_headers k (accept_apply k headers_new (l, wild)) in
  Ok (option_map (fun a => (codings a, snd a)) o).
Definition accept_sorted (k : family) (l : list (coding * option float)) : outcome (option (list coding)) :=
  let* ps := props l in
  let* o := accept_from_headers k (accept_apply k headers_new (ps, false)) in
  Ok (option_map (fun a => codings (c_sort a)) o).
Definition coding_nego (l : list (coding * option float)) (wild : bool) (available : list coding) : outcome coding :=
  let* ps := props l in negotiate (ps, wild) available.
(** src/content/accept_encoding.rs:288-299, 301-312, 314-327 and 329-343; src/transfer/te.rs:286-297, 299-310, 312-325 and 327-341 *)
Example t_codings_back : forall k,
  accept_back k [proposal_of Gzip] false = Ok (Some ([Gzip], false)) /\
  accept_back k [] true = Ok (Some ([], true)) /\
  accept_back k [proposal_of Gzip] true = Ok (Some ([Gzip], true)) /\
  accept_back k [proposal_of Gzip; proposal_of Brotli] false = Ok (Some ([Gzip; Brotli], false)).
Proof. intros [|]; vm_compute; repeat split; reflexivity. Qed.
(** src/content/accept_encoding.rs:345-362 and 364-381; src/transfer/te.rs:343-360 and 362-379 *)
Example t_codings_reorder : forall k,
  accept_sorted k [(Gzip, w "0.4"); (Identity, None); (Brotli, w "0.8")] = Ok (Some [Brotli; Gzip; Identity]) /\
  accept_sorted k [(Identity, None); (Gzip, None); (Brotli, w "0.8")] = Ok (Some [Brotli; Gzip; Identity]).
Proof. intros [|]; vm_compute; split; reflexivity. Qed.
(** src/content/accept_encoding.rs:383-395, 397-408 and 410-418; src/transfer/te.rs:381-393, 395-406 and 408-416 *)
Example t_codings_negotiate :
  coding_nego [(Brotli, w "0.8"); (Gzip, w "0.4"); (Identity, None)] false [Brotli; Gzip] = Ok Brotli /\
  coding_nego [] false [Gzip] = Err 406 /\
  coding_nego [(Brotli, w "0.8")] false [Gzip] = Err 406 /\
  coding_nego [(Brotli, w "0.8")] true [Gzip] = Ok Gzip.
Proof. vm_compute. repeat split; reflexivity. Qed.
(** src/content/encoding_proposal.rs:125-142, src/transfer/encoding_proposal.rs:127-144 and
    src/content/media_type_proposal.rs:143-160 *)
Example t_weights :
  forallb (fun s => is_ok (proposal_new Gzip (w s)) && is_ok (media_new MIME_JSON (w s))) ["0.0"; "0.5"; "1.0"]%string = true /\
  forallb (fun s => is_err 500 (proposal_new Gzip (w s)) && is_err 500 (media_new MIME_JSON (w s))) ["1.1"; "-0.1"; "-0.0"]%string = true.
Proof. vm_compute. split; reflexivity. Qed.

(** ** src/content: the rest *)
(** src/content/content_length.rs:82-92 and 94-102 *)
Example t_content_length :
  length_from_headers (length_apply headers_new 12) = Ok (Some 12) /\ length_from_headers (ins "content-length" nori) = Err 400.
Proof. vm_compute. split; reflexivity. Qed.
(** src/content/content_type.rs:112-125 and 127-135 *)
Example t_content_type :
  (let* m := mime_parse (lit "text/*") in
   let* o := ctype_from_headers (ctype_apply headers_new m) in Ok (option_map mime_format o)) = Ok (Some (lit "text/*")) /\
  ctype_from_headers (ins "content-type" nori) = Err 400.
Proof. vm_compute. split; reflexivity. Qed.

(** Stand-ins for the [url] crate, which is a parameter of the model: the URLs that the tests use, and no others.
    [Url::parse] writes an empty path as a slash. *)
Definition urls : list (str * str) :=
  map (fun p => (lit (fst p), lit (snd p)))
    [("https://example.net/test.json", "https://example.net/test.json"); ("https://example.net/", "https://example.net/");
     ("https://example.net", "https://example.net/"); ("https://fallback.net/", "https://fallback.net/");
     ("https://fallback.net/test.json", "https://fallback.net/test.json");
     ("https://example.com/test.json", "https://example.com/test.json"); ("https://example.com", "https://example.com/");
     ("https://example.com/", "https://example.com/"); ("https://mozilla.org/", "https://mozilla.org/")]%string.
Definition url_table (s : str) : option str := option_map snd (find (fun p => seqb (fst p) s) urls).
Definition join_table (base s : str) : option str :=
  match url_table s with
  | Some u => Some u
  | None => match s with 47 :: s' => url_table (base ++ s') | _ => None end
  end.
Definition parsed (s : string) : str := match url_table (lit s) with Some u => u | None => [] end.
(** src/content/content_location.rs:101-116 and 118-128 *)
Example t_content_location :
  location_from_headers join_table (Some (parsed "https://example.net/"))
    (location_apply (fun u => u) headers_new (parsed "https://example.net/test.json")) =
  Ok (Some (parsed "https://example.net/test.json")) /\
  location_from_headers join_table (Some (parsed "https://example.net"))
    (ins "content-location" "htt://<nori ate the tag. yum.>") = Err 400.
Proof. vm_compute. split; reflexivity. Qed.
(** src/other/referer.rs:107-121, 123-132 and 134-159; src/other/source_map.rs:104-118, 120-129 and 131-156 *)
Example t_references : forall r,
  let back base h := reference_from_headers url_table join_table r (Some (parsed base)) h in
  let value v := fst (h_insert headers_new (reference_name r) (TvText (lit v))) in
  back "https://example.net/"%string (reference_apply (fun u => u) r headers_new (parsed "https://example.net/test.json")) =
    Ok (Some (parsed "https://example.net/test.json")) /\
  back "https://example.net"%string (value "htt://<nori ate the tag. yum.>"%string) = Err 500 /\
  back "https://fallback.net/"%string (value "/test.json"%string) = Ok (Some (parsed "https://fallback.net/test.json")) /\
  back "https://fallback.net/"%string (value "https://example.com/test.json"%string) =
    Ok (Some (parsed "https://example.com/test.json")).
Proof. intros [|]; vm_compute; repeat split; reflexivity. Qed.
(** src/security/timing_allow_origin.rs:263-275, 277-294, 296-304 and 306-320 *)
Example t_origins :
  let back l wild := origins_from_headers url_table (origins_apply (fun u => u) headers_new (l, wild)) in
  back [parsed "https://example.com"] false = Ok (Some ([parsed "https://example.com"], false)) /\
  back [parsed "https://example.com"; parsed "https://mozilla.org/"] false =
    Ok (Some ([parsed "https://example.com"; parsed "https://mozilla.org/"], false)) /\
  origins_from_headers url_table (ins "timing-allow-origin" "server; <nori ate your param omnom>") = Err 400 /\
  back [parsed "https://example.com"] true = Ok (Some ([parsed "https://example.com"], true)).
Proof. vm_compute. repeat split; reflexivity. Qed.

(** ** src/extensions.rs:108-126; the types i32, MyType and bool are 1, 2 and 3. *)
Example t_extensions :
  let e := fst (ext_insert (fst (ext_insert ext_new 1 5)) 2 10) in
  let (e', old) := ext_remove e 1 in
  ext_get e 1 = Some 5 /\ old = Some 5 /\ ext_get e' 1 = None /\ ext_get e' 3 = None /\ ext_get e' 2 = Some 10.
Proof. vm_compute. repeat split; reflexivity. Qed.

(** ** src/headers *)
(** src/headers/header.rs:50-55 *)
Example t_header_from_strings :
  ok_and (fun n => name_eq n (lit "Content-Length")) (pair_name (lit "Content-Length", lit "12")) = true /\
  pair_value (lit "Content-Length", lit "12") = Ok (lit "12").
Proof. vm_compute. split; reflexivity. Qed.
(** src/headers/header_name.rs:145-158 and 160-170 *)
Example t_header_name :
  name_from_str (lit "hello") = Ok (lit "hello") /\ name_eq (lit "hello") (lit "hello") = true /\
  name_eq (lit "hello") (lit "Hello") = true.
Proof. vm_compute. repeat split; reflexivity. Qed.
Definition no_escape (c : N) : str := [c].
(** src/headers/header_name.rs:179-183, header_value.rs:148-152 and header_values.rs:194-207 *)
Example t_value_debug :
  value_debug no_escape (lit "hello") = lit """hello""" /\
  value_debug no_escape (lit "foo0") = lit """foo0""" /\
  values_debug no_escape [lit "foo0"] = lit """foo0""" /\
  values_debug no_escape [lit "foo0"; lit "foo1"] = lit "[""foo0"", ""foo1""]".
Proof. vm_compute. repeat split; reflexivity. Qed.
(** src/headers/headers.rs:210-225 *)
Example t_headers_static :
  let app h v := fst (h_append h (lit "hello") (TvText (lit v))) in
  (let* vs := h_index (app (app (app headers_new "foo0"%string) "foo1"%string) "foo2"%string) (lit "hello") in
   Ok (values_eq_list vs [lit "foo0"; lit "foo1"; lit "foo2"])) = Ok true.
Proof. vm_compute. reflexivity. Qed.
(** src/headers/headers.rs:227-233 *)
Example t_headers_index :
  (let* vs := h_index (ins "hello" "foo0") (lit "hello") in Ok (values_eq_str vs (lit "foo0"))) = Ok true /\
  option_map (fun vs => values_eq_str vs (lit "foo0")) (h_get (ins "hello" "foo0") (lit "hello")) = Some true.
Proof. vm_compute. split; reflexivity. Qed.
(** src/headers/headers.rs:235-240 and 242-248 *)
Example t_headers_debug :
  headers_debug no_escape (ins "single" "foo0") = lit "{""single"": ""foo0""}" /\
  headers_debug no_escape
    (fst (h_append (fst (h_append headers_new (lit "multi") (TvText (lit "foo0")))) (lit "multi") (TvText (lit "foo1")))) =
  lit "{""multi"": [""foo0"", ""foo1""]}".
Proof. vm_compute. split; reflexivity. Qed.

(** ** src/method.rs *)
(** src/method.rs:522-527 and 529-532 *)
Example t_method_serde :
  method_deserialize (lit "GET") = Some M_Get /\ method_str M_Patch = lit "PATCH" /\ method_deserialize (lit "ABC") = None.
Proof. vm_compute. repeat split; reflexivity. Qed.
(** src/method.rs:536-576 *)
Definition method_names : list string :=
  ["ACL"; "BASELINE-CONTROL"; "BIND"; "CHECKIN"; "CHECKOUT"; "CONNECT"; "COPY"; "DELETE"; "GET"; "HEAD"; "LABEL"; "LINK";
   "LOCK"; "MERGE"; "MKACTIVITY"; "MKCALENDAR"; "MKCOL"; "MKREDIRECTREF"; "MKWORKSPACE"; "MOVE"; "OPTIONS"; "ORDERPATCH";
   "PATCH"; "POST"; "PRI"; "PROPFIND"; "PROPPATCH"; "PUT"; "REBIND"; "REPORT"; "SEARCH"; "TRACE"; "UNBIND"; "UNCHECKOUT";
   "UNLINK"; "UNLOCK"; "UPDATE"; "UPDATEREDIRECTREF"; "VERSION-CONTROL"]%string.
(** src/method.rs:534-591: every name is read, no two as the same method, and each method's name is read as it. *)
Example t_method_names :
  match map_outcome (fun s => method_from_str (lit s)) method_names with
  | Ok ms => length (fold_left (fun s m => set_insert m s) ms []) = length method_names /\
             map_outcome (fun m => method_from_str (method_str m)) ms = Ok ms
  | _ => False
  end.
Proof. vm_compute. split; reflexivity. Qed.

(** ** src/mime/parse.rs *)
(** src/mime/parse.rs:282-307 *)
Example t_mime :
  let is (b s : string) m := seqb (basetype m) (lit b) && seqb (subtype m) (lit s) in
  let utf8 m := match param m (lit "charset") with Ok (Some v) => seqb v (lit "utf-8") | _ => false end in
  ok_and (is "text" "html")%string (mime_parse (lit "text/html")) = true /\
  ok_and (is "text" "html")%string (mime_parse (lit "text/html;")) = true /\
  ok_and (fun m => is "text" "html" m && utf8 m)%string (mime_parse (lit "text/html; charset=utf-8")) = true /\
  ok_and (fun m => is "text" "html" m && utf8 m)%string (mime_parse (lit "text/html; charset=utf-8;")) = true /\
  forallb (fun s => negb (is_ok (mime_parse (lit s)))) ["text"; "text/"; "t/"]%string = true /\
  is_ok (mime_parse (lit "t/h")) = true.
Proof. vm_compute. repeat split; reflexivity. Qed.
(** src/mime/parse.rs:309-508: the web platform tests that the crate carries.  Each pair is a text and what is printed
    after reading it. *)
Definition wpt_parses : list (str * str) :=
  [ (lit "text/html;charset=gbk", lit "text/html;charset=gbk");
    (lit "TEXT/HTML;CHARSET=GBK", lit "text/html;charset=GBK");
    (lit "text/html;charset=gbk(", lit "text/html;charset=""gbk(""");
    (lit "text/html;x=(;charset=gbk", lit "text/html;x=""("";charset=gbk");
    (lit "text/html;charset=gbk;charset=windows-1255", lit "text/html;charset=gbk");
    (lit "text/html;charset=();charset=GBK", lit "text/html;charset=""()""");
    (lit "text/html;charset =gbk", lit "text/html");
    (lit "text/html ;charset=gbk", lit "text/html;charset=gbk");
    (lit "text/html; charset=gbk", lit "text/html;charset=gbk");
    (lit "text/html;charset= gbk", lit "text/html;charset="" gbk""");
    (lit "text/html;charset= ""gbk""", lit "text/html;charset="" \""gbk\""""");
    ((lit "text/html;charset=" ++ [11] ++ lit "gbk"), lit "text/html");
    ((lit "text/html;charset=" ++ [12] ++ lit "gbk"), lit "text/html");
    ((lit "text/html;" ++ [11] ++ lit "charset=gbk"), lit "text/html");
    ((lit "text/html;" ++ [12] ++ lit "charset=gbk"), lit "text/html");
    (lit "text/html;charset='gbk'", lit "text/html;charset='gbk'");
    (lit "text/html;charset='gbk", lit "text/html;charset='gbk");
    (lit "text/html;charset=gbk'", lit "text/html;charset=gbk'");
    (lit "text/html;charset=';charset=GBK", lit "text/html;charset='");
    (lit "text/html;test;charset=gbk", lit "text/html;charset=gbk");
    (lit "text/html;test=;charset=gbk", lit "text/html;charset=gbk");
    (lit "text/html;';charset=gbk", lit "text/html;charset=gbk");
    (lit "text/html;"";charset=gbk", lit "text/html;charset=gbk");
    (lit "text/html ; ; charset=gbk", lit "text/html;charset=gbk");
    (lit "text/html;;;;charset=gbk", lit "text/html;charset=gbk");
    ((lit "text/html;charset= """ ++ [127] ++ lit ";charset=GBK"), lit "text/html;charset=GBK");
    ((lit "text/html;charset=""" ++ [127] ++ lit ";charset=foo"";charset=GBK"), lit "text/html;charset=GBK");
    (lit "text/html;charset=""gbk""", lit "text/html;charset=gbk");
    (lit "text/html;charset=""gbk", lit "text/html;charset=gbk");
    (lit "text/html;charset=gbk""", lit "text/html;charset=""gbk\""""");
    (lit "text/html;charset="" gbk""", lit "text/html;charset="" gbk""");
    (lit "text/html;charset=""gbk """, lit "text/html;charset=""gbk """);
    (lit "text/html;charset=""\ gbk""", lit "text/html;charset="" gbk""");
    (lit "text/html;charset=""\g\b\k""", lit "text/html;charset=gbk");
    (lit "text/html;charset=""gbk""x", lit "text/html;charset=gbk");
    (lit "text/html;charset="""";charset=GBK", lit "text/html;charset=""""");
    (lit "text/html;charset="";charset=GBK", lit "text/html;charset="";charset=GBK""");
    (lit "text/html;charset={gbk}", lit "text/html;charset=""{gbk}""");
    (lit "text/html;0123456789012345678901234567890123456789012345678901234567890123456789012345678901234567890123456789012345678901234567890123456789=x;charset=gbk", lit "text/html;0123456789012345678901234567890123456789012345678901234567890123456789012345678901234567890123456789012345678901234567890123456789=x;charset=gbk");
    (lit "0123456789012345678901234567890123456789012345678901234567890123456789012345678901234567890123456789012345678901234567890123456789/0123456789012345678901234567890123456789012345678901234567890123456789012345678901234567890123456789012345678901234567890123456789", lit "0123456789012345678901234567890123456789012345678901234567890123456789012345678901234567890123456789012345678901234567890123456789/0123456789012345678901234567890123456789012345678901234567890123456789012345678901234567890123456789012345678901234567890123456789");
    (lit "!#$%&'*+-.^_`|~0123456789ABCDEFGHIJKLMNOPQRSTUVWXYZabcdefghijklmnopqrstuvwxyz/!#$%&'*+-.^_`|~0123456789ABCDEFGHIJKLMNOPQRSTUVWXYZabcdefghijklmnopqrstuvwxyz;!#$%&'*+-.^_`|~0123456789ABCDEFGHIJKLMNOPQRSTUVWXYZabcdefghijklmnopqrstuvwxyz=!#$%&'*+-.^_`|~0123456789ABCDEFGHIJKLMNOPQRSTUVWXYZabcdefghijklmnopqrstuvwxyz", lit "!#$%&'*+-.^_`|~0123456789abcdefghijklmnopqrstuvwxyzabcdefghijklmnopqrstuvwxyz/!#$%&'*+-.^_`|~0123456789abcdefghijklmnopqrstuvwxyzabcdefghijklmnopqrstuvwxyz;!#$%&'*+-.^_`|~0123456789abcdefghijklmnopqrstuvwxyzabcdefghijklmnopqrstuvwxyz=!#$%&'*+-.^_`|~0123456789ABCDEFGHIJKLMNOPQRSTUVWXYZabcdefghijklmnopqrstuvwxyz");
    ((lit "x/x;x=""" ++ [9] ++ lit " !\""#$%&'()*+,-./0123456789:;<=>?@ABCDEFGHIJKLMNOPQRSTUVWXYZ[\\]^_`abcdefghijklmnopqrstuvwxyz{|}~" ++ [128; 129; 130; 131; 132; 133; 134; 135; 136; 137; 138; 139; 140; 141; 142; 143; 144; 145; 146; 147; 148; 149; 150; 151; 152; 153; 154; 155; 156; 157; 158; 159; 160; 161; 162; 163; 164; 165; 166; 167; 168; 169; 170; 171; 172; 173; 174; 175; 176; 177; 178; 179; 180; 181; 182; 183; 184; 185; 186; 187; 188; 189; 190; 191; 192; 193; 194; 195; 196; 197; 198; 199; 200; 201; 202; 203; 204; 205; 206; 207; 208; 209; 210; 211; 212; 213; 214; 215; 216; 217; 218; 219; 220; 221; 222; 223; 224; 225; 226; 227; 228; 229; 230; 231; 232; 233; 234; 235; 236; 237; 238; 239; 240; 241; 242; 243; 244; 245; 246; 247; 248; 249; 250; 251; 252; 253; 254; 255] ++ lit """"), (lit "x/x;x=""" ++ [9] ++ lit " !\""#$%&'()*+,-./0123456789:;<=>?@ABCDEFGHIJKLMNOPQRSTUVWXYZ[\\]^_`abcdefghijklmnopqrstuvwxyz{|}~" ++ [128; 129; 130; 131; 132; 133; 134; 135; 136; 137; 138; 139; 140; 141; 142; 143; 144; 145; 146; 147; 148; 149; 150; 151; 152; 153; 154; 155; 156; 157; 158; 159; 160; 161; 162; 163; 164; 165; 166; 167; 168; 169; 170; 171; 172; 173; 174; 175; 176; 177; 178; 179; 180; 181; 182; 183; 184; 185; 186; 187; 188; 189; 190; 191; 192; 193; 194; 195; 196; 197; 198; 199; 200; 201; 202; 203; 204; 205; 206; 207; 208; 209; 210; 211; 212; 213; 214; 215; 216; 217; 218; 219; 220; 221; 222; 223; 224; 225; 226; 227; 228; 229; 230; 231; 232; 233; 234; 235; 236; 237; 238; 239; 240; 241; 242; 243; 244; 245; 246; 247; 248; 249; 250; 251; 252; 253; 254; 255] ++ lit """"));
    (lit "x/x;test", lit "x/x");
    (lit "x/x;test=""\", lit "x/x;test=""\\""");
    (lit "x/x;x= ", lit "x/x");
    ((lit "x/x;x=" ++ [9]), lit "x/x");
    ((lit "x/x" ++ [10; 13; 9] ++ lit " ;x=x"), lit "x/x;x=x");
    (([10; 13; 9] ++ lit " x/x;x=x" ++ [10; 13; 9] ++ lit " "), lit "x/x;x=x");
    ((lit "x/x;" ++ [10; 13; 9] ++ lit " x=x" ++ [10; 13; 9] ++ lit " ;x=y"), lit "x/x;x=x");
    ((lit "text/html;test=" ++ [255] ++ lit ";charset=gbk"), (lit "text/html;test=""" ++ [255] ++ lit """;charset=gbk"));
    ((lit "x/x;test=" ++ [65533] ++ lit ";x=x"), lit "x/x;x=x") ].
(** src/mime/parse.rs:309-508: the texts that are refused. *)
Definition wpt_fails : list str :=
  [ ([11] ++ lit "x/x");
    ([12] ++ lit "x/x");
    (lit "x/x" ++ [11]);
    (lit "x/x" ++ [12]);
    lit "";
    ([9]);
    lit "/";
    lit "bogus";
    lit "bogus/";
    lit "bogus/ ";
    lit "bogus/bogus/;";
    lit "</>";
    lit "(/)";
    ([255] ++ lit "/" ++ [255]);
    lit "text/html(;doesnot=matter";
    lit "{/}";
    ([256] ++ lit "/" ++ [256]);
    lit "text /html";
    lit "text/ html";
    lit """text/html""" ].
Example t_wpt :
  forallb (fun p => ok_and (fun m => seqb (mime_format m) (snd p)) (mime_parse (fst p))) wpt_parses = true /\
  forallb (fun s => match mime_parse s with Err _ => true | _ => false end) wpt_fails = true.
Proof. vm_compute. split; reflexivity. Qed.

(** ** src/other *)
(** src/other/expect.rs:75-85 and 87-93 *)
Example t_expect :
  expect_from_headers (expect_apply headers_new) = Ok (Some tt) /\ expect_from_headers (ins "expect" nori) = Err 400.
Proof. vm_compute. split; reflexivity. Qed.
(** src/other/retry_after.rs:131-147: seen from the instant at which it is read, the wait is the ten seconds sent. *)
Example t_retry_after :
  (let* h := retry_apply headers_new (After (from_secs 10)) in
   let* o := retry_from_headers h in
   match o with Some r => retry_since unix_latest now r now | None => Panic end) = Ok (inl (from_secs 10)).
Proof. vm_compute. reflexivity. Qed.
(** src/other/retry_after.rs:149-164: between nine and ten seconds. *)
Example t_retry_after_new_at :
  (let* h := retry_apply headers_new (At (now + 10 * SEC)%Z) in
   let* o := retry_from_headers h in
   match o with Some r => retry_since unix_latest now r now | None => Panic end) = Ok (inl (Dur 9 876543211)).
Proof. vm_compute. reflexivity. Qed.

(** ** src/parse_utils.rs *)
(** src/parse_utils.rs:123-133 *)
Example t_token :
  parse_token (lit "key=value") = Ok (Some (lit "key"), lit "=value") /\
  parse_token (lit "KEY=value") = Ok (Some (lit "KEY"), lit "=value") /\
  parse_token (lit "0123)=value") = Ok (Some (lit "0123"), lit ")=value") /\
  parse_token (lit "a=b") = Ok (Some (lit "a"), lit "=b") /\
  parse_token (lit "!#$%&'*+-.^_`|~=value") = Ok (Some (lit "!#$%&'*+-.^_`|~"), lit "=value").
Proof. vm_compute. repeat split; reflexivity. Qed.
(** src/parse_utils.rs:135-146 *)
Example t_token_unsuccessful :
  let bad := lit "(),/:;<=>?@[\]{}" in
  parse_token [] = Ok (None, []) /\ parse_token (lit "=value") = Ok (None, lit "=value") /\
  map (fun c => parse_token [c]) bad = map (fun c => Ok (None, [c])) bad /\
  map (fun c => parse_token (lit "match" ++ [c] ++ lit "rest")) bad = map (fun c => Ok (Some (lit "match"), [c] ++ lit "rest")) bad.
Proof. vm_compute. repeat split; reflexivity. Qed.
(** src/parse_utils.rs:148-162 *)
Example t_quoted :
  parse_quoted_string (lit """key""=value") = Ok (Some (lit "key"), lit "=value") /\
  parse_quoted_string (lit """escaped \"" quote \""""rest") = Ok (Some (lit "escaped "" quote """), lit "rest").
Proof. vm_compute. split; reflexivity. Qed.
(** src/parse_utils.rs:164-171 *)
Example t_quoted_unsuccessful :
  let bad := [lit """abc"; lit "hello"""; lit "=value\"; lit "\"""; lit """\"""] in
  map parse_quoted_string bad = map (fun s => Ok (None, s)) bad.
Proof. vm_compute. reflexivity. Qed.

(** ** src/proxies/forwarded.rs *)
(** src/proxies/forwarded.rs:474-477 *)
Example t_starts_with : starts_with_ignore_case (lit "helloooooo") (lit "h") = Ok false.
Proof. vm_compute. reflexivity. Qed.
Definition fors (s : string) : outcome (list str) := let* f := fw_parse (lit s) in Ok (fw_for f).
(** src/proxies/forwarded.rs:479-520 *)
Example t_forwarded_for :
  fors "for=""_gazonk""" = Ok [lit "_gazonk"] /\
  fors "For=""[2001:db8:cafe::17]:4711""" = Ok [lit "[2001:db8:cafe::17]:4711"] /\
  fors "for=192.0.2.60;proto=http;by=203.0.113.43" = Ok [lit "192.0.2.60"] /\
  fors "for=192.0.2.43,   for=198.51.100.17" = Ok [lit "192.0.2.43"; lit "198.51.100.17"] /\
  fors "for=192.0.2.43,for=""[2001:db8:cafe::17]"",for=unknown" =
    Ok [lit "192.0.2.43"; lit "[2001:db8:cafe::17]"; lit "unknown"] /\
  fors "for=192.0.2.43, for=""[2001:db8:cafe::17]"", for=unknown" =
    Ok [lit "192.0.2.43"; lit "[2001:db8:cafe::17]"; lit "unknown"] /\
  fors "for=192.0.2.43,for=""this is a valid quoted-string, \"" \\"",for=unknown" =
    Ok [lit "192.0.2.43"; lit "this is a valid quoted-string, "" \"; lit "unknown"].
Proof. vm_compute. repeat split; reflexivity. Qed.
(** src/proxies/forwarded.rs:522-532 and 623-634 *)
Example t_forwarded_basic :
  fw_parse (lit "for=client.com;by=proxy.com;host=host.com;proto=https") =
    Ok (mkForwarded (Some (lit "proxy.com")) [lit "client.com"] (Some (lit "host.com")) (Some (lit "https"))) /\
  fw_parse (lit "for=client;by=proxy.com;host=example.com;proto=https") =
    Ok (mkForwarded (Some (lit "proxy.com")) [lit "client"] (Some (lit "example.com")) (Some (lit "https"))).
Proof. vm_compute. split; reflexivity. Qed.
(** src/proxies/forwarded.rs:534-565 *)
Example t_forwarded_bad :
  forallb (fun s => match fw_parse (lit s) with Err _ => true | _ => false end)
    ["by=proxy.com;for=client;host=example.com;host"; "by;for;host;proto"; "for=for, key=value";
     "for=""unterminated string"; "for=, for=;"]%string = true.
Proof. vm_compute. reflexivity. Qed.
(** The parser of IPv6 addresses in std is a parameter of the model: here it knows the address that the test uses. *)
Definition one_ipv6 (s : str) : option str :=
  if seqb s (lit "2001:db8:cafe::17") then Some s else None.
(** src/proxies/forwarded.rs:567-579 *)
Example t_forwarded_bad_headers :
  is_ok (fw_from_headers one_ipv6 (ins "forwarded" "uh oh")) = false /\ fw_from_headers one_ipv6 headers_new = Ok None.
Proof. vm_compute. split; reflexivity. Qed.
(** src/proxies/forwarded.rs:581-597 *)
Example t_forwarded_x_headers :
  let h := add (add (add headers_new "X-Forwarded-For" "192.0.2.43, 2001:db8:cafe::17")
                    "X-Forwarded-Proto" "gopher") "X-Forwarded-Host" "example.com" in
  (let* o := fw_from_headers one_ipv6 h in match o with Some f => fw_value f | None => Panic end) =
  Ok (lit "for=192.0.2.43, for=""[2001:db8:cafe::17]"";host=example.com;proto=gopher").
Proof. vm_compute. reflexivity. Qed.
(** src/proxies/forwarded.rs:599-608 *)
Example t_forwarded_format :
  fw_value (add_for (add_for fw_new (lit "quote: "" backslash: \")) (lit ";proto=https")) =
  Ok (lit "for=""quote: \"" backslash: \\"", for="";proto=https""").
Proof. vm_compute. reflexivity. Qed.
(** src/proxies/forwarded.rs:610-621 *)
Example t_forwarded_edge :
  fw_parse (lit "for="";"", for="","", for=""\"""", for=unquoted;by="";proto=https""") =
    Ok (mkForwarded (Some (lit ";proto=https")) [lit ";"; lit ","; lit """"; lit "unquoted"] None None) /\
  (let* f := fw_parse (lit "proto=https") in Ok (fw_proto f)) = Ok (Some (lit "https")).
Proof. vm_compute. split; reflexivity. Qed.
(** src/proxies/forwarded.rs:636-645 and 647-658 *)
Example t_forwarded_request :
  (let* o := fw_from_headers one_ipv6 (ins "Forwarded" "for=for") in Ok (option_map fw_for o)) = Ok (Some [lit "for"]) /\
  (let* o := fw_from_headers one_ipv6 (ins "Forwarded" "for=for;by=by;host=host;proto=proto") in Ok (option_map fw_by o)) =
    Ok (Some (Some (lit "by"))).
Proof. vm_compute. split; reflexivity. Qed.
(** src/proxies/forwarded.rs:660-674 *)
Example t_forwarded_round_trip :
  let back s := (let* f := fw_parse (lit s) in let* v := fw_value f in fw_parse v) in
  back "for=client,for=b,for=c;by=proxy.com;host=example.com;proto=https"%string =
    fw_parse (lit "for=client,for=b,for=c;by=proxy.com;host=example.com;proto=https") /\
  back "by=proxy.com;proto=https;host=example.com;for=a,for=b"%string =
    fw_parse (lit "by=proxy.com;proto=https;host=example.com;for=a,for=b").
Proof. vm_compute. split; reflexivity. Qed.

(** ** src/request.rs *)
(** src/request.rs:1191-1194 *)
Definition test_request : request N := request_new M_Get (mkUrl (lit "http://async.rs/") (Some (lit "async.rs"))) 0.
Definition set_header (r : request N) (n v : string) : request N :=
  mkRequest (rq_method r) (rq_url r)
    (with_headers (rq_common r) (fst (h_insert (c_headers (rq_common r)) (name n) (TvText (lit v))))) (rq_trailers r).
Definition peer (r : request N) (a : string) : request N :=
  mkRequest (rq_method r) (rq_url r) (set_peer_addr (rq_common r) (Some (lit a))) (rq_trailers r).
Definition hs (r : request N) : headers := c_headers (rq_common r).
(** src/request.rs:1196-1203 *)
Definition set_x_for (r : request N) (client : string) : request N :=
  set_header r "x-forwarded-for" (client ++ ",proxy.com,other-proxy.com").
(** src/request.rs:1205-1212 *)
Definition set_x_host (r : request N) (host : string) : request N :=
  set_header r "x-forwarded-host" (host ++ ",proxy.com,other-proxy.com").
(** src/request.rs:1214-1221 *)
Definition set_forwarded (r : request N) (client : string) : request N :=
  set_header r "Forwarded" ("by=something.com;for=" ++ client ++ ";host=host.com;proto=http").
(** src/request.rs:1013-1020, 1022-1029, 1031-1038, 1040-1045, 1047-1051 and 1053-1058 *)
Example t_request_host :
  let r := set_x_host (set_forwarded test_request "-") "this will not be used" in
  forwarded_header_part (hs r) (lit "host") = Ok (Some (lit "host.com")) /\ host r = Ok (Some (lit "host.com")) /\
  forwarded_header_part (hs (set_x_host test_request "expected.host")) (lit "host") = Ok None /\
  host (set_x_host test_request "expected.host") = Ok (Some (lit "expected.host")) /\
  host (set_header test_request "x-forwarded-host" "expected.host") = Ok (Some (lit "expected.host")) /\
  host (set_header test_request "host" "host.header") = Ok (Some (lit "host.header")) /\
  host test_request = Ok (Some (lit "async.rs")) /\
  host (set_url test_request (mkUrl (lit "x:") None)) = Ok None.
Proof. vm_compute. repeat split; reflexivity. Qed.
(** src/request.rs:1060-1121 *)
Example t_request_shorthands :
  map (fun s => rq_method (@request_shorthand N s (mkUrl (lit "https://example.com/") (Some (lit "example.com"))) 0))
    [Get; Head; Post; Put; Delete; Connect; Options; MessageOps.Trace; Patch] =
  [M_Get; M_Head; M_Post; M_Put; M_Delete; M_Connect; M_Options; M_Trace; M_Patch].
Proof. vm_compute. reflexivity. Qed.
(** src/request.rs:1126-1134, 1136-1149, 1151-1161, 1163-1172, 1174-1181 and 1183-1188 *)
Example t_request_remote :
  let both r := (forwarded_for (hs r), remote r) in
  let one s := (Ok (Some (lit s)), Ok (Some (lit s))) in
  both (set_forwarded (peer test_request "127.0.0.1:8000") "127.0.0.1:8001") = one "127.0.0.1:8001"%string /\
  both (set_header (peer test_request "127.0.0.1:8000") "Forwarded" "this is an improperly ;;; formatted header") =
    (Ok None, Ok (Some (lit "127.0.0.1:8000"))) /\
  both (set_x_for (peer test_request "/dev/random") "forwarded-host.com") = one "forwarded-host.com"%string /\
  both (peer (set_x_for (set_forwarded test_request "forwarded.com") "forwarded-for-client.com") "127.0.0.1:8000") =
    one "forwarded.com"%string /\
  both (peer test_request "127.0.0.1:8000") = (Ok None, Ok (Some (lit "127.0.0.1:8000"))) /\
  both test_request = (Ok None, Ok None).
Proof. vm_compute. repeat split; reflexivity. Qed.

(** ** src/response.rs:728-731 and 733-737 *)
Example t_response_new : is_ok (@response_new N 200 0 1) = true /\ @response_new N 600 0 1 = Panic.
Proof. vm_compute. split; reflexivity. Qed.

(** ** src/security/strict_transport_security.rs:167-181, 183-191, 193-201 and 203-214 *)
Example t_hsts :
  hsts_from_headers (hsts_apply headers_new (Hsts (from_secs 30) false false)) = Ok (Some (Hsts (from_secs 30) false false)) /\
  hsts_from_headers (ins "strict-transport-security" nori) = Err 400 /\
  hsts_from_headers (ins "strict-transport-security" "max-age=birds") = Err 400 /\
  hsts_from_headers (ins "strict-transport-security" "max-age=30;     preload") = Ok (Some (Hsts (from_secs 30) false true)).
Proof. vm_compute. repeat split; reflexivity. Qed.

(** ** src/server/allow.rs:180-193 *)
Example t_allow :
  (let* o := allow_from_headers (allow_apply headers_new (allow_insert (allow_insert allow_new M_Put) M_Post)) in
   Ok (option_map (fun s => allow_contains s M_Put && allow_contains s M_Post) o)) = Ok (Some true).
Proof. vm_compute. reflexivity. Qed.

(** ** src/status.rs:173-176 and 178-184, src/status_code.rs:722-731 *)
Example t_status :
  status_opt (Some tt) 200 = ROk tt /\ status_std (inr (lit "oh no!") : N + str) 600 = RPanic /\
  status_deserialize 202 = Some S_Accepted /\ status_serialize S_Accepted = 202%Z.
Proof. vm_compute. repeat split; reflexivity. Qed.

(** ** src/trace *)
(** [Display] of a float (std) is a parameter of the model: here it writes a whole number in digits only. *)
Definition whole_show (v : N) : str := if v mod one f64_format =? 0 then show_dec (v / one f64_format) else exact_show v.
Definition second : option duration := Some (from_secs 1).
(** src/trace/server_timing/metric.rs:82-102 *)
Example t_metric :
  let value dur desc := (let* m := metric_new (lit "Server") dur desc in Ok (metric_value whole_show m)) in
  value None None = Ok (lit "Server") /\
  value second None = Ok (lit "Server; dur=1000") /\
  value None (Some (lit "A server timing")) = Ok (lit "Server; desc=""A server timing""") /\
  value second (Some (lit "A server timing")) = Ok (lit "Server; dur=1000; desc=""A server timing""").
Proof. vm_compute. repeat split; reflexivity. Qed.
(** src/trace/server_timing/mod.rs:222-234, 236-248 and 250-258 *)
Example t_timing :
  (let* m := metric_new (lit "server") None None in
   let* o := timing_from_headers cut_nanos (timing_apply whole_show headers_new [m]) in
   Ok (option_map (map m_name) o)) = Ok (Some [lit "server"]) /\
  timing_from_headers cut_nanos (ins "server-timing" "server; <nori ate your param omnom>") = Err 400.
Proof. vm_compute. split; reflexivity. Qed.
(** src/trace/server_timing/parse.rs:102-153 *)
Example t_timing_entries :
  let entry s := parse_entry cut_nanos (lit s) in
  let ms n := Some (of_nanos (n * 1000000)) in
  let cases := [("Server", Metric (lit "Server") None None); ("Server ", Metric (lit "Server") None None);
     ("Server; dur=1000", Metric (lit "Server") (ms 1000) None); ("Server; dur =1000", Metric (lit "Server") (ms 1000) None);
     ("Server; dur= 1000", Metric (lit "Server") (ms 1000) None); ("Server; dur = 1000", Metric (lit "Server") (ms 1000) None);
     ("DB; desc=""a db""", Metric (lit "DB") None (Some (lit "a db"))); ("DB; desc =""a db""", Metric (lit "DB") None (Some (lit "a db")));
     ("DB; desc= ""a db""", Metric (lit "DB") None (Some (lit "a db"))); ("DB; desc = ""a db""", Metric (lit "DB") None (Some (lit "a db")));
     ("DB; desc=a_db", Metric (lit "DB") None (Some (lit "a_db")));
     ("Server; dur=1000; desc=""a server""", Metric (lit "Server") (ms 1000) (Some (lit "a server")))]%string in
  map (fun p => entry (fst p)) cases = map (fun p => Ok (snd p)) cases /\
  forallb (fun s => match entry s with Err _ => true | _ => false end)
    ["Server ;"; "Server; "; "Server; dur=1000;"; "DB; desc=""db"; "Server; desc=a_db;"; "Server; dur=1000; desc=""a server"";"]%string = true.
Proof. vm_compute. split; reflexivity. Qed.
(** src/trace/server_timing/parse.rs:155-167 *)
Example t_timing_headers :
  timing_from_headers cut_nanos (ins "server-timing" "db;dur=53, app;dur=47.2") =
  Ok (Some [Metric (lit "db") (Some (of_nanos 53000000)) None; Metric (lit "app") (Some (of_nanos 47200000)) None]).
Proof. vm_compute. reflexivity. Qed.
(** src/trace/trace_context.rs:223-234, 236-243, 245-252 and 254-261; 9 is the random number drawn. *)
Example t_trace :
  let read s := context_from_headers 9 (ins "traceparent" s) in
  read "00-01-deadbeef-00"%string = Ok (Some (Context 9 0 1 (Some 3735928559) 0)) /\
  sampled (Context 9 0 1 (Some 3735928559) 0) = false /\
  ctx_version (context_new 9 8) = 0 /\ ctx_parent (context_new 9 8) = None /\ ctx_flags (context_new 9 8) = 1 /\
  sampled (context_new 9 8) = true /\
  (let* o := read "00-01-02-00"%string in Ok (option_map sampled o)) = Ok (Some false) /\
  (let* o := read "00-01-02-01"%string in Ok (option_map sampled o)) = Ok (Some true).
Proof. vm_compute. repeat split; reflexivity. Qed.

(** ** src/utils/date.rs *)
Definition at_sec (n : Z) : outcome systime := Ok (n * SEC)%Z.
(** src/utils/date.rs:422-434, 436-446 and 448-468; 470-476 *)
Example t_http_date :
  let cases :=
    [("Sun, 06 Nov 1994 08:49:37 GMT", 784111777%Z); ("Sunday, 06-Nov-94 08:49:37 GMT", 784111777%Z);
     ("Sun Nov  6 08:49:37 1994", 784111777%Z); ("Sun, 02 Oct 2016 14:44:11 GMT", 1475419451%Z);
     ("Thu, 01 Jan 1970 00:00:00 GMT", 0%Z); ("Thu, 01 Jan 1970 01:00:00 GMT", 3600%Z);
     ("Fri, 02 Jan 1970 01:00:00 GMT", (3600 + 86400)%Z); ("Sun, 01 Feb 1970 01:00:00 GMT", (90000 + 2592000)%Z);
     ("Tue, 03 Mar 1970 01:00:00 GMT", (90000 + 2 * 2592000)%Z);
     ("Wed, 03 Mar 1971 01:00:05 GMT", (5274000 + 31536005)%Z);
     ("Mon, 30 Aug 1971 01:00:05 GMT", (36810005 + 15552000)%Z);
     ("Mon, 08 Nov 1971 01:00:05 GMT", (52362005 + 6048000)%Z);
     ("Fri, 26 Mar 1999 01:00:05 GMT", (58410005 + 864000000)%Z)]%string in
  map (fun p => parse_http_date (lit (fst p))) cases = map (fun p => at_sec (snd p)) cases /\
  forallb (fun s => match parse_http_date (lit s) with Err _ => true | _ => false end)
    ["Sun Nov 10 08:00:00 1000"; "Sun Nov 10 08*00:00 2000"; "Sunday, 06-Nov-94 08+49:37 GMT"]%string = true /\
  fmt_http_date 0%Z = Ok (lit "Thu, 01 Jan 1970 00:00:00 GMT") /\
  fmt_http_date whole_second = Ok (lit "Sun, 02 Oct 2016 14:44:11 GMT").
Proof. vm_compute. repeat split; reflexivity. Qed.

(** ** src/version.rs:101-108, 110-121, 123-130 and 132-137 *)
Example t_version :
  map version_str [Http0_9; Http1_0; Http1_1; Http2_0; Http3_0] =
    [lit "HTTP/0.9"; lit "HTTP/1.0"; lit "HTTP/1.1"; lit "HTTP/2"; lit "HTTP/3"] /\
  version_cmp Http3_0 Http2_0 = Gt /\ version_cmp Http2_0 Http1_1 = Gt /\ version_cmp Http1_1 Http1_0 = Gt /\
  version_cmp Http1_0 Http0_9 = Gt /\ version_deserialize (lit "HTTP/1.1") = Some Http1_1.
Proof. vm_compute. repeat split; reflexivity. Qed.

(** ** src/body.rs *)
(** src/body.rs:642-654 and 656-667: a structure with a required field is read neither from no JSON nor from no form. *)
Example t_body_status :
  into_json (fun _ => None : option N) [32; 32]%nat body_empty = Some (Err 422) /\
  into_form (fun _ => None : option N) [32; 32]%nat body_empty = Some (Err 422).
Proof. vm_compute. split; reflexivity. Qed.
(** src/body.rs:669-681 *)
Fixpoint read_all (fuel size : nat) (b : body) (acc : list N) : option (list N * body) :=
  match fuel with
  | O => None
  | S fuel => match poll_read b size with
              | (Ready [], b') => Some (acc, b')
              | (Ready bs, b') => read_all fuel size b' (acc ++ bs)
              | _ => None
              end
  end.
(** The text read and the count of bytes read, with every size of buffer from one to [n]. *)
Definition reads_as (n : nat) (b : body) (text : string) (count : N) : bool :=
  forallb (fun size => match read_all 30 size b [] with
                       | Some (bs, b') => seqb bs (lit text) && (body_read b' =? count)
                       | None => false end) (seq 1 n).
Definition cursor_of (s : string) (len : option N) : body := from_reader (chunk (lit s)) len.
(** src/body.rs:683-695, 697-709, 711-723 and 725-737 *)
Example t_body_read :
  reads_as 12 (cursor_of "hello world" (Some 5)) "hello" 5 = true /\
  reads_as 12 (cursor_of "hello world" (Some 15)) "hello world" 11 = true /\
  reads_as 12 (cursor_of "hello world" (Some 11)) "hello world" 11 = true /\
  reads_as 12 (cursor_of "hello world" None) "hello world" 11 = true.
Proof. vm_compute. repeat split; reflexivity. Qed.
(** The chain is read as "hello world" with buffers of every size up to [n], has the length and the media type given. *)
Definition chain_is (n : nat) (o : outcome body) (len : option N) (m : mime) : bool :=
  match o with
  | Ok b => reads_as n b "hello world" 11 && opt_mime_eqb (body_mime b) (Some m) &&
            match body_len b, len with Some a, Some c => a =? c | None, None => true | _, _ => false end
  | _ => false
  end.
(** src/body.rs:739-753, 755-769, 771-786, 788-803 and 805-820 *)
Example t_body_chain :
  chain_is 12 (chain (from_string (lit "hello ")) (from_string (lit "world"))) (Some 11) MIME_PLAIN = true /\
  chain_is 12 (chain (from_bytes (lit "hello ")) (from_string (lit "world"))) (Some 11) MIME_BYTE_STREAM = true /\
  chain_is 12 (chain (cursor_of "hello " (Some 6)) (from_string (lit "world"))) (Some 11) MIME_BYTE_STREAM = true /\
  chain_is 12 (chain (cursor_of "hello " None) (from_string (lit "world"))) None MIME_BYTE_STREAM = true /\
  chain_is 12 (chain (from_string (lit "hello ")) (cursor_of "world" None)) None MIME_BYTE_STREAM = true.
Proof. vm_compute. repeat split; reflexivity. Qed.
(** src/body.rs:822-837, 839-855 and 857-881 *)
Example t_body_chain_more :
  chain_is 25 (chain (cursor_of "hello xyz" (Some 6)) (cursor_of "world abc" (Some 5))) (Some 11) MIME_BYTE_STREAM = true /\
  chain_is 12 (let* b := chain (from_string (lit "hello")) (from_bytes (lit " ")) in chain b (from_string (lit "world")))
    (Some 11) MIME_BYTE_STREAM = true /\
  (let '(r1, b1) := poll_read (cursor_of "1234 hello xyz" (Some 11)) 5 in
   let '(r2, b2) := poll_read (cursor_of "321 world abc" (Some 9)) 4 in
   r1 = Ready (lit "1234 ") /\ r2 = Ready (lit "321 ") /\ chain_is 25 (chain b1 b2) (Some 11) MIME_BYTE_STREAM = true).
Proof. vm_compute. repeat split; reflexivity. Qed.

(** ** /repo/tests *)
(** tests/error.rs:4-126: the statuses of the errors made in each way. *)
Example t_error :
  fst (error_from (lit "Oh no")) = S_InternalServerError /\
  (status_std (inr (lit "Oh no") : N + str) 404 = RErr (S_NotFound, lit "Oh no")) /\
  (match status_opt (None : option N) 404 with RErr e => fst e | _ => S_Ok end) = S_NotFound /\
  (match @error_new N str 418 (lit "irrelevant") with RErr e => fst e | _ => S_Ok end) = S_ImATeapot /\
  (match @error_new N str 404 (lit "Not Found") with RErr e => fst e | _ => S_Ok end) = S_NotFound /\
  @error_new N str 1000 (lit "Incorrect status code") = RPanic.
Proof. vm_compute. repeat split; reflexivity. Qed.
(** tests/req_res_body.rs:4-16 and 18-30: the body of a request given to a response. *)
Example t_req_res_body :
  let req := set_body (rq_common test_request) body_empty in
  let res := set_body (@common_new N) (c_body req) in
  into_bytes [32; 32]%nat (c_body res) = Some (Ok []) /\
  let req := snd (take_body (rq_common test_request)) in
  let res := snd (replace_body (@common_new N) (c_body req)) in
  into_bytes [32; 32]%nat (c_body res) = Some (Ok []).
Proof. vm_compute. split; reflexivity. Qed.
(** tests/security.rs:3-22 *)
Example t_security :
  let policy := Security.build Security.csp_new
    [Security.Directive Security.DefaultSrc (Security.source_str Security.SameOrigin);
     Security.Directive Security.DefaultSrc (lit "areweasyncyet.rs");
     Security.Directive Security.ScriptSrc (Security.source_str Security.SameOrigin);
     Security.Directive Security.ScriptSrc (Security.source_str Security.UnsafeInline);
     Security.Directive Security.ObjectSrc (Security.source_str Security.SrcNone);
     Security.Directive Security.BaseUri (Security.source_str Security.SrcNone);
     Security.UpgradeInsecureRequests] in
  let res := set_body (@common_new N) (from_string (lit "Hello, Chashu!")) in
  (let* h := Security.security_default (c_headers res) in
   let* h := snd (Security.csp_apply policy (Security.directives policy) h) in
   h_index h (lit "content-security-policy")) =
  Ok [lit "base-uri 'none'; default-src 'self' areweasyncyet.rs; object-src 'none'; script-src 'self' 'unsafe-inline'; upgrade-insecure-requests"].
Proof. vm_compute. reflexivity. Qed.
(** Stand-ins for serde_qs, which is a parameter of the model: the field [msg], required. *)
Definition msg_of (q : str) : option str :=
  match find (fun p => seqb (fst p) (lit "msg"))
          (map (fun s => match split_once 61 s with Some p => p | None => (s, []) end) (split 38 q)) with
  | Some p => Some (snd p)
  | None => None
  end.
Definition get_url (s : string) : request N := request_new M_Get (mkUrl (lit s) (Some (lit "example.com"))) 0.
(** tests/querystring.rs:17-27, 29-36, 38-48 and 50-56 *)
Example t_query :
  Query.query msg_of (get_url "http://example.com/?msg=Hello") = Ok (lit "Hello") /\
  Query.query msg_of (get_url "http://example.com/") = Err 400 /\
  Query.query msg_of (get_url "http://example.com/?error=should_fail") = Err 400 /\
  Query.query (fun _ => Some tt) (get_url "http://example.com") = Ok tt.
Proof. vm_compute. repeat split; reflexivity. Qed.

(** ** The examples in the documentation that say more than the tests above *)
(** src/content/accept.rs:30-50, src/content/accept_encoding.rs:21-41 and src/transfer/te.rs:18-38 *)
Example d_negotiated :
  (let* l := media [(MIME_HTML, w "0.8"); (MIME_XML, w "0.4")] in
   let* m := media_negotiate (l ++ [media_of MIME_PLAIN], false) [MIME_XML] in
   h_index (ctype_apply headers_new m) (lit "Content-Type")) = Ok [lit "application/xml;charset=utf-8"] /\
  (let* c := coding_nego [(Brotli, w "0.8"); (Gzip, w "0.4"); (Identity, None)] false [Brotli; Gzip] in
   h_index (encoding_apply Content headers_new c) (lit "Content-Encoding")) = Ok [lit "br"] /\
  (let* c := coding_nego [(Brotli, w "0.8"); (Gzip, w "0.4"); (Identity, None)] false [Brotli; Gzip] in
   h_index (encoding_apply Transfer headers_new c) (lit "Transfer-Encoding")) = Ok [lit "br"].
Proof. vm_compute. repeat split; reflexivity. Qed.
(** src/content/content_encoding.rs:18-34 and src/transfer/transfer_encoding.rs:15-31 *)
Example d_encodings :
  encoding_from_headers Content (encoding_apply Content headers_new Gzip) = Ok (Some Gzip) /\
  encoding_from_headers Transfer (encoding_apply Transfer headers_new Chunked) = Ok (Some Chunked).
Proof. vm_compute. split; reflexivity. Qed.
Definition doc_forwarded : string := "for=192.0.2.43, for=""[2001:db8:cafe::17]"", for=unknown;proto=https".
Definition doc_fors : list str := [lit "192.0.2.43"; lit "[2001:db8:cafe::17]"; lit "unknown"].
(** src/proxies/forwarded.rs:45-78, 87-110, 122-145 and 189-206 *)
Example d_forwarded :
  let x := add (ins "X-Forwarded-For" "192.0.2.43, 2001:db8:cafe::17, unknown") "X-Forwarded-Proto" "https" in
  let f := mkForwarded None doc_fors None (Some (lit "https")) in
  fw_from_headers one_ipv6 (ins "Forwarded" doc_forwarded) = Ok (Some f) /\
  from_forwarded_header (ins "Forwarded" doc_forwarded) = Ok (Some f) /\
  fw_from_headers one_ipv6 x = Ok (Some f) /\ fw_value f = Ok (lit doc_forwarded) /\
  from_forwarded_header (ins "X-Forwarded-For" "192.0.2.43, 2001:db8:cafe::17") = Ok None /\
  from_x_headers one_ipv6 (ins "Forwarded" doc_forwarded) = Ok None /\
  fw_parse (lit "for=192.0.2.43,         for=""[2001:db8:cafe::17]"", FOR=unknown;proto=https") = Ok f.
Proof. vm_compute. repeat split; reflexivity. Qed.
(** src/trace/trace_context.rs:12-36, 158-175 and 179-191 *)
Example d_trace :
  let read s := context_from_headers 9 (ins "traceparent" s) in
  read "00-0af7651916cd43dd8448eb211c80319c-00f067aa0ba902b7-01"%string =
    Ok (Some (Context 9 0 0x0af7651916cd43dd8448eb211c80319c (Some 0x00f067aa0ba902b7) 1)) /\
  (let* o := read "00-00000000000000000000000000000001-0000000000000002-01"%string in Ok (option_map sampled o)) = Ok (Some true) /\
  sampled (context_new 9 8) = true /\ sampled (set_sampled (context_new 9 8) false) = false.
Proof. vm_compute. repeat split; reflexivity. Qed.
(** src/mime/mod.rs:19-28 and 133-148 *)
Example d_mime :
  let sub a b := (let* a := mime_parse (lit a) in let* b := mime_parse (lit b) in Ok (subset_eq a b)) in
  (let* m := mime_parse (lit "text/html;charset=utf-8") in
   let* c := param m (lit "charset") in Ok (essence m, c)) = Ok (lit "text/html", Some (lit "utf-8")) /\
  sub "text/css"%string "*/*"%string = Ok true /\ sub "text/css"%string "text/css"%string = Ok true /\
  sub "text/css;encoding=utf-8"%string "text/css"%string = Ok true /\
  sub "*/css;encoding=utf-8"%string "text/css"%string = Ok false.
Proof. vm_compute. repeat split; reflexivity. Qed.
Definition greeted : common N := set_body common_new (from_string (lit "Hello, Nori!")).
(** src/response.rs:170-304 and src/request.rs:203-336: replace, swap and take a body; read it as a text and as bytes. *)
Example d_bodies :
  let text b := into_string [32; 32; 32]%nat b in
  let hello := Some (Ok (lit "Hello, Nori!")) in
  text (fst (replace_body greeted (from_string (lit "Hello, Chashu")))) = hello /\
  text (fst (swap_body greeted (from_string (lit "Hello, Chashu!")))) = hello /\
  text (fst (take_body greeted)) = hello /\ text (c_body (snd (take_body greeted))) = Some (Ok []) /\
  fst (body_string [32; 32; 32]%nat (set_body (@common_new N) (cursor_of "Hello Nori" None))) = Some (Ok (lit "Hello Nori")) /\
  fst (body_bytes [32; 32; 32]%nat (set_body (@common_new N) (from_bytes [1; 2; 3]))) = Some (Ok [1; 2; 3]).
Proof. vm_compute. repeat split; reflexivity. Qed.
(** src/body.rs:165-177, 456-468, 482-494 and 507-519; src/request.rs:514-528 and src/response.rs:419-433 *)
Example d_body :
  into_bytes [32; 32]%nat (from_bytes [1; 2; 3]) = Some (Ok [1; 2; 3]) /\
  body_len (cursor_of "Hello Nori" (Some 10)) = Some 10 /\
  body_mime (set_mime (Some MIME_CSS) body_empty) = Some MIME_CSS /\
  body_mime (set_mime None (set_mime (Some MIME_CSS) body_empty)) = None /\
  (let* b := chain (cursor_of "Hello " None) (from_string (lit "Nori")) in
   match into_string [32; 32; 32; 32]%nat b with Some r => r | None => Panic end) = Ok (lit "Hello Nori") /\
  c_version (@common_new N) = None /\ c_version (set_version (@common_new N) (Some Http2_0)) = Some Http2_0.
Proof. vm_compute. repeat split; reflexivity. Qed.
(** src/request.rs:671-690; serde_qs is a parameter. *)
Example d_set_query :
  let q := lit "page=2&topics[0]=rust&topics[1]=crabs&topics[2]=crustaceans" in
  Query.url_query (rq_url (fst (Query.set_query (fun s => s) (fun s => Some s) (get_url "https://httpbin.org/get") q))) = Some q.
Proof. vm_compute. reflexivity. Qed.
(** src/security/mod.rs:33-43, 54-64, 84-94, 107-118, 136-147, 159-169, 180-190 and 228-238.
    These are commented out in the crate; the one for [powered_by], that X-Powered-By is gone, would fail: see C62. *)
Example d_security :
  let get h n := match h with Ok h => h_index h (lit n) | _ => Panic end in
  let h := Security.security_default (ins "X-Powered-By" "Tide/Rust") in
  get h "X-Content-Type-Options"%string = Ok [lit "nosniff"] /\ get h "X-XSS-Protection"%string = Ok [lit "1; mode=block"] /\
  get h "X-DNS-Prefetch-Control"%string = Ok [lit "on"] /\ get h "X-Frame-Options"%string = Ok [lit "sameorigin"] /\
  get h "Strict-Transport-Security"%string = Ok [lit "max-age=5184000"].
Proof. vm_compute. repeat split; reflexivity. Qed.

(** ** Debug output and bodies from files *)
(** src/headers/header_name.rs:172-182, src/headers/header_value.rs:148-152 and src/headers/header_values.rs:194-208 *)
Example t_debug :
  let shown := fun _ : N => false in
  h_get (fst (h_insert headers_new (name "host") (TvText (lit "127.0.0.1")))) (lit "host") = Some [lit "127.0.0.1"] /\
  Debug.dbg_name shown (name "hello") = lit """hello""" /\ Debug.dbg_value shown (lit "foo0") = lit """foo0""" /\
  Debug.dbg_values shown [lit "foo0"] = lit """foo0""" /\ Debug.dbg_values shown [lit "foo0"; lit "foo1"] = lit "[""foo0"", ""foo1""]".
Proof. vm_compute. repeat split; reflexivity. Qed.
(** tests/mime.rs:7-46, which are never compiled ([cfg(features = "fs")] for [cfg(feature = "fs")]).  The sniffer knows PNG only; the image is cut short.
    With a sniffer that knows HTML the first would fail: the type read has no charset. *)
Example t_files :
  let png := [137; 80; 78; 71; 13; 10; 26; 10] in
  let html := lit "<html>" ++ [10; 10] ++ lit "<head></head>" ++ [10; 10] ++ lit "<body>This is a fixture!</body>" ++ [10; 10] ++ lit "</html>" ++ [10] in
  let knows p t bs := if seqb (firstn (List.length p) bs) p then Some (lit t) else None in
  let calm := Files.Weather None None None None 300 (fun _ => []) in
  let type_of sniffer content n :=
    match Files.from_path sniffer calm content (N.of_nat (List.length content)) (Some (lit n)) with
    | inl b => h_get (c_headers (set_body (@common_new N) b)) (lit "content-type")
    | inr _ => None
    end in
  type_of (knows png "image/png"%string) html "index.html"%string = Some [lit "text/html;charset=utf-8"] /\
  type_of (knows png "image/png"%string) (png ++ [1; 2; 3]) "nori.png"%string = Some [lit "image/png"] /\
  type_of (knows png "image/png"%string) (lit "this is an unknown text format" ++ [10]) "unknown.custom"%string = Some [lit "application/octet-stream"] /\
  type_of (knows png "image/png"%string) [] "empty.custom"%string = Some [lit "application/octet-stream"] /\
  type_of (knows (lit "<html") "text/html"%string) html "index.html"%string = Some [lit "text/html"].
Proof. vm_compute. repeat split; reflexivity. Qed.
