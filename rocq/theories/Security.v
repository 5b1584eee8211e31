(** Model of src/security/csp.rs and src/security/mod.rs. *)
From Verif Require Import Base Headers.

(** ** src/security/csp.rs *)

(** src/security/csp.rs:12-37 *)
Inductive source : Type :=
| SameOrigin | Src | SrcNone | UnsafeInline | Data | Mediastream | Https | Blob | Filesystem | StrictDynamic | UnsafeEval | Wildcard.
(** src/security/csp.rs:58-75 [AsRef<str>]; [Display] (39-56) writes the same. *)
Definition source_str (s : source) : str :=
  match s with
  | SameOrigin => lit "'self'" | Src => lit "'src'" | SrcNone => lit "'none'" | UnsafeInline => lit "'unsafe-inline'"
  | Data => lit "data:" | Mediastream => lit "mediastream:" | Https => lit "https:" | Blob => lit "blob:"
  | Filesystem => lit "filesystem:" | StrictDynamic => lit "'strict-dynamic'" | UnsafeEval => lit "'unsafe-eval'" | Wildcard => lit "*"
  end.

(** src/security/csp.rs:133-137; the map is a std [HashMap]. *)
Record csp : Type := Csp { policy : list str; report_only_flag : bool; directives : hmap (list str) }.
(** src/security/csp.rs:141-148 *)
Definition csp_default : csp := Csp [lit "script-src 'self'; object-src 'self'"] false [].
(** src/security/csp.rs:153-159 *)
Definition csp_new : csp := Csp [] false [].
(** src/security/csp.rs:161-166 *)
Definition insert_directive (c : csp) (d source : str) : csp :=
  let cur := match hm_get (directives c) d with Some l => l | None => [] end in
  Csp (policy c) (report_only_flag c) (hm_insert (directives c) d (cur ++ [source])).
(** The [self.policy.push] of src/security/csp.rs:178-183, 286-292, 326-331, 345-353. *)
Definition push_policy (c : csp) (p : str) : csp := Csp (policy c ++ [p]) (report_only_flag c) (directives c).

(** The builder methods taking a source, 171-339.  The setters of src/security/csp.rs:171-339, by the directive they write. *)
Inductive directive : Type :=
| BaseUri | ConnectSrc | DefaultSrc | FontSrc | FormAction | FrameAncestors | FrameSrc | ImgSrc | MediaSrc | ObjectSrc
| PluginTypes | RequireSriFor | ReportUri | Sandbox | ScriptSrc | StyleSrc | WorkerSrc.
(** src/security/csp.rs:172-337, the directive names. *)
Definition directive_str (d : directive) : str :=
  match d with
  | BaseUri => lit "base-uri" | ConnectSrc => lit "connect-src" | DefaultSrc => lit "default-src" | FontSrc => lit "font-src"
  | FormAction => lit "form-action" | FrameAncestors => lit "frame-ancestors" | FrameSrc => lit "frame-src" | ImgSrc => lit "img-src"
  | MediaSrc => lit "media-src" | ObjectSrc => lit "object-src" | PluginTypes => lit "plugin-types"
  | RequireSriFor => lit "require-sri-for" | ReportUri => lit "report-uri" | Sandbox => lit "sandbox" | ScriptSrc => lit "script-src"
  | StyleSrc => lit "style-src" | WorkerSrc => lit "worker-src"
  end.
(** One builder call.  [ReportTo] has the results of [serde_json::to_string] for the endpoints: an error is
    only printed (285-298).  src/security/csp.rs:171-345. *)
Inductive call : Type :=
| Directive (d : directive) (source : str)
| BlockAllMixedContent
| UpgradeInsecureRequests
| ReportTo (json : list (option str))
| ReportOnly.
(** One setter call. *)
Definition do_call (c : csp) (k : call) : csp :=
  match k with
  | Directive d s => insert_directive c (directive_str d) s
  | BlockAllMixedContent => push_policy c (lit "block-all-mixed-content")
  | UpgradeInsecureRequests => push_policy c (lit "upgrade-insecure-requests")
  | ReportTo js => fold_left (fun c j => match j with Some s => push_policy c (lit "report-to " ++ s) | None => c end) js c
  | ReportOnly => Csp (policy c) true (directives c)
  end.
(** A chain of setter calls. *)
Definition build (c : csp) (ks : list call) : csp := fold_left do_call ks c.

(** Order of [String]: that of the UTF-8 bytes, which is that of the scalars. *)
Fixpoint str_leb (a b : str) : bool :=
  match a, b with
  | [], _ => true
  | _ :: _, [] => false
  | x :: a', y :: b' => if x <? y then true else if y <? x then false else str_leb a' b'
  end.
(** [slice::sort]: std promises the (stable) sorted permutation. *)
Fixpoint insert_sorted (x : str) (l : list str) : list str :=
  match l with
  | [] => [x]
  | y :: l' => if str_leb x y then x :: l else y :: insert_sorted x l'
  end.
(** [slice::sort] (std), src/security/csp.rs:349. *)
Definition sort_strings (l : list str) : list str := fold_right insert_sorted [] l.

(** src/security/csp.rs:348-355 [value]; [order] is the order in which the hash map is iterated. *)
Definition directive_text (e : str * list str) : str := fst e ++ lit " " ++ join (lit " ") (snd e).
(** src/security/csp.rs:348-355. *)
Definition csp_value (c : csp) (order : hmap (list str)) : csp * str :=
  let p := fold_left (fun p e => sort_strings (p ++ [directive_text e])) order (policy c) in
  (Csp p (report_only_flag c) (directives c), join (lit "; ") p).
(** src/security/csp.rs:358-365 [apply]; the [unwrap] panics when the value is not ASCII. *)
Definition csp_name (c : csp) : str :=
  if report_only_flag c then lit "Content-Security-Policy-Report-Only" else lit "Content-Security-Policy".
(** src/security/csp.rs:358-365. *)
Definition csp_apply (c : csp) (order : hmap (list str)) (h : headers) : csp * outcome headers :=
  let (c', v) := csp_value c order in
  (c', let* n := name_into (csp_name c) in
       match h_insert h n (TvText v) with (h', Ok _) => Ok h' | _ => Panic end).

(** ** src/security/mod.rs *)

(** [headers.insert("Name", "value").unwrap()].  src/security/mod.rs:66-198: [insert(..).unwrap()]. *)
Definition put (h : headers) (n v : str) : outcome headers :=
  let* n := name_into n in match h_insert h n (TvText v) with (h', Ok _) => Ok h' | _ => Panic end.
(** src/security/mod.rs:66-72 *)
Definition dns_prefetch_control (h : headers) : outcome headers := put h (lit "X-DNS-Prefetch-Control") (lit "on").
(** src/security/mod.rs:76-81, :96-103 *)
Inductive frame_options : Type := FrameSameOrigin | FrameDeny.
(** src/security/mod.rs:96-103. *)
Definition frameguard (h : headers) (g : option frame_options) : outcome headers :=
  put h (lit "X-Frame-Options") (match g with None | Some FrameSameOrigin => lit "sameorigin" | Some FrameDeny => lit "deny" end).
(** src/security/mod.rs:120-131.  [from_lowercase_str] takes the text as it is, upper-case letters included. *)
Definition POWERED_BY : str := lit "X-Powered-By".
(** src/security/mod.rs:120-131. *)
Definition powered_by (h : headers) (v : option str) : headers :=
  match v with
  | Some v => fst (h_insert h POWERED_BY (TvValues [v]))
  | None => fst (h_remove h POWERED_BY)
  end.
(** src/security/mod.rs:149-155 *)
Definition hsts_default (h : headers) : outcome headers := put h (lit "Strict-Transport-Security") (lit "max-age=5184000").
(** src/security/mod.rs:171-177 *)
Definition nosniff (h : headers) : outcome headers := put h (lit "X-Content-Type-Options") (lit "nosniff").
(** src/security/mod.rs:192-198 *)
Definition xss_filter (h : headers) : outcome headers := put h (lit "X-XSS-Protection") (lit "1; mode=block").
(** src/security/mod.rs:44-51 *)
Definition security_default (h : headers) : outcome headers :=
  let* h := dns_prefetch_control h in
  let* h := nosniff h in
  let* h := frameguard h None in
  let h := powered_by h None in
  let* h := hsts_default h in
  xss_filter h.
(** src/security/mod.rs:202-219, :238-255 *)
Inductive referrer_options : Type :=
| NoReferrer | NoReferrerDowngrade | ReferrerSameOrigin | Origin | StrictOrigin | CrossOrigin | StrictCrossOrigin | UnsafeUrl.
(** src/security/mod.rs:240-249. *)
Definition referrer_str (r : option referrer_options) : str :=
  match r with
  | None | Some NoReferrer => lit "no-referrer"
  | Some NoReferrerDowngrade => lit "no-referrer-when-downgrade"
  | Some ReferrerSameOrigin => lit "same-origin"
  | Some Origin => lit "origin"
  | Some StrictOrigin => lit "strict-origin"
  | Some CrossOrigin => lit "origin-when-cross-origin"
  | Some StrictCrossOrigin => lit "strict-origin-when-cross-origin"
  | Some UnsafeUrl => lit "unsafe-url"
  end.
(** src/security/mod.rs:239-255. *)
Definition referrer_policy (h : headers) (r : option referrer_options) : outcome headers :=
  let* n := name_into (lit "Referrer-Policy") in
  match h_append h n (TvText (referrer_str r)) with (h', Ok _) => Ok h' | _ => Panic end.
