(** Model of src/method.rs and src/version.rs. *)
From Verif Require Import Base.

(** src/method.rs:14-338, the variants in source order. *)
Inductive method : Type :=
| M_Acl
| M_BaselineControl
| M_Bind
| M_Checkin
| M_Checkout
| M_Connect
| M_Copy
| M_Delete
| M_Get
| M_Head
| M_Label
| M_Link
| M_Lock
| M_Merge
| M_MkActivity
| M_MkCalendar
| M_MkCol
| M_MkRedirectRef
| M_MkWorkspace
| M_Move
| M_Options
| M_OrderPatch
| M_Patch
| M_Post
| M_Pri
| M_PropFind
| M_PropPatch
| M_Put
| M_Rebind
| M_Report
| M_Search
| M_Trace
| M_Unbind
| M_Uncheckout
| M_Unlink
| M_Unlock
| M_Update
| M_UpdateRedirectRef
| M_VersionControl.

(** src/method.rs:340-357 *)
Definition is_safe (m : method) : bool :=
  match m with
  | M_Get | M_Head | M_Options | M_Pri | M_PropFind | M_Report | M_Search | M_Trace => true
  | _ => false
  end.

(** src/method.rs:470-514 [AsRef<str>]; also [Display] (406-410). *)
Definition method_str (m : method) : str :=
  match m with
  | M_Acl => lit "ACL"
  | M_BaselineControl => lit "BASELINE-CONTROL"
  | M_Bind => lit "BIND"
  | M_Checkin => lit "CHECKIN"
  | M_Checkout => lit "CHECKOUT"
  | M_Connect => lit "CONNECT"
  | M_Copy => lit "COPY"
  | M_Delete => lit "DELETE"
  | M_Get => lit "GET"
  | M_Head => lit "HEAD"
  | M_Label => lit "LABEL"
  | M_Link => lit "LINK"
  | M_Lock => lit "LOCK"
  | M_Merge => lit "MERGE"
  | M_MkActivity => lit "MKACTIVITY"
  | M_MkCalendar => lit "MKCALENDAR"
  | M_MkCol => lit "MKCOL"
  | M_MkRedirectRef => lit "MKREDIRECTREF"
  | M_MkWorkspace => lit "MKWORKSPACE"
  | M_Move => lit "MOVE"
  | M_Options => lit "OPTIONS"
  | M_OrderPatch => lit "ORDERPATCH"
  | M_Patch => lit "PATCH"
  | M_Post => lit "POST"
  | M_Pri => lit "PRI"
  | M_PropFind => lit "PROPFIND"
  | M_PropPatch => lit "PROPPATCH"
  | M_Put => lit "PUT"
  | M_Rebind => lit "REBIND"
  | M_Report => lit "REPORT"
  | M_Search => lit "SEARCH"
  | M_Trace => lit "TRACE"
  | M_Unbind => lit "UNBIND"
  | M_Uncheckout => lit "UNCHECKOUT"
  | M_Unlink => lit "UNLINK"
  | M_Unlock => lit "UNLOCK"
  | M_Update => lit "UPDATE"
  | M_UpdateRedirectRef => lit "UPDATEREDIRECTREF"
  | M_VersionControl => lit "VERSION-CONTROL"
  end.

(** src/method.rs:415-459, the arms of the match in source order. *)
Definition method_table : list (str * method) :=
  [(lit "ACL", M_Acl);
   (lit "BASELINE-CONTROL", M_BaselineControl);
   (lit "BIND", M_Bind);
   (lit "CHECKIN", M_Checkin);
   (lit "CHECKOUT", M_Checkout);
   (lit "CONNECT", M_Connect);
   (lit "COPY", M_Copy);
   (lit "DELETE", M_Delete);
   (lit "GET", M_Get);
   (lit "HEAD", M_Head);
   (lit "LABEL", M_Label);
   (lit "LINK", M_Link);
   (lit "LOCK", M_Lock);
   (lit "MERGE", M_Merge);
   (lit "MKACTIVITY", M_MkActivity);
   (lit "MKCALENDAR", M_MkCalendar);
   (lit "MKCOL", M_MkCol);
   (lit "MKREDIRECTREF", M_MkRedirectRef);
   (lit "MKWORKSPACE", M_MkWorkspace);
   (lit "MOVE", M_Move);
   (lit "OPTIONS", M_Options);
   (lit "ORDERPATCH", M_OrderPatch);
   (lit "PATCH", M_Patch);
   (lit "POST", M_Post);
   (lit "PRI", M_Pri);
   (lit "PROPFIND", M_PropFind);
   (lit "PROPPATCH", M_PropPatch);
   (lit "PUT", M_Put);
   (lit "REBIND", M_Rebind);
   (lit "REPORT", M_Report);
   (lit "SEARCH", M_Search);
   (lit "TRACE", M_Trace);
   (lit "UNBIND", M_Unbind);
   (lit "UNCHECKOUT", M_Uncheckout);
   (lit "UNLINK", M_Unlink);
   (lit "UNLOCK", M_Unlock);
   (lit "UPDATE", M_Update);
   (lit "UPDATEREDIRECTREF", M_UpdateRedirectRef);
   (lit "VERSION-CONTROL", M_VersionControl)].

(** The [match] of src/method.rs:415-459. *)
Fixpoint lookup_method (t : list (str * method)) (s : str) : option method :=
  match t with
  | [] => None
  | (k, m) :: t' => if seqb s k then Some m else lookup_method t' s
  end.

(** src/method.rs:412-460 [FromStr]; unknown names are an error of status 500 ([bail!]). *)
Definition method_from_str (s : str) : outcome method :=
  ok_or 500 (lookup_method method_table (to_upper s)).

(** src/method.rs:360-404 serde: [visit_str] is [from_str], [serialize] writes [as_ref]. *)
Definition method_deserialize (s : str) : option method :=
  match method_from_str s with Ok m => Some m | _ => None end.

(** src/version.rs:4-19 *)
Inductive version : Type := Http0_9 | Http1_0 | Http1_1 | Http2_0 | Http3_0.

(** src/version.rs:79-89 *)
Definition version_str (v : version) : str :=
  match v with
  | Http0_9 => lit "HTTP/0.9" | Http1_0 => lit "HTTP/1.0" | Http1_1 => lit "HTTP/1.1"
  | Http2_0 => lit "HTTP/2" | Http3_0 => lit "HTTP/3"
  end.

(** src/version.rs:47-59 *)
Definition version_deserialize (s : str) : option version :=
  if seqb s (lit "HTTP/0.9") then Some Http0_9
  else if seqb s (lit "HTTP/1.0") then Some Http1_0
  else if seqb s (lit "HTTP/1.1") then Some Http1_1
  else if seqb s (lit "HTTP/2") then Some Http2_0
  else if seqb s (lit "HTTP/3") then Some Http3_0
  else None.

(** Derived [Ord] (src/version.rs:2): by declaration order. *)
Definition version_discr (v : version) : N :=
  match v with Http0_9 => 0 | Http1_0 => 1 | Http1_1 => 2 | Http2_0 => 3 | Http3_0 => 4 end.
(** Derived [Ord] of src/version.rs:4-19. *)
Definition version_cmp (a b : version) : comparison := N.compare (version_discr a) (version_discr b).
