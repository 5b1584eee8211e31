(** The remaining methods of [Request] and [Response]: plain fields, constructors, conversions, reading
    (src/request.rs, src/response.rs).  Methods that only pass on to the headers (src/request.rs:411-472, 576-594,
    930-1004; src/response.rs:90-150, 539-557, 630-722) are the functions of Headers.v on [c_headers]. *)
From Verif Require Import Base Method StatusCode Headers Mime Body Message.

(** src/request.rs:547-549, src/response.rs:477-479 [set_version] *)
Definition set_version {V} (c : common V) (v : option version) : common V :=
  mkCommon (c_headers c) v (c_body c) (c_ext c) (c_peer c) (c_local c).
(** src/request.rs:74-76, src/response.rs:441-443 [set_peer_addr]; 81-83, 448-450 [set_local_addr]; the address is given by
    its text. *)
Definition set_peer_addr {V} (c : common V) (a : option str) : common V :=
  mkCommon (c_headers c) (c_version c) (c_body c) (c_ext c) a (c_local c).
(** src/request.rs:81-83, src/response.rs:448-450. *)
Definition set_local_addr {V} (c : common V) (a : option str) : common V :=
  mkCommon (c_headers c) (c_version c) (c_body c) (c_ext c) (c_peer c) a.
(** src/request.rs:616-618, src/response.rs:580-582 [ext_mut], after an edit. *)
Definition with_ext {V} (c : common V) (e : extensions V) : common V :=
  mkCommon (c_headers c) (c_version c) (c_body c) e (c_peer c) (c_local c).
(** src/request.rs:502-504, src/response.rs:407-409 [len], [is_empty] *)
Definition message_len {V} (c : common V) : option N := body_len (c_body c).
(** src/request.rs:508-510, src/response.rs:413-415. *)
Definition message_is_empty {V} (c : common V) : option bool := body_is_empty (c_body c).
(** src/request.rs:907-916, src/response.rs:607-616 [AsyncRead::poll_read]; it writes to the body field directly. *)
Definition message_poll_read {V} (c : common V) (cap : nat) : poll (list N) * common V :=
  let '(r, b) := poll_read (c_body c) cap in (r, with_body c b).

(** src/request.rs:150-152 [set_method], 185-187 [url_mut] after assigning, src/response.rs:482-484 [set_status] *)
Definition set_method {V} (r : request V) (m : method) : request V := mkRequest m (rq_url r) (rq_common r) (rq_trailers r).
(** src/request.rs:185-187. *)
Definition set_url {V} (r : request V) (u : url) : request V := mkRequest (rq_method r) u (rq_common r) (rq_trailers r).
(** src/response.rs:482-484. *)
Definition set_status {V} (r : response V) (s : status_code) : response V := mkResponse s (rs_common r) (rs_trailers r) (rs_upgrade r).

(** src/request.rs:712-884, the constructors named after methods. *)
Inductive shorthand := Get | Head | Post | Put | Delete | Connect | Options | Trace | Patch.
(** src/request.rs:712-884. *)
Definition shorthand_method (s : shorthand) : method :=
  match s with
  | Get => M_Get | Head => M_Head | Post => M_Post | Put => M_Put | Delete => M_Delete | Connect => M_Connect
  | Options => M_Options | Trace => M_Trace | Patch => M_Patch
  end.
(** src/request.rs:712-884. *)
Definition request_shorthand {V} (s : shorthand) (u : url) (k : nat) : request V := request_new (shorthand_method s) u k.

(** src/response.rs:642-646 [From<()>], 675-679 [From<StatusCode>] *)
Definition response_of {V} (s : status_code) (k k' : nat) : response V :=
  mkResponse s common_new (mkEnds (Some k) (Some k) false) (mkEnds (Some k') (Some k') false).
(** src/response.rs:642-646. *)
Definition response_from_unit {V} (k k' : nat) : response V := response_of S_NoContent k k'.
(** src/response.rs:675-679. *)
Definition response_from_status {V} (s : status_code) (k k' : nat) : response V := response_of s k k'.
(** src/request.rs:942-946 [From<Request> for Body] *)
Definition body_from_request {V} (r : request V) : body := c_body (rq_common r).
