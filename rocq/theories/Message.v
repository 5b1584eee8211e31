(** Requests and responses (src/request.rs, src/response.rs), extensions (src/extensions.rs) and errors
    with a status (src/error.rs, src/status.rs).

    The URL is opaque apart from its text and host.  [Request] and [Response] share the code below; line
    numbers are given for both. *)
From Verif Require Import Base Method StatusCode Headers Mime Body.

(** ** src/extensions.rs *)

(** [Box<dyn Any>]: a value with the id of its type, and [downcast].  src/extensions.rs:17-19. *)
Definition any (V : Type) : Type := N * V.
(** [Box<dyn Any>::downcast] (std). *)
Definition downcast {V} (t : N) (a : any V) : option V := if fst a =? t then Some (snd a) else None.

(** [Option<HashMap<TypeId, Box<dyn Any>>>] (src/extensions.rs:17-19). *)
Definition extensions (V : Type) := option (list (N * any V)).
(** src/extensions.rs:24-26. *)
Definition ext_new {V} : extensions V := None.

(** [HashMap::get] (std). *)
Fixpoint map_find {V} (m : list (N * V)) (k : N) : option V :=
  match m with
  | [] => None
  | (k', v) :: m' => if k' =? k then Some v else map_find m' k
  end.
(** [HashMap::remove] (std). *)
Fixpoint map_remove {V} (m : list (N * V)) (k : N) : list (N * V) :=
  match m with
  | [] => []
  | (k', v) :: m' => if k' =? k then m' else (k', v) :: map_remove m' k
  end.
(** [HashMap::insert] (std). *)
Definition map_insert {V} (m : list (N * V)) (k : N) (v : V) : list (N * V) := (k, v) :: map_remove m k.

(** [Option::and_then] (std). *)
Definition obind {A B} (o : option A) (f : A -> option B) : option B := match o with Some a => f a | None => None end.

(** src/extensions.rs:31-36 [insert], 39-44 [contains], 47-52 [get], 55-60 [get_mut] (writing through it),
    65-70 [remove], 74-76 [clear]. *)
Definition ext_insert {V} (e : extensions V) (t : N) (v : V) : extensions V * option V :=
  let m := match e with Some m => m | None => [] end in
  (Some (map_insert m t (t, v)), obind (map_find m t) (downcast t)).
(** src/extensions.rs:39-44. *)
Definition ext_contains {V} (e : extensions V) (t : N) : bool :=
  match obind e (fun m => map_find m t) with Some _ => true | None => false end.
(** src/extensions.rs:47-52. *)
Definition ext_get {V} (e : extensions V) (t : N) : option V :=
  obind (obind e (fun m => map_find m t)) (downcast t).
(** src/extensions.rs:55-60, writing through the reference. *)
Definition ext_set {V} (e : extensions V) (t : N) (v : V) : extensions V :=
  match e with
  | Some m => match obind (map_find m t) (downcast t) with
              | Some _ => Some (map_insert m t (t, v))
              | None => e
              end
  | None => None
  end.
(** src/extensions.rs:65-70. *)
Definition ext_remove {V} (e : extensions V) (t : N) : extensions V * option V :=
  match e with
  | Some m => (Some (map_remove m t), obind (map_find m t) (downcast t))
  | None => (None, None)
  end.
(** src/extensions.rs:74-76. *)
Definition ext_clear {V} (e : extensions V) : extensions V := None.

(** ** src/status.rs, src/error.rs *)

(** [http_types::Error]: the status and the wrapped error.  src/error.rs:15-19. *)
Definition error (E : Type) : Type := status_code * E.

(** A result whose computation may also panic. *)
Inductive result (T E : Type) := ROk (t : T) | RErr (e : error E) | RPanic.
Arguments ROk {T E} t.
Arguments RErr {T E} e.
Arguments RPanic {T E}.

(** [S: TryInto<StatusCode>]: a number, converted when needed; [expect] panics.  src/error.rs:45-47, src/status.rs:44-47. *)
Definition expect_status (n : N) : option status_code :=
  match code_try_from n with Ok c => Some c | _ => None end.

(** src/error.rs:39-52 [Error::new], 55-67 [Error::from_str] *)
Definition error_new {T E} (n : N) (e : E) : result T E :=
  match expect_status n with Some c => RErr (c, e) | None => RPanic end.
(** src/error.rs:83-91 [set_status] *)
Definition error_set_status {T E} (n : N) (e : error E) : result T E := error_new n (snd e).
(** src/error.rs:200-204 [From<E>] *)
Definition error_from {E} (e : E) : error E := (S_InternalServerError, e).

(** src/status.rs:37-48 [Result<T, E>::status]; 59-71 [with_status], whose closure may itself panic
    ([None]). *)
Definition status_std {T E} (r : T + E) (n : N) : result T E :=
  match r with inl t => ROk t | inr e => error_new n e end.
(** src/status.rs:59-71. *)
Definition with_status_std {T E} (r : T + E) (f : unit -> option N) : result T E :=
  match r with
  | inl t => ROk t
  | inr e => match f tt with Some n => error_new n e | None => RPanic end
  end.
(** src/status.rs:83-92, 103-113 [Result<T, Error>] *)
Definition status_err {T E} (r : result T E) (n : N) : result T E :=
  match r with RErr e => error_set_status n e | _ => r end.
(** src/status.rs:103-113. *)
Definition with_status_err {T E} (r : result T E) (f : unit -> option N) : result T E :=
  match r with
  | RErr e => match f tt with Some n => error_set_status n e | None => RPanic end
  | _ => r
  end.
(** src/status.rs:125-136, 147-159 [Option<T>]; the wrapped error is the text "NoneError". *)
Definition status_opt {T} (o : option T) (n : N) : result T str :=
  match o with Some t => ROk t | None => error_new n (lit "NoneError") end.
(** src/status.rs:147-159. *)
Definition with_status_opt {T} (o : option T) (f : unit -> option N) : result T str :=
  match o with
  | Some t => ROk t
  | None => match f tt with Some n => error_new n (lit "NoneError") | None => RPanic end
  end.

(** ** Messages *)

(** A parsed [Url] (url crate): its text and host. *)
Record url : Type := mkUrl { url_text : str; url_host : option str }.

(** The fields [Request] (src/request.rs:31-44) and [Response] (src/response.rs:37-53) share, without the
    channels (Channel.v). *)
Record common (V : Type) : Type := mkCommon {
  c_headers : headers;
  c_version : option version;
  c_body : body;
  c_ext : extensions V;
  c_peer : option str;
  c_local : option str
}.
Arguments mkCommon {V}.
Arguments c_headers {V}.
Arguments c_version {V}.
Arguments c_body {V}.
Arguments c_ext {V}.
Arguments c_peer {V}.
Arguments c_local {V}.

(** src/headers/constants.rs (CONTENT_TYPE). *)
Definition CONTENT_TYPE : str := lit "content-type".

(** Assignment to the headers field (src/request.rs:30, src/response.rs:39). *)
Definition with_headers {V} (c : common V) (h : headers) : common V :=
  mkCommon h (c_version c) (c_body c) (c_ext c) (c_peer c) (c_local c).
(** Assignment to the body field (src/request.rs:32, src/response.rs:37). *)
Definition with_body {V} (c : common V) (b : body) : common V :=
  mkCommon (c_headers c) (c_version c) b (c_ext c) (c_peer c) (c_local c).

(** src/request.rs:475-480, src/response.rs:380-385 [set_content_type] *)
Definition set_content_type {V} (c : common V) (m : mime) : common V * outcome (option header_values) :=
  let '(h, r) := h_insert (c_headers c) CONTENT_TYPE (TvValues [mime_header_value m]) in
  (with_headers c h, r).

(** src/request.rs:483-489, src/response.rs:388-394 [copy_content_type_from_body] *)
Definition copy_content_type {V} (c : common V) : common V :=
  match h_get (c_headers c) CONTENT_TYPE with
  | Some _ => c
  | None => match body_mime (c_body c) with
            | Some m => fst (set_content_type c m)
            | None => c
            end
  end.

(** src/request.rs:224-228, src/response.rs:191-195 [replace_body]; 199-201, 166-168 [set_body]; 251-254, 220-223
    [swap_body] (returns the swapped-out body); 280-282, 249-251 [take_body] *)
Definition replace_body {V} (c : common V) (b : body) : body * common V :=
  (c_body c, copy_content_type (with_body c b)).
(** src/request.rs:199-201, src/response.rs:166-168. *)
Definition set_body {V} (c : common V) (b : body) : common V := snd (replace_body c b).
(** src/request.rs:251-254, src/response.rs:220-223. *)
Definition swap_body {V} (c : common V) (b : body) : body * common V := replace_body c b.
(** src/request.rs:280-282, src/response.rs:249-251. *)
Definition take_body {V} (c : common V) : body * common V := replace_body c body_empty.

(** src/request.rs:492-494, src/response.rs:397-399 [content_type]: [parse().ok()]. *)
Definition content_type {V} (c : common V) : outcome (option mime) :=
  match h_get (c_headers c) CONTENT_TYPE with
  | None => Ok None
  | Some vs => let* v := values_last vs in
               match mime_parse v with Ok m => Ok (Some m) | Err _ => Ok None | Panic => Panic end
  end.

(** src/request.rs:307-310, 333-336 [body_string], [body_bytes] (src/response.rs:275-278, 301-304) *)
Definition body_string {V} (caps : list nat) (c : common V) : option (outcome str) * common V :=
  let '(b, c') := take_body c in (into_string caps b, c').
(** src/request.rs:333-336, src/response.rs:301-304. *)
Definition body_bytes {V} (caps : list nat) (c : common V) : option (outcome (list N)) * common V :=
  let '(b, c') := take_body c in (into_bytes caps b, c').

(** The two ends of a message's trailer (or upgrade) channel, by channel number, and [has_trailers]
    ([has_upgrade]).  src/request.rs:40-42, src/response.rs:41-47. *)
Record ends : Type := mkEnds { e_send : option nat; e_recv : option nat; e_flag : bool }.

(** [struct Request] (src/request.rs:31-44). *)
Record request (V : Type) : Type := mkRequest {
  rq_method : method; rq_url : url; rq_common : common V; rq_trailers : ends }.
(** [struct Response] (src/response.rs:37-53). *)
Record response (V : Type) : Type := mkResponse {
  rs_status : status_code; rs_common : common V; rs_trailers : ends; rs_upgrade : ends }.
Arguments mkRequest {V}.
Arguments rq_method {V}.
Arguments rq_url {V}.
Arguments rq_common {V}.
Arguments rq_trailers {V}.
Arguments mkResponse {V}.
Arguments rs_status {V}.
Arguments rs_common {V}.
Arguments rs_trailers {V}.
Arguments rs_upgrade {V}.

(** The initial fields (src/request.rs:56-68, src/response.rs:68-81). *)
Definition common_new {V} : common V := mkCommon headers_new None body_empty ext_new None None.
(** src/request.rs:49-69 [Request::new], given a parsed URL and a fresh channel [k]. *)
Definition request_new {V} (m : method) (u : url) (k : nat) : request V :=
  mkRequest m u common_new (mkEnds (Some k) (Some k) false).
(** src/response.rs:57-82 [Response::new] with fresh channels. *)
Definition response_new {V} (n : N) (k k' : nat) : outcome (response V) :=
  match code_try_from n with
  | Ok s => Ok (mkResponse s common_new (mkEnds (Some k) (Some k) false) (mkEnds (Some k') (Some k') false))
  | _ => Panic
  end.
(** src/response.rs:681-691 [From<T: Into<Body>>] *)
Definition response_from_body {V} (b : body) (k k' : nat) : response V :=
  mkResponse S_Ok (set_body common_new b) (mkEnds (Some k) (Some k) false) (mkEnds (Some k') (Some k') false).

(** What [Clone] does to the channel ends: a request forgets them (src/request.rs:896-897, 902), a response
    clones the handles (src/response.rs:592-597); both reset the flag. *)
Definition clone_ends (is_request : bool) (e : ends) : ends :=
  if is_request then mkEnds None None false else mkEnds (e_send e) (e_recv e) false.
(** src/request.rs:890-900, src/response.rs:588-594. *)
Definition clone_common {V} (c : common V) : common V :=
  mkCommon (c_headers c) (c_version c) body_empty ext_new (c_peer c) (c_local c).
(** src/request.rs:887-905, src/response.rs:585-605 *)
Definition request_clone {V} (r : request V) : request V :=
  mkRequest (rq_method r) (rq_url r) (clone_common (rq_common r)) (clone_ends true (rq_trailers r)).
(** src/response.rs:585-605. *)
Definition response_clone {V} (r : response V) : response V :=
  mkResponse (rs_status r) (clone_common (rs_common r)) (clone_ends false (rs_trailers r)) (clone_ends false (rs_upgrade r)).
