(** Model of the [Debug] output of requests, responses and content security policies. *)
From Verif Require Import Base Headers Typed Method StatusCode Body Message Security Debug DebugMore.

(** src/version.rs:2, derived. *)
Definition dbg_version (v : version) : str :=
  match v with Http0_9 => lit "Http0_9" | Http1_0 => lit "Http1_0" | Http1_1 => lit "Http1_1" | Http2_0 => lit "Http2_0" | Http3_0 => lit "Http3_0" end.
(** [Debug for Sender] and [Receiver] of the async-channel crate: constant texts. *)
Definition dbg_sender (k : nat) : str := lit "Sender { .. }".
Definition dbg_receiver (k : nat) : str := lit "Receiver { .. }".
(** src/trailers.rs:217-220, src/upgrade/sender.rs:8-11, derived. *)
Definition dbg_send_half (k : nat) : str := lit "Sender { sender: " ++ dbg_sender k ++ lit " }".
(** src/trailers.rs:243-246, src/upgrade/receiver.rs:11-14, derived. *)
Definition dbg_recv_half (k : nat) : str := lit "Receiver { receiver: " ++ dbg_receiver k ++ lit " }".

Section DebugMessage.
  (** As in Debug.v. *)
  Context (shown : N -> bool).
  (** src/security/csp.rs:132-137, derived; the directives are in the order in which the hash map is iterated. *)
  Definition dbg_csp (c : csp) : str :=
    lit "ContentSecurityPolicy { policy: " ++ dbg_list (dbg_str shown) (policy c) ++ lit ", report_only_flag: " ++ dbg_bool (report_only_flag c)
    ++ lit ", directives: {" ++ join (lit ", ") (map (fun e => dbg_str shown (fst e) ++ lit ": " ++ dbg_list (dbg_str shown) (snd e)) (directives c)) ++ lit "} }".

  (** [Debug for Url] of the url crate; a parameter. *)
  Context (dbg_url : url -> str).
  (** src/request.rs:30-44, derived. *)
  Definition dbg_request {V} (r : request V) : str :=
    let c := rq_common r in let t := rq_trailers r in
    lit "Request { method: " ++ dbg_method (rq_method r) ++ lit ", url: " ++ dbg_url (rq_url r) ++ lit ", headers: " ++ dbg_headers shown (c_headers c)
    ++ lit ", version: " ++ dbg_option dbg_version (c_version c) ++ lit ", body: " ++ dbg_body (c_body c)
    ++ lit ", local_addr: " ++ dbg_option (dbg_str shown) (c_local c) ++ lit ", peer_addr: " ++ dbg_option (dbg_str shown) (c_peer c)
    ++ lit ", ext: " ++ dbg_extensions ++ lit ", trailers_sender: " ++ dbg_option dbg_sender (e_send t)
    ++ lit ", trailers_receiver: " ++ dbg_option dbg_receiver (e_recv t) ++ lit ", has_trailers: " ++ dbg_bool (e_flag t) ++ lit " }".
  (** src/response.rs:36-53, derived. *)
  Definition dbg_response {V} (r : response V) : str :=
    let c := rs_common r in let t := rs_trailers r in let u := rs_upgrade r in
    lit "Response { status: " ++ dbg_status (rs_status r) ++ lit ", headers: " ++ dbg_headers shown (c_headers c)
    ++ lit ", version: " ++ dbg_option dbg_version (c_version c) ++ lit ", has_trailers: " ++ dbg_bool (e_flag t)
    ++ lit ", trailers_sender: " ++ dbg_option dbg_sender (e_send t) ++ lit ", trailers_receiver: " ++ dbg_option dbg_receiver (e_recv t)
    ++ lit ", upgrade_sender: " ++ dbg_option dbg_sender (e_send u) ++ lit ", upgrade_receiver: " ++ dbg_option dbg_receiver (e_recv u)
    ++ lit ", has_upgrade: " ++ dbg_bool (e_flag u) ++ lit ", body: " ++ dbg_body (c_body c) ++ lit ", ext: " ++ dbg_extensions
    ++ lit ", local_addr: " ++ dbg_option (dbg_str shown) (c_local c) ++ lit ", peer_addr: " ++ dbg_option (dbg_str shown) (c_peer c) ++ lit " }".
End DebugMessage.
