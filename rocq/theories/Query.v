(** The query part of a request's URL, structured bodies of messages, and buffered reading of messages
    (src/request.rs, src/response.rs).

    serde_qs, serde_json and serde_urlencoded are parameters.  So is the percent-encoding that the url crate
    applies to a query it is given ([enc]); the url crate's reading and writing of a URL's parts is modelled
    on the URL's text: the query lies between the first '?' and the first '#'. *)
From Verif Require Import Base Method Headers Body Message MessageOps.

(** The text before and after the first [d] (url crate: [Url] stores these positions). *)
Definition cut (d : N) (s : str) : str * option str :=
  match split_once d s with Some (a, b) => (a, Some b) | None => (s, None) end.
(** Putting a part back with its mark (url crate). *)
Definition with_mark (d : N) (o : option str) : str := match o with Some b => d :: b | None => [] end.
(** [Url::fragment] (url crate). *)
Definition url_fragment (u : url) : option str := snd (cut 35 (url_text u)).
(** [Url::query] (url crate), called at src/request.rs:662. *)
Definition url_query (u : url) : option str := snd (cut 63 (fst (cut 35 (url_text u)))).
(** Everything before the query: scheme, authority and path (url crate). *)
Definition url_base (u : url) : str := fst (cut 63 (fst (cut 35 (url_text u)))).
(** [Url::set_query(Some(q))] (url crate), called at src/request.rs:694. *)
Definition url_set_query (enc : str -> str) (u : url) (q : str) : url :=
  mkUrl (url_base u ++ with_mark 63 (Some (enc q)) ++ with_mark 35 (url_fragment u)) (url_host u).

(** [Request::query] (src/request.rs:658-668): [from_qs] stands for serde_qs. *)
Definition query {V T} (from_qs : str -> option T) (r : request V) : outcome T :=
  ok_or 400 (from_qs (match url_query (rq_url r) with Some q => q | None => [] end)).
(** [Request::set_query] (src/request.rs:691-696). *)
Definition set_query {V T} (enc : str -> str) (to_qs : T -> option str) (r : request V) (t : T) : request V * outcome unit :=
  match to_qs t with
  | Some q => (set_url r (url_set_query enc (rq_url r) q), Ok tt)
  | None => (r, Err 400)
  end.

(** [Body::from_json] (src/body.rs:251-260): an error of serde_json converts with status 500
    (src/error.rs:200-204). *)
Definition from_json {T} (to_json : T -> option (list N)) (t : T) : outcome body :=
  let* bs := ok_or 500 (to_json t) in Ok (from_json_bytes bs).
(** [Body::from_form] (src/body.rs:318-329). *)
Definition from_form {T} (to_form : T -> option str) (t : T) : outcome body :=
  let* s := ok_or 500 (to_form t) in Ok (from_form_text s).

(** [body_json] (src/request.rs:369-372, src/response.rs:338-341). *)
Definition body_json {V T} (parse : list N -> option T) (caps : list nat) (c : common V) : option (outcome T) * common V :=
  let '(b, c') := take_body c in (into_json parse caps b, c').
(** [body_form] (src/request.rs:405-408, src/response.rs:374-377). *)
Definition body_form {V T} (parse : str -> option T) (caps : list nat) (c : common V) : option (outcome T) * common V :=
  let '(b, c') := take_body c in (into_form parse caps b, c').

(** [AsyncBufRead::poll_fill_buf] (src/request.rs:920-923, src/response.rs:620-623). *)
Definition message_fill_buf {V} (c : common V) : poll (list N) * common V :=
  let '(r, b) := poll_fill_buf (c_body c) in (r, with_body c b).
(** [AsyncBufRead::consume] (src/request.rs:925-927, src/response.rs:625-627). *)
Definition message_consume {V} (c : common V) (amt : nat) : common V := with_body c (consume (c_body c) amt).
