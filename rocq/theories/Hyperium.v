(** Model of src/hyperium_http.rs: conversions to and from the http crate (0.2). *)
From Verif Require Import Base Headers Method StatusCode Mime Body Message.

(** ** What the http crate does (trusted, see DESIGN.md). *)

(** [http::Method] is its text: a non-empty token, case kept. *)
Definition token_char (c : N) : bool :=
  (48 <=? c) && (c <=? 57) || (65 <=? c) && (c <=? 90) || (97 <=? c) && (c <=? 122) ||
  existsb (N.eqb c) (lit "!#$%&'*+-.^_`|~").
(** [http::Method::from_str]. *)
Definition http_method (s : str) : outcome str :=
  if negb (seqb s []) && forallb token_char s then Ok s else Err 500.
(** [http::StatusCode::from_u16] *)
Definition http_status (n : N) : outcome N := if (100 <=? n) && (n <? 1000) then Ok n else Err 500.
(** [http::Version]. *)
Inductive http_version : Type := HTTP_09 | HTTP_10 | HTTP_11 | HTTP_2 | HTTP_3.
(** [http::HeaderValue::from_bytes] *)
Definition value_char (c : N) : bool := (32 <=? c) && negb (c =? 127) || (c =? 9).
(** [http::HeaderValue::from_bytes]. *)
Definition http_value (b : str) : outcome str := if forallb value_char b then Ok b else Err 500.
(** [http::HeaderMap]: names in lower case, each with at least one value; a value is a list of bytes.  The limit of 2^15 entries is left out. *)
Definition http_map : Type := hmap (list str).
(** [http::HeaderMap::append]. *)
Definition http_append (m : http_map) (n : str) (v : str) : http_map :=
  hm_insert m n (match hm_get m n with Some vs => vs ++ [v] | None => [v] end).
(** [HeaderMap::into_iter]: only the first value of a name comes with the name. *)
Definition http_items (m : http_map) : list (option str * str) :=
  flat_map (fun e => match snd e with [] => [] | v :: vs => (Some (fst e), v) :: map (pair None) vs end) m.

(** [unwrap].  src/hyperium_http.rs:10, 16, 22, 28. *)
Definition must {A} (o : outcome A) : outcome A := match o with Ok a => Ok a | _ => Panic end.

(** ** src/hyperium_http.rs:8-55 *)
Definition method_from_http (m : str) : outcome method := must (method_from_str m).
(** src/hyperium_http.rs:14-18. *)
Definition method_to_http (m : method) : outcome str := must (http_method (method_str m)).
(** src/hyperium_http.rs:20-24. *)
Definition status_from_http (n : N) : outcome status_code := must (code_try_from n).
(** src/hyperium_http.rs:26-30. *)
Definition status_to_http (s : status_code) : outcome N := must (http_status (code_u16 s)).
(** src/hyperium_http.rs:32-43. *)
Definition version_from_http (v : http_version) : version :=
  match v with HTTP_09 => Http0_9 | HTTP_10 => Http1_0 | HTTP_11 => Http1_1 | HTTP_2 => Http2_0 | HTTP_3 => Http3_0 end.
(** src/hyperium_http.rs:45-55. *)
Definition version_to_http (v : version) : http_version :=
  match v with Http0_9 => HTTP_09 | Http1_0 => HTTP_10 | Http1_1 => HTTP_11 | Http2_0 => HTTP_2 | Http3_0 => HTTP_3 end.

Section Hyperium.
  (** Which lower-case texts [http::HeaderName::from_bytes] accepts. *)
  Context (name_ok : str -> bool).
  Definition http_name (b : str) : outcome str := if name_ok (to_lower b) then Ok (to_lower b) else Err 500.

  (** src/hyperium_http.rs:93-113 [TryFrom<http::HeaderMap> for Headers] *)
  Fixpoint from_items (items : list (option str * str)) (h : headers) : outcome headers :=
    match items with
    | [] => Ok h
    | (Some n, v) :: items =>
        let* v' := value_from_bytes v in
        let* n' := name_from_bytes n in
        let '(h', r) := h_append h n' (TvValues [v']) in
        let* _ := r in from_items items h'
    | (None, _) :: items => from_items items h
    end.
  (** src/hyperium_http.rs:93-113. *)
  Definition headers_from_http (m : http_map) : outcome headers := from_items (http_items m) headers_new.

  (** src/hyperium_http.rs:115-141 [TryFrom<Headers> for http::HeaderMap] *)
  Fixpoint to_values (n : str) (vs : list str) (m : http_map) : outcome http_map :=
    match vs with
    | [] => Ok m
    | v :: vs => let* v' := http_value v in to_values n vs (http_append m n v')
    end.
  (** src/hyperium_http.rs:115-141, the outer loop. *)
  Fixpoint to_map (h : headers) (m : http_map) : outcome http_map :=
    match h with
    | [] => Ok m
    | (n, vs) :: h => let* n' := http_name n in let* m' := to_values n' vs m in to_map h m'
    end.
  (** src/hyperium_http.rs:115-141. *)
  Definition headers_to_http (h : headers) : outcome http_map := to_map h [].

  (** src/hyperium_http.rs:143-157 [hyperium_headers_to_headers]: nothing is checked. *)
  Fixpoint from_items_unchecked (items : list (option str * str)) (h : headers) : outcome headers :=
    match items with
    | [] => Ok h
    | (Some n, v) :: items =>
        let '(h', r) := h_append h n (TvValues [v]) in
        let* _ := r in from_items_unchecked items h'
    | (None, _) :: items => from_items_unchecked items h
    end.
  (** src/hyperium_http.rs:159-170 [headers_to_hyperium_headers]: the same walk as above with [unwrap] for [?]. *)
  Definition headers_to_http_or_panic (h : headers) : outcome http_map := must (to_map h []).

  (** [http::Uri] is its text; [uri_of] is [Uri::try_from] on it, [url_of] is [Url::parse] (with the 500 that [?]
      puts on its error). *)
  Context (uri_of : str -> option str) (url_of : str -> option url).

  (** [http::Request<Body>]. *)
  Record http_request : Type := HttpRequest {
    hq_method : str; hq_uri : str; hq_version : http_version; hq_headers : http_map; hq_body : body }.
  (** [http::Response<Body>]. *)
  Record http_response : Type := HttpResponse {
    hs_status : N; hs_version : http_version; hs_headers : http_map; hs_body : body }.

  (** Assignment to the version field (src/hyperium_http.rs:190, 217). *)
  Definition with_version {V} (c : common V) (v : option version) : common V :=
    mkCommon (c_headers c) v (c_body c) (c_ext c) (c_peer c) (c_local c).
  (** The part the two conversions into our messages share.  src/hyperium_http.rs:189-191, 216-218. *)
  Definition fill {V} (c : common V) (b : body) (v : http_version) (m : http_map) : outcome (common V) :=
    let c := with_version (set_body c b) (Some (version_from_http v)) in
    let* h := from_items_unchecked (http_items m) (c_headers c) in Ok (with_headers c h).

  (** src/hyperium_http.rs:182-195 [TryFrom<http::Request<Body>> for Request] *)
  Definition request_from_http {V} (q : http_request) (k : nat) : outcome (request V) :=
    let* m := method_from_http (hq_method q) in
    let* u := ok_or 500 (url_of (hq_uri q)) in
    let r := request_new m u k in
    let* c := fill (rq_common r) (hq_body q) (hq_version q) (hq_headers q) in
    Ok (mkRequest (rq_method r) (rq_url r) c (rq_trailers r)).
  (** [unwrap_or_default]: http's default version is 1.1. *)
  Definition version_or_default (v : option version) : http_version :=
    match v with Some v => version_to_http v | None => HTTP_11 end.
  (** src/hyperium_http.rs:197-208 [From<Request> for http::Request<Body>]; the body is the request's (request.rs:942-946). *)
  Definition request_to_http {V} (r : request V) : outcome http_request :=
    let c := rq_common r in
    let* m := method_to_http (rq_method r) in
    let* u := unwrap (uri_of (url_text (rq_url r))) in
    let* h := headers_to_http_or_panic (c_headers c) in
    Ok (HttpRequest m u (version_or_default (c_version c)) h (c_body c)).

  (** src/hyperium_http.rs:210-220 [TryFrom<http::Response<Body>> for Response] *)
  Definition response_from_http {V} (q : http_response) (k k' : nat) : outcome (response V) :=
    let* _ := status_from_http (hs_status q) in
    let* r := response_new (hs_status q) k k' in
    let* c := fill (rs_common r) (hs_body q) (hs_version q) (hs_headers q) in
    Ok (mkResponse (rs_status r) c (rs_trailers r) (rs_upgrade r)).
  (** src/hyperium_http.rs:222-233 [From<Response> for http::Response<Body>] *)
  Definition response_to_http {V} (r : response V) : outcome http_response :=
    let c := rs_common r in
    let* n := must (http_status (code_u16 (rs_status r))) in
    let* h := headers_to_http_or_panic (c_headers c) in
    Ok (HttpResponse n (version_or_default (c_version c)) h (fst (take_body c))).
End Hyperium.
