(** src/proxies/forwarded.rs, and the parts of src/request.rs that read the same headers. *)
From Verif Require Import Base ParseUtils Headers Message.

(** src/proxies/forwarded.rs:16-21 *)
Record forwarded : Type := mkForwarded {
  fw_by : option str; fw_for : list str; fw_host : option str; fw_proto : option str }.

(** src/proxies/forwarded.rs:316-318 [new] *)
Definition fw_new : forwarded := mkForwarded None [] None None.
(** src/proxies/forwarded.rs:321-323, 331-333, 341-343, 351-353: [add_for], [set_host], [set_proto], [set_by] *)
Definition add_for (f : forwarded) (v : str) : forwarded := mkForwarded (fw_by f) (fw_for f ++ [v]) (fw_host f) (fw_proto f).
(** src/proxies/forwarded.rs:331-333. *)
Definition set_host (f : forwarded) (v : str) : forwarded := mkForwarded (fw_by f) (fw_for f) (Some v) (fw_proto f).
(** src/proxies/forwarded.rs:341-343. *)
Definition set_proto (f : forwarded) (v : str) : forwarded := mkForwarded (fw_by f) (fw_for f) (fw_host f) (Some v).
(** src/proxies/forwarded.rs:351-353. *)
Definition set_by (f : forwarded) (v : str) : forwarded := mkForwarded (Some v) (fw_for f) (fw_host f) (fw_proto f).

(** src/proxies/forwarded.rs:398-403 *)
Definition parse_value (input : str) : outcome (option str * str) :=
  let* (t, rest) := parse_token input in
  match t with Some _ => Ok (t, rest) | None => parse_quoted_string rest end.

(** src/proxies/forwarded.rs:405-420 *)
Definition escape (c : N) : str := if (c =? 92) || (c =? 34) then [92; c] else [c].
(** src/proxies/forwarded.rs:405-420. *)
Definition format_value (input : str) : outcome str :=
  let* (_, rest) := parse_token input in
  match rest with
  | [] => Ok input
  | _ => Ok (lit """" ++ flat_map escape input ++ lit """")
  end.

(** src/proxies/forwarded.rs:422-429 *)
Definition match_ignore_case (start input : str) : outcome (bool * str) :=
  let* (a, b) := split_at input (blen start) in
  Ok (if eq_ignore_case a start then (true, b) else (false, input)).

(** src/proxies/forwarded.rs:431-438 *)
Definition starts_with_ignore_case (start input : str) : outcome bool :=
  if blen start <=? blen input then
    let* (a, _) := split_at input (blen start) in Ok (eq_ignore_case a start)
  else Ok false.

(** src/proxies/forwarded.rs:222-261.  [ParseError] carries no status; 500 is what [?] makes of it in a function
    returning [http_types::Result]. *)
Definition parse_forwarded_pair (f : forwarded) (input : str) : outcome (forwarded * str) :=
  let* (t, rest) := parse_token input in
  match t with
  | None => Err 500
  | Some key =>
      match strip_prefix (lit "=") rest with
      | None => Err 500
      | Some rest =>
          let* (v, rest) := parse_value rest in
          match v with
          | None => Err 500
          | Some value =>
              let* f' :=
                if seqb key (lit "by") then
                  match fw_by f with Some _ => Err 500 | None => Ok (set_by f value) end
                else if seqb key (lit "host") then
                  match fw_host f with Some _ => Err 500 | None => Ok (set_host f value) end
                else if seqb key (lit "proto") then
                  match fw_proto f with Some _ => Err 500 | None => Ok (set_proto f value) end
                else Ok f in
              Ok (f', match strip_prefix (lit ";") rest with Some r => r | None => rest end)
          end
      end
  end.

(** src/proxies/forwarded.rs:263-298; the loop consumes at least 4 characters each time. *)
Fixpoint parse_for (fuel : nat) (f : forwarded) (rest : str) : outcome (forwarded * str) :=
  match fuel with
  | O => Panic
  | S fuel' =>
      let* (m, rest) := match_ignore_case (lit "for=") rest in
      if m then
        let* (v, rest) := parse_value rest in
        match v with
        | None => Err 500
        | Some value =>
            let f' := add_for f value in
            match rest with
            | [] => Ok (f', rest)
            | c :: rest' =>
                if c =? 44 then parse_for fuel' f' (trim_start rest')
                else if c =? 59 then Ok (f', rest')
                else Err 500
            end
        end
      else Err 500
  end.

(** src/proxies/forwarded.rs:207-220; every iteration consumes input. *)
Fixpoint parse_loop (fuel : nat) (f : forwarded) (input : str) : outcome forwarded :=
  match input with
  | [] => Ok f
  | _ =>
      match fuel with
      | O => Panic
      | S fuel' =>
          let* b := starts_with_ignore_case (lit "for=") input in
          let* (f', rest) := if b then parse_for (length input) f input else parse_forwarded_pair f input in
          parse_loop fuel' f' rest
      end
  end.
(** src/proxies/forwarded.rs:207-220 [parse]. *)
Definition fw_parse (input : str) : outcome forwarded := parse_loop (length input) fw_new input.

(** [Iterator::map] of src/proxies/forwarded.rs:371-377 with a function that may panic. *)
Fixpoint map_outcome {A B} (f : A -> outcome B) (l : list A) : outcome (list B) :=
  match l with
  | [] => Ok []
  | a :: l' => let* b := f a in let* bs := map_outcome f l' in Ok (b :: bs)
  end.
(** src/proxies/forwarded.rs:367-369, 382-388: a part that is written when it is there. *)
Definition opt_part (key : str) (o : option str) : str :=
  match o with Some v => key ++ v ++ lit ";" | None => [] end.
(** src/proxies/forwarded.rs:365-395.  [String::pop] removes the last character.  The value is not checked to be ASCII. *)
Definition fw_value (f : forwarded) : outcome str :=
  let* fors := map_outcome (fun v => let* t := format_value v in Ok (lit "for=" ++ t)) (fw_for f) in
  Ok (removelast (opt_part (lit "by=") (fw_by f) ++ join (lit ", ") fors ++ lit ";"
                  ++ opt_part (lit "host=") (fw_host f) ++ opt_part (lit "proto=") (fw_proto f))).

(** src/headers/constants.rs (FORWARDED). *)
Definition FORWARDED : str := lit "forwarded".

(** [headers.get(name)] followed by [as_str()]: the first value.  src/proxies/forwarded.rs:114, 148-176. *)
Definition first_value (h : headers) (n : str) : outcome (option str) :=
  match h_get h n with None => Ok None | Some vs => let* v := values_first vs in Ok (Some v) end.

(** src/proxies/forwarded.rs:111-119 *)
Definition from_forwarded_header (h : headers) : outcome (option forwarded) :=
  let* o := first_value h FORWARDED in
  match o with None => Ok None | Some v => let* f := fw_parse v in Ok (Some f) end.

Section X.
(** [v.parse::<IpAddr>()] followed by [Display] for IPv6 addresses: std. *)
Variable ipv6 : str -> option str.

(** src/proxies/forwarded.rs:146-187 *)
Definition x_for (v : str) : str :=
  let v := trim v in match ipv6 v with Some t => lit "[" ++ t ++ lit "]" | None => v end.
(** src/proxies/forwarded.rs:146-187. *)
Definition from_x_headers (h : headers) : outcome (option forwarded) :=
  let* ff := first_value h (lit "x-forwarded-for") in
  let fors := match ff with Some v => map x_for (split 44 v) | None => [] end in
  let* by_ := first_value h (lit "x-forwarded-by") in
  let* proto := first_value h (lit "x-forwarded-proto") in
  let* host := first_value h (lit "x-forwarded-host") in
  Ok match fors, by_, proto, host with
     | [], None, None, None => None
     | _, _, _, _ => Some (mkForwarded by_ fors host proto)
     end.

(** src/proxies/forwarded.rs:79-85 *)
Definition fw_from_headers (h : headers) : outcome (option forwarded) :=
  let* o := from_forwarded_header h in
  match o with Some f => Ok (Some f) | None => from_x_headers h end.
End X.

(** ** src/request.rs:103-142.  Header names are lower-cased by [header] (header_name.rs). *)
Definition or_else {A} (m : outcome (option A)) (k : outcome (option A)) : outcome (option A) :=
  let* o := m in match o with Some a => Ok (Some a) | None => k end.

(** [Iterator::find_map] (std), used at src/request.rs:126. *)
Definition find_map {A B} (f : A -> option B) (l : list A) : option B :=
  fold_right (fun a r => match f a with Some b => Some b | None => r end) None l.

(** src/request.rs:124-135 *)
Definition forwarded_header_part (h : headers) (part : str) : outcome (option str) :=
  let* o := first_value h FORWARDED in
  Ok match o with
     | None => None
     | Some v => find_map (fun kv => match split 61 kv with
                                     | [k; x] => if eq_ignore_case k part then Some x else None
                                     | _ => None
                                     end) (split 59 v)
     end.
(** [as_str().split(',').next()], src/request.rs:117-118, 139-140. *)
Definition first_entry (h : headers) (n : str) : outcome (option str) :=
  let* o := first_value h n in Ok match o with Some v => hd_error (split 44 v) | None => None end.
(** src/request.rs:137-142 *)
Definition forwarded_for (h : headers) : outcome (option str) :=
  or_else (forwarded_header_part h (lit "for")) (first_entry h (lit "x-forwarded-for")).
(** src/request.rs:103-105 *)
Definition remote {V} (r : request V) : outcome (option str) :=
  or_else (forwarded_for (c_headers (rq_common r))) (Ok (c_peer (rq_common r))).
(** src/request.rs:114-122 *)
Definition host {V} (r : request V) : outcome (option str) :=
  let h := c_headers (rq_common r) in
  or_else (forwarded_header_part h (lit "host"))
    (or_else (first_entry h (lit "x-forwarded-host"))
       (or_else (first_value h (lit "host")) (Ok (url_host (rq_url r))))).
