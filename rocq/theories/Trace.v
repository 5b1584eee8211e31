(** Model of src/trace/trace_context.rs. *)
From Verif Require Import Base Headers Typed.

(** src/trace/trace_context.rs:38-44; [u64], [u8], [u128], [Option<u64>], [u8]. *)
Record context : Type := Context { ctx_id : N; ctx_version : N; ctx_trace : N; ctx_parent : option N; ctx_flags : N }.
(** src/trace/trace_context.rs:199-201. *)
Definition TRACEPARENT : str := lit "traceparent".

(** src/trace/trace_context.rs:61-69 [new]; the two random numbers ([fastrand]) are arguments. *)
Definition context_new (id trace : N) : context := Context id 0 trace None 1.

(** [parts[i]]: panics when there are fewer parts.  src/trace/trace_context.rs:109. *)
Definition part (ps : list str) (i : nat) : outcome str := unwrap (nth_error ps i).
(** [from_str_radix(_, 16)] (std) and its error, src/trace/trace_context.rs:111-116. *)
Definition hex (max : N) (status : N) (s : str) : outcome N := ok_or status (parse_uint 16 max s).
(** src/trace/trace_context.rs:109-117; the bare [?] on the version turns the error into one of status 500. *)
Definition context_parse (id : N) (s : str) : outcome context :=
  let ps := split 45 s in
  let* p0 := part ps 0 in let* v := hex u8_max 500 p0 in
  let* p1 := part ps 1 in let* t := hex u128_max 400 p1 in
  let* p2 := part ps 2 in let* p := hex u64_max 400 p2 in
  let* p3 := part ps 3 in let* f := hex u8_max 400 p3 in
  Ok (Context id v t (Some p) f).
(** src/trace/trace_context.rs:102-118 [from_headers]; [traceparent.as_str()] derefs to the first value (header_values.rs:150-156). *)
Definition context_from_headers (id : N) (h : headers) : outcome (option context) :=
  match h_get h TRACEPARENT with
  | None => Ok None
  | Some vs => let* v := values_first vs in let* c := context_parse id v in Ok (Some c)
  end.
(** src/trace/trace_context.rs:124-132 [child] *)
Definition child (id : N) (c : context) : context := Context id (ctx_version c) (ctx_trace c) (Some (ctx_id c)) (ctx_flags c).
(** src/trace/trace_context.rs:176-178 [sampled] *)
Definition sampled (c : context) : bool := N.land (ctx_flags c) 1 =? 1.
(** src/trace/trace_context.rs:192-195 [set_sampled] *)
Definition set_sampled (c : context) (b : bool) : context :=
  let x := if b then 1 else 0 in
  Context (ctx_id c) (ctx_version c) (ctx_trace c) (ctx_parent c) (N.lxor (ctx_flags c) (N.land (N.lxor x (ctx_flags c)) 1)).
(** [{:02x}], [{:032x}], [{:016x}] (std), src/trace/trace_context.rs:210-216. *)
Definition hex_field (w : nat) (n : N) : str := pad_left w 48 (show_radix 16 n).
(** src/trace/trace_context.rs:209-217 [Display] *)
Definition context_show (c : context) : str :=
  hex_field 2 (ctx_version c) ++ lit "-" ++ hex_field 32 (ctx_trace c) ++ lit "-" ++ hex_field 16 (ctx_id c) ++ lit "-" ++ hex_field 2 (ctx_flags c).
(** src/trace/trace_context.rs:198-207 [Header] *)
Definition context_apply (h : headers) (c : context) : headers := apply_value h TRACEPARENT (context_show c).
