(** Model of src/trace/server_timing: metric.rs, parse.rs, mod.rs. *)
From Verif Require Import Base Headers Typed Float Cache.

Definition SERVER_TIMING : str := lit "server-timing".
(** src/trace/server_timing/metric.rs:18-22 *)
Record metric : Type := Metric { m_name : str; m_dur : option duration; m_desc : option str }.
(** src/trace/server_timing/metric.rs:30-37 [new] *)
Definition metric_new (name : str) (dur : option duration) (desc : option str) : outcome metric :=
  if negb (is_ascii name) then Err 500 else
  if negb (match desc with Some d => is_ascii d | None => true end) then Err 500 else
  Ok (Metric name dur desc).

(** [Duration] from nanoseconds (std). *)
Definition of_nanos (t : N) : duration := Dur (t / 1000000000) (t mod 1000000000).

(** f64 arithmetic on finite non-negative values, as numbers of units 2^-1074 (see Float.v). *)
Definition finite (x : float) : N := match x with Fin _ v => v | _ => 0 end.
(** A correctly rounded quotient (std). *)
Definition f64_of_ratio (p q : N) : N := finite (round_ratio f64_format false p q).
(** [+] on [f64] (std). *)
Definition f64_add (a b : N) : N := f64_of_ratio (a + b) (one f64_format).
(** [*] on [f64] (std). *)
Definition f64_mul (a b : N) : N := f64_of_ratio (a * b) (one f64_format * one f64_format).
(** src/trace/server_timing/metric.rs:60: [d.as_secs_f64() * 1000.0]; std computes [(secs as f64) + (nanos as f64) / 1e9].  Nothing here
    comes near the overflow threshold, so [finite] loses nothing. *)
Definition as_secs_f64 (d : duration) : N := f64_add (f64_of_ratio (secs d) 1) (f64_of_ratio (nanos d) 1000000000).
(** src/trace/server_timing/metric.rs:57-60. *)
Definition as_millis (d : duration) : N := f64_mul (as_secs_f64 d) (f64_of_ratio 1000 1).

Section Timing.
  (** [Display] of a finite non-negative f64, given in units. *)
  Context (show_f64 : N -> str).
  (** The nanoseconds [Duration::from_secs_f64] makes of a finite non-negative f64, given in units.  Older standard
      libraries cut, newer ones round. *)
  Context (nanos_of : N -> N).

  (** src/trace/server_timing/metric.rs:55-74 [From<Metric> for HeaderValue] *)
  Definition metric_value (m : metric) : str :=
    m_name m ++
    match m_dur m, m_desc m with
    | Some d, Some t => lit "; dur=" ++ show_f64 (as_millis d) ++ lit "; desc=""" ++ t ++ lit """"
    | Some d, None => lit "; dur=" ++ show_f64 (as_millis d)
    | None, Some t => lit "; desc=""" ++ t ++ lit """"
    | None, None => []
    end.
  (** src/trace/server_timing/mod.rs:113-125 [header_value] *)
  Definition timing_value (ms : list metric) : str := join (lit ", ") (map metric_value ms).
  (** src/headers/header.rs:15-22 with src/trace/server_timing/mod.rs:108-126. *)
  Definition timing_apply (h : headers) (ms : list metric) : headers := apply_value h SERVER_TIMING (timing_value ms).

  (** [Duration::from_secs_f64(x) / 1000]: panics for NaN, infinities, negative values and 2^64 seconds or more.  src/trace/server_timing/parse.rs:60-66. *)
  Definition duration_of (x : float) : outcome duration :=
    match x with
    | Fin neg v =>
        if neg && negb (v =? 0) then Panic else
        if 2 ^ 64 * one f64_format <=? v then Panic else Ok (of_nanos (nanos_of v / 1000))
    | _ => Panic
    end.
  (** src/trace/server_timing/parse.rs:70-86, the description's quotes. *)
  Definition parse_desc (value : str) : outcome str :=
    match strip_prefix (lit """") value with
    | Some r => match strip_suffix (lit """") r with Some r' => Ok r' | None => Err 500 end
    | None => match strip_suffix (lit """") value with Some _ => Err 500 | None => Ok value end
    end.
  (** src/trace/server_timing/parse.rs:45-89, the loop body. *)
  Definition parse_param (st : option duration * option str) (part : str) : outcome (option duration * option str) :=
    match part with
    | [] => Err 500
    | _ =>
        match split c_eq (trim_start part) with
        | k :: v :: _ =>
            let k := trim_end_matches is_ws k in
            let v := trim_start v in
            if seqb k (lit "dur") then
              let* x := ok_or 500 (parse_float f64_format v) in
              let* d := duration_of x in Ok (Some d, snd st)
            else if seqb k (lit "desc") then let* t := parse_desc v in Ok (fst st, Some t)
            else Ok st
        | _ => Err 500
        end
    end.
  (** src/trace/server_timing/parse.rs:45-89, the loop. *)
  Fixpoint parse_params (parts : list str) (st : option duration * option str) : outcome (option duration * option str) :=
    match parts with [] => Ok st | p :: ps => let* st' := parse_param st p in parse_params ps st' end.
  (** src/trace/server_timing/parse.rs:32-96 [parse_entry] *)
  Definition parse_entry (s : str) : outcome metric :=
    match split c_semi (trim s) with
    | [] => Err 500
    | n :: parts => let* st := parse_params parts (None, None) in Ok (Metric (trim_end_matches is_ws n) (fst st) (snd st))
    end.
  (** src/trace/server_timing/parse.rs:9-18 [parse_header], run over all values (src/trace/server_timing/mod.rs:82-85). *)
  Fixpoint parse_entries (parts : list str) : outcome (list metric) :=
    match parts with
    | [] => Ok []
    | p :: ps => let* m := with_status 400 (parse_entry p) in let* ms := parse_entries ps in Ok (m :: ms)
    end.
  (** src/trace/server_timing/mod.rs:75-86 [from_headers] *)
  Definition timing_from_headers (h : headers) : outcome (option (list metric)) :=
    with_all h SERVER_TIMING (fun vs => parse_entries (comma_parts vs)).
End Timing.
