(** src/cache: Cache-Control, Age, Clear-Site-Data. *)
From Verif Require Import Base Headers Typed.

(** [std::time::Duration]: whole seconds (u64) and nanoseconds (below 10^9).  The type of src/cache/age.rs:33-35 and of src/cache/cache_control/cache_directive.rs:9-44. *)
Record duration : Type := Dur { secs : N; nanos : N }.
(** [Duration::from_secs] (std), as used in src/cache/age.rs:44-47 and cache_directive.rs. *)
Definition from_secs (n : N) : duration := Dur n 0.

(** ** cache/cache_control/cache_directive.rs *)

(** src/cache/cache_control/cache_directive.rs:9-44 *)
Inductive directive : Type :=
| Immutable | MaxAge (d : duration) | MaxStale (d : option duration) | MinFresh (d : duration) | MustRevalidate
| NoCache | NoStore | NoTransform | OnlyIfCached | Private | ProxyRevalidate | Public
| SMaxAge (d : duration) | StaleIfError (d : duration) | StaleWhileRevalidate (d : duration).

(** src/cache/cache_control/cache_directive.rs:48-54, :58-74 *)
Definition valid_in_req (d : directive) : bool :=
  match d with
  | MaxAge _ | MaxStale _ | MinFresh _ | NoCache | NoStore | NoTransform | OnlyIfCached => true
  | _ => false
  end.
(** src/cache/cache_control/cache_directive.rs:57-73. *)
Definition valid_in_res (d : directive) : bool :=
  match d with
  | MustRevalidate | NoCache | NoStore | NoTransform | Public | Private | ProxyRevalidate
  | MaxAge _ | SMaxAge _ | StaleIfError _ | StaleWhileRevalidate _ => true
  | _ => false
  end.

(** src/cache/cache_control/cache_directive.rs:97-101 [get_dur] (and :117-120): the next piece after the name as u64 seconds. *)
Definition get_dur (parts : list str) : outcome duration :=
  let* p := ok_or 400 (hd_error parts) in
  let* n := ok_or 400 (parse_uint 10 u64_max p) in Ok (from_secs n).

(** src/cache/cache_control/cache_directive.rs:81-127.  [to_lower] is the ASCII part of [str::to_lowercase]; the one character that Unicode lower-casing
    maps into ASCII letters is U+212A (to "k"), which occurs in no name below. *)
Definition directive_from_str (s : str) : outcome (option directive) :=
  match trim s with
  | [] => Ok None
  | t =>
      match split c_eq (to_lower t) with
      | [] => Panic
      | next :: parts =>
          let flag (d : directive) : outcome (option directive) := Ok (Some d) in
          let timed (f : duration -> directive) : outcome (option directive) :=
            let* d := get_dur parts in Ok (Some (f d)) in
          if seqb next (lit "immutable") then flag Immutable
          else if seqb next (lit "no-cache") then flag NoCache
          else if seqb next (lit "no-store") then flag NoStore
          else if seqb next (lit "no-transform") then flag NoTransform
          else if seqb next (lit "only-if-cached") then flag OnlyIfCached
          else if seqb next (lit "must-revalidate") then flag MustRevalidate
          else if seqb next (lit "public") then flag Public
          else if seqb next (lit "private") then flag Private
          else if seqb next (lit "proxy-revalidate") then flag ProxyRevalidate
          else if seqb next (lit "max-age") then timed MaxAge
          else if seqb next (lit "max-stale") then
            match parts with
            | [] => flag (MaxStale None)
            | p :: _ => let* n := ok_or 400 (parse_uint 10 u64_max p) in flag (MaxStale (Some (from_secs n)))
            end
          else if seqb next (lit "min-fresh") then timed MinFresh
          else if seqb next (lit "s-maxage") then timed SMaxAge
          else if seqb next (lit "stale-if-error") then timed StaleIfError
          else if seqb next (lit "stale-while-revalidate") then timed StaleWhileRevalidate
          else Ok None
      end
  end.

(** src/cache/cache_control/cache_directive.rs:130-156 *)
Definition directive_value (d : directive) : str :=
  match d with
  | Immutable => lit "immutable"
  | MaxAge d => lit "max-age=" ++ show_dec (secs d)
  | MaxStale (Some d) => lit "max-stale=" ++ show_dec (secs d)
  | MaxStale None => lit "max-stale"
  | MinFresh d => lit "min-fresh=" ++ show_dec (secs d)
  | MustRevalidate => lit "must-revalidate"
  | NoCache => lit "no-cache"
  | NoStore => lit "no-store"
  | NoTransform => lit "no-transform"
  | OnlyIfCached => lit "only-if-cached"
  | Private => lit "private"
  | ProxyRevalidate => lit "proxy-revalidate"
  | Public => lit "public"
  | SMaxAge d => lit "s-max-age=" ++ show_dec (secs d)
  | StaleIfError d => lit "stale-if-error=" ++ show_dec (secs d)
  | StaleWhileRevalidate d => lit "stale-while-revalidate=" ++ show_dec (secs d)
  end.

(** ** cache/cache_control/cache_control.rs *)
(** src/cache/cache_control/cache_control.rs:85-87. *)
Definition CACHE_CONTROL : str := lit "cache-control".
(** src/cache/cache_control/cache_control.rs:52-60 *)
Fixpoint read_directives (parts : list str) : outcome (list directive) :=
  match parts with
  | [] => Ok []
  | p :: ps =>
      let* e := directive_from_str p in
      let* es := read_directives ps in
      Ok (match e with Some d => d :: es | None => es end)
  end.
(** src/cache/cache_control/cache_control.rs:45-63 *)
Definition cache_from_headers (h : headers) : outcome (option (list directive)) :=
  with_all h CACHE_CONTROL (fun vs => read_directives (comma_parts vs)).
(** src/cache/cache_control/cache_control.rs:88-100 *)
Definition cache_value (l : list directive) : str := join (lit ", ") (map directive_value l).
(** src/headers/header.rs:15-22 with src/cache/cache_control/cache_control.rs:84-101. *)
Definition cache_apply (h : headers) (l : list directive) : headers := apply_value h CACHE_CONTROL (cache_value l).

(** ** cache/age.rs *)
(** src/cache/age.rs:73-75. *)
Definition AGE : str := lit "age".

(** [u64 as f64]: the nearest multiple of a power of two with 53 significant bits, ties to even.  The result is
    an integer, so it is represented as one.  src/cache/age.rs:66. *)
Definition f64_of_u64 (n : N) : N :=
  let m := 2 ^ (N.size n - 53) in
  let q := n / m in
  let r := n mod m in
  if (2 * r <? m) || ((2 * r =? m) && N.even q) then q * m else (q + 1) * m.

(** [Duration::from_secs_f64] of a non-negative integral value: panics at 2^64 and above.  src/cache/age.rs:66. *)
Definition from_secs_f64 (v : N) : outcome duration := if v <? 2 ^ 64 then Ok (from_secs v) else Panic.

(** src/cache/age.rs:55-69 *)
Definition age_from_headers (h : headers) : outcome (option duration) :=
  with_last h AGE (fun v => let* n := ok_or 400 (parse_uint 10 u64_max v) in from_secs_f64 (f64_of_u64 n)).
(** src/cache/age.rs:72-83 *)
Definition age_apply (h : headers) (d : duration) : headers := apply_value h AGE (show_dec (secs d)).

(** ** cache/clear_site_data *)
(** src/cache/clear_site_data/mod.rs:215-217. *)
Definition CLEAR_SITE_DATA : str := lit "clear-site-data".
(** src/cache/clear_site_data/directive.rs:8-27 *)
Inductive clear : Type := ClearCache | ClearCookies | ClearStorage | ClearExecutionContexts.
(** src/cache/clear_site_data/directive.rs:31-38 [as_str], with the quotes. *)
Definition clear_str (c : clear) : str :=
  match c with
  | ClearCache => lit """cache"""
  | ClearCookies => lit """cookies"""
  | ClearStorage => lit """storage"""
  | ClearExecutionContexts => lit """executionContexts"""
  end.
(** src/cache/clear_site_data/directive.rs:47-59: anything else reaches [todo!()]. *)
Definition clear_from_str (s : str) : outcome clear :=
  if seqb s (lit """cache""") then Ok ClearCache
  else if seqb s (lit """cookies""") then Ok ClearCookies
  else if seqb s (lit """storage""") then Ok ClearStorage
  else if seqb s (lit """executionContexts""") then Ok ClearExecutionContexts
  else Panic.
(** src/cache/clear_site_data/mod.rs:63-83 *)
Definition clear_from_headers (h : headers) : outcome (option (list clear * bool)) :=
  with_all h CLEAR_SITE_DATA (fun vs => read_parts (lit """*""") clear_from_str (comma_parts vs)).
(** src/cache/clear_site_data/mod.rs:219-237 *)
Definition clear_value (c : list clear * bool) : str := list_value (lit """*""") (map clear_str (fst c)) (snd c).
(** src/headers/header.rs:15-22 with src/cache/clear_site_data/mod.rs:214-238. *)
Definition clear_apply (h : headers) (c : list clear * bool) : headers :=
  apply_value h CLEAR_SITE_DATA (clear_value c).
