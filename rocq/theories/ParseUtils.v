(** src/parse_utils.rs, with the byte offsets of [&str] made explicit: slicing at an offset that is not the
    start of a character panics. *)
From Verif Require Import Base.

(** [char::len_utf8], [str::len] *)
Definition clen (c : N) : N := if c <? 128 then 1 else if c <? 2048 then 2 else if c <? 65536 then 3 else 4.
(** [str::len] (std): bytes. *)
Fixpoint blen (s : str) : N := match s with [] => 0 | c :: s' => clen c + blen s' end.

(** [&s[..n]] and [&s[n..]]: panic when [n] is past the end or inside a character. *)
Fixpoint split_at (s : str) (n : N) : outcome (str * str) :=
  if n =? 0 then Ok ([], s)
  else match s with
       | [] => Panic
       | c :: s' => if clen c <=? n then let* (a, b) := split_at s' (n - clen c) in Ok (c :: a, b) else Panic
       end.

(** [str::char_indices], starting at offset [i]. *)
Fixpoint char_indices (i : N) (s : str) : list (N * N) :=
  match s with [] => [] | c :: s' => (i, c) :: char_indices (i + clen c) s' end.

(** [c as u8].  [char as u8], src/parse_utils.rs:60-84. *)
Definition as_u8 (c : N) : N := c mod 256.

(** src/parse_utils.rs:22-43 *)
Definition tchar (c : N) : bool :=
  is_lower c || is_upper c || is_digit c || existsb (N.eqb c) (lit "!#$%&'*+-.^_`|~").

(** src/parse_utils.rs:46-48 *)
Definition vchar (c : N) : bool :=
  let b := as_u8 c in (b =? 9) || ((32 <=? b) && (b <=? 126)) || (128 <=? b).

(** src/parse_utils.rs:4-19 *)
Fixpoint token_end (l : list (N * N)) (e : N) : N :=
  match l with (i, c) :: l' => if tchar c then token_end l' (i + 1) else e | [] => e end.
(** src/parse_utils.rs:4-19. *)
Definition parse_token (input : str) : outcome (option str * str) :=
  let e := token_end (char_indices 0 input) 0 in
  if e =? 0 then Ok (None, input)
  else let* (a, b) := split_at input e in Ok (Some a, b).

(** The qdtext arm of src/parse_utils.rs:78 (15 stands where RFC 7230 has 0x21). *)
Definition qdtext (b : N) : bool :=
  (b =? 9) || (b =? 32) || (b =? 15) || ((35 <=? b) && (b <=? 91)) || ((93 <=? b) && (b <=? 126)) || (128 <=? b).

(** src/parse_utils.rs:57-86, the scanning loop.  [bs] is the [backslashes] vector, last element first.
    [None]: an early return; otherwise [end_of_string] and the vector. *)
Fixpoint qs_scan (l : list (N * N)) (bs : list N) : option (option N * list N) :=
  match l with
  | [] => Some (None, bs)
  | (i, c) :: l' =>
      if (1 <? i) && match bs with k :: _ => k =? i - 2 | [] => false end then
        if vchar c then qs_scan l' bs else None
      else if as_u8 c =? 92 then qs_scan l' (i - 1 :: bs)
      else if as_u8 c =? 34 then Some (Some (i + 1), bs)
      else if qdtext (as_u8 c) then qs_scan l' bs
      else None
  end.

(** src/parse_utils.rs:97-108, the [filter_map]; [bs] in ascending order. *)
Fixpoint qs_filter (l : list (N * N)) (bs : list N) : str :=
  match l with
  | [] => []
  | (i, c) :: l' =>
      match bs with
      | k :: bs' => if k =? i then qs_filter l' bs' else c :: qs_filter l' bs
      | [] => c :: qs_filter l' []
      end
  end.

(** src/parse_utils.rs:51-118 *)
Definition parse_quoted_string (input : str) : outcome (option str * str) :=
  if starts_with (lit """") input then
    match qs_scan (tl (char_indices 0 input)) [] with
    | Some (Some e, bs) =>
        let* (quoted, _) := split_at input (e - 1) in
        let* (_, value) := split_at quoted 1 in
        let value' := match bs with [] => value | _ => qs_filter (char_indices 0 value) (rev bs) end in
        let* (_, rest) := split_at input e in
        Ok (Some value', rest)
    | _ => Ok (None, input)
    end
  else Ok (None, input).
