(** Strings, results and the pieces of the Rust standard library the crate leans on.

    A Rust [str] is a list of Unicode scalar values, a byte slice a list of bytes.
    Everything in this file models std, not the crate; the citations name the std item. *)
From Coq Require Export String Ascii.
From Coq Require Export List Bool NArith ZArith Lia Permutation.
Export ListNotations.
Open Scope N_scope.
Open Scope list_scope.

(** ** Results: [Result<T, http_types::Error>] plus an explicit panic.
    Only the HTTP status of the error is kept, not its message or source. *)
Inductive outcome (A : Type) : Type :=
| Ok (a : A)
| Err (status : N)
| Panic.
Arguments Ok {A} a.
Arguments Err {A} status.
Arguments Panic {A}.

(** The [?] operator and method chains on results. *)
Definition bind {A B} (m : outcome A) (k : A -> outcome B) : outcome B :=
  match m with Ok a => k a | Err e => Err e | Panic => Panic end.

Notation "'let*' x ':=' m 'in' k" := (bind m (fun x => k))
  (at level 200, x pattern, m at level 100, k at level 200, right associativity).

(** [.status(n)] on a result (src/status.rs:59-71 and 103-113): replaces the status of an error. *)
Definition with_status {A} (n : N) (m : outcome A) : outcome A :=
  match m with Err _ => Err n | other => other end.

(** [Option::ok_or_else] with an error of status [n]. *)
Definition ok_or {A} (n : N) (o : option A) : outcome A :=
  match o with Some a => Ok a | None => Err n end.

(** [.unwrap()] / [.expect()] on an option. *)
Definition unwrap {A} (o : option A) : outcome A :=
  match o with Some a => Ok a | None => Panic end.

(** [Result::is_ok]. *)
Definition is_ok {A} (m : outcome A) : bool := match m with Ok _ => true | _ => false end.

(** ** Strings *)
Definition str := list N.

(** A string literal. *)
Definition lit (s : string) : str := map N_of_ascii (list_ascii_of_string s).
Arguments lit s%string.

(** [==] on strings. *)
Fixpoint seqb (a b : str) : bool :=
  match a, b with
  | [], [] => true
  | x :: a', y :: b' => (x =? y) && seqb a' b'
  | _, _ => false
  end.

Notation c_tab := 9 (only parsing).
Notation c_lf := 10 (only parsing).
Notation c_cr := 13 (only parsing).
Notation c_space := 32 (only parsing).
Notation c_quote := 34 (only parsing).
Notation c_star := 42 (only parsing).
Notation c_plus := 43 (only parsing).
Notation c_comma := 44 (only parsing).
Notation c_minus := 45 (only parsing).
Notation c_dot := 46 (only parsing).
Notation c_slash := 47 (only parsing).
Notation c_zero := 48 (only parsing).
Notation c_colon := 58 (only parsing).
Notation c_semi := 59 (only parsing).
Notation c_eq := 61 (only parsing).
Notation c_bslash := 92 (only parsing).

(** [char] values: Unicode scalar values. *)
Definition is_scalar (c : N) : bool := (c <? 55296) || ((57344 <=? c) && (c <? 1114112)).
(** Every [str] consists of scalar values. *)
Definition valid_str (s : str) : bool := forallb is_scalar s.

(** [str::is_ascii] *)
Definition is_ascii (s : str) : bool := forallb (fun c => c <? 128) s.

(** [char::is_ascii_uppercase] etc., [str::to_ascii_lowercase], [str::to_ascii_uppercase] *)
Definition is_upper (c : N) : bool := (65 <=? c) && (c <=? 90).
(** [char::is_ascii_lowercase]. *)
Definition is_lower (c : N) : bool := (97 <=? c) && (c <=? 122).
(** [char::is_ascii_digit]. *)
Definition is_digit (c : N) : bool := (48 <=? c) && (c <=? 57).
(** [char::to_ascii_lowercase]. *)
Definition lower_char (c : N) : N := if is_upper c then c + 32 else c.
(** [char::to_ascii_uppercase]. *)
Definition upper_char (c : N) : N := if is_lower c then c - 32 else c.
(** [str::to_ascii_lowercase]. *)
Definition to_lower (s : str) : str := map lower_char s.
(** [str::to_ascii_uppercase]. *)
Definition to_upper (s : str) : str := map upper_char s.

(** [str::eq_ignore_ascii_case] *)
Definition eq_ignore_case (a b : str) : bool := seqb (to_lower a) (to_lower b).

(** [char::is_whitespace]: the Unicode White_Space property. *)
Definition is_ws (c : N) : bool :=
  ((9 <=? c) && (c <=? 13)) || (c =? 32) || (c =? 133) || (c =? 160) || (c =? 5760)
  || ((8192 <=? c) && (c <=? 8202)) || (c =? 8232) || (c =? 8233) || (c =? 8239)
  || (c =? 8287) || (c =? 12288).

(** The rest from the first character without the property on. *)
Fixpoint drop_while (p : N -> bool) (s : str) : str :=
  match s with
  | [] => []
  | c :: s' => if p c then drop_while p s' else s
  end.

(** The longest prefix of characters with the property. *)
Fixpoint take_while (p : N -> bool) (s : str) : str :=
  match s with
  | [] => []
  | c :: s' => if p c then c :: take_while p s' else []
  end.

(** [str::trim_start_matches], [trim_end_matches], [trim_matches] with a char predicate;
    [trim], [trim_start]. *)
Definition trim_start_matches (p : N -> bool) (s : str) : str := drop_while p s.
(** [str::trim_end_matches]. *)
Definition trim_end_matches (p : N -> bool) (s : str) : str := rev (drop_while p (rev s)).
(** [str::trim_matches]. *)
Definition trim_matches (p : N -> bool) (s : str) : str := trim_end_matches p (trim_start_matches p s).
(** [str::trim]. *)
Definition trim (s : str) : str := trim_matches is_ws s.
(** [str::trim_start]. *)
Definition trim_start (s : str) : str := trim_start_matches is_ws s.

(** [str::split(char)]: always at least one piece. *)
Fixpoint split (d : N) (s : str) : list str :=
  match s with
  | [] => [[]]
  | c :: s' =>
      if c =? d then [] :: split d s'
      else match split d s' with
           | p :: ps => (c :: p) :: ps
           | [] => [[c]]
           end
  end.

(** [str::split_once(char)] *)
Fixpoint split_once (d : N) (s : str) : option (str * str) :=
  match s with
  | [] => None
  | c :: s' =>
      if c =? d then Some ([], s')
      else match split_once d s' with
           | Some (a, b) => Some (c :: a, b)
           | None => None
           end
  end.

(** [str::splitn(2, char)]: the first piece and the optional remainder. *)
Definition splitn2 (d : N) (s : str) : str * option str :=
  match split_once d s with
  | Some (a, b) => (a, Some b)
  | None => (s, None)
  end.

(** [str::strip_prefix(&str)], [str::starts_with] *)
Fixpoint strip_prefix (p s : str) : option str :=
  match p, s with
  | [], _ => Some s
  | x :: p', y :: s' => if x =? y then strip_prefix p' s' else None
  | _ :: _, [] => None
  end.
(** [str::starts_with]. *)
Definition starts_with (p s : str) : bool :=
  match strip_prefix p s with Some _ => true | None => false end.

(** [str::strip_suffix(&str)], [str::ends_with] *)
Definition strip_suffix (p s : str) : option str :=
  match strip_prefix (rev p) (rev s) with Some r => Some (rev r) | None => None end.

(** [[T]::join] / the crate's comma separated [write!] loops. *)
Fixpoint join (sep : str) (l : list str) : str :=
  match l with
  | [] => []
  | [x] => x
  | x :: xs => x ++ sep ++ join sep xs
  end.

(** ** Integers: [uN::from_str_radix] and [Display]/[LowerHex] *)

(** [char::to_digit(radix)] for radix at most 16. *)
Definition char_digit (radix c : N) : option N :=
  let d := if is_digit c then Some (c - 48)
           else if (97 <=? c) && (c <=? 102) then Some (c - 87)
           else if (65 <=? c) && (c <=? 70) then Some (c - 55)
           else None in
  match d with
  | Some v => if v <? radix then Some v else None
  | None => None
  end.

(** The value of a run of digits. *)
Fixpoint digits_val (radix : N) (acc : N) (s : str) : option N :=
  match s with
  | [] => Some acc
  | c :: s' => match char_digit radix c with
               | Some d => digits_val radix (acc * radix + d) s'
               | None => None
               end
  end.

(** [<unsigned>::from_str_radix]: one optional leading ['+'], at least one digit, value at most
    [max].  std detects overflow digit by digit; since the value only grows the final comparison
    gives the same verdict, and both failures are the same error here. *)
Definition parse_uint (radix max : N) (s : str) : option N :=
  let body := match s with c :: s' => if c =? 43 then s' else s | [] => s end in
  match body with
  | [] => None
  | _ => match digits_val radix 0 body with
         | Some v => if v <=? max then Some v else None
         | None => None
         end
  end.

(** [u8::MAX]. *)
Definition u8_max : N := 255.
(** [u16::MAX]. *)
Definition u16_max : N := 65535.
(** [u64::MAX]. *)
Definition u64_max : N := 18446744073709551615.
(** [u128::MAX]. *)
Definition u128_max : N := 340282366920938463463374607431768211455.

(** Digits of a number, most significant first. *)
Fixpoint digits_fuel (fuel : nat) (radix n : N) (acc : list N) : list N :=
  match fuel with
  | O => acc
  | S f => let acc' := (n mod radix) :: acc in
           if n / radix =? 0 then acc' else digits_fuel f radix (n / radix) acc'
  end.
(** Digits of a number. *)
Definition digits (radix n : N) : list N := digits_fuel (S (N.size_nat n)) radix n [].

(** [char::from_digit]. *)
Definition digit_char (d : N) : N := if d <? 10 then 48 + d else 87 + d.

(** [Display] of an unsigned integer; [LowerHex]. *)
Definition show_radix (radix n : N) : str := map digit_char (digits radix n).
(** [Display] of an unsigned integer. *)
Definition show_dec (n : N) : str := show_radix 10 n.

(** [{:0width$x}] style zero padding. *)
Definition pad_left (w : nat) (c : N) (s : str) : str :=
  repeat c (w - length s)%nat ++ s.
