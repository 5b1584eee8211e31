(** A reader of header values written from RFC 9110 (sections 5.6 and 12.4.2) and not from the crate: lists, parameters,
    quoted strings, quality values.  Nothing here models code; C102 uses it to say what other programs read. *)
From Verif Require Import Base.

(** Optional white space. *)
Definition blank (c : N) : bool := (c =? 32) || (c =? 9).
Definition strip (s : str) : str := trim_matches blank s.

(** Where a reader is: outside quotes, inside, or after a backslash inside.  Entity tags (section 8.8.3) have quotes without
    escapes: [esc] is false for them. *)
Inductive place : Type := Plain | Quoted | Escaped.
Definition step (esc : bool) (p : place) (c : N) : place :=
  match p with
  | Plain => if c =? 34 then Quoted else Plain
  | Quoted => if c =? 34 then Plain else if esc && (c =? 92) then Escaped else Quoted
  | Escaped => Quoted
  end.
Definition add_char (c : N) (l : list str) : list str := match l with x :: r => (c :: x) :: r | [] => [[c]] end.
(** The pieces between separators outside quotes. *)
Fixpoint cut (esc : bool) (sep : N) (p : place) (s : str) : list str :=
  match s with
  | [] => [[]]
  | c :: t => match p with
              | Plain => if c =? sep then [] :: cut esc sep Plain t else add_char c (cut esc sep (step esc p c) t)
              | _ => add_char c (cut esc sep (step esc p c) t)
              end
  end.
(** Section 5.6.1: the elements of a list; empty ones do not count. *)
Definition elements (esc : bool) (s : str) : list str :=
  filter (fun e => match e with [] => false | _ => true end) (map strip (cut esc 44 Plain s)).
(** Section 5.6.6: an item and its parameters. *)
Definition parts (s : str) : list str := map strip (cut true 59 Plain s).
(** Section 5.6.4. *)
Fixpoint unescape (s : str) : str :=
  match s with
  | [] => []
  | c :: t => if c =? 34 then [] else if c =? 92 then match t with d :: u => d :: unescape u | [] => [] end else c :: unescape t
  end.
Definition unquote (s : str) : str := match s with c :: t => if c =? 34 then unescape t else s | [] => [] end.
(** [name=value], or a name alone. *)
Definition binding (s : str) : str * option str := match split_once 61 s with Some (n, v) => (n, Some (unquote v)) | None => (s, None) end.
(** Section 12.4.2: a quality value, in thousandths. *)
Definition decimals (s : str) : option N :=
  if forallb is_digit s then
    match s with
    | [] => Some 0 | [a] => Some (100 * (a - 48)) | [a; b] => Some (100 * (a - 48) + 10 * (b - 48))
    | [a; b; c] => Some (100 * (a - 48) + 10 * (b - 48) + (c - 48)) | _ => None
    end
  else None.
Definition quality (s : str) : option N :=
  match s with
  | [48] => Some 0 | [49] => Some 1000
  | 48 :: 46 :: r => decimals r
  | 49 :: 46 :: r => if forallb (N.eqb 48) r then match decimals r with Some _ => Some 1000 | None => None end else None
  | _ => None
  end.
(** Section 12.5: an item with a weight: the item, its other parameters, the weight (1 if there is none). *)
Definition is_weight (p : str * option str) : bool := seqb (to_lower (fst p)) (lit "q").
Definition ranked (s : str) : str * list (str * option str) * option N :=
  let ps := map binding (tl (parts s)) in
  (hd [] (parts s), filter (fun p => negb (is_weight p)) ps,
   match filter is_weight ps with [] => Some 1000 | (_, Some v) :: _ => quality v | (_, None) :: _ => None end).
(** An item and its parameters where no weight is known (sections 8.3.1, and the Server-Timing specification). *)
Definition item (s : str) : str * list (str * option str) := (hd [] (parts s), map binding (tl (parts s))).
(** Section 11.6.1: a single challenge, the scheme and its parameters. *)
Definition challenge (s : str) : option (str * list (str * option str)) :=
  match split_once 32 s with Some (n, r) => Some (n, map binding (elements true r)) | None => None end.
(** RFC 7239: the elements of a Forwarded header, each a list of pairs. *)
Definition hops (s : str) : list (list (str * option str)) :=
  map (fun e => map binding (filter (fun p => match p with [] => false | _ => true end) (parts e))) (elements true s).
