(** Header collections as a caller walks through them: src/headers/iter.rs, iter_mut.rs, into_iter.rs, names.rs, the rest of
    header_values.rs and header.rs, and the map part of src/trailers.rs.

    A hash map visits its entries in an order of its own: [order] below is any permutation of the entries.  std's hash-map
    iterators know how many entries are left. *)
From Verif Require Import Base Headers.

(** [hash_map::Iter], [IterMut], [IntoIter], [Keys] (std): the entries to come. *)
Definition cursor := list (str * header_values).

(** [Headers::iter], [into_iter] by value and by reference: src/headers/headers.rs:96-100, 158-162, 170-172; [Trailers::iter]: src/trailers.rs:139-141. *)
Definition h_iter (order : headers) : cursor := order.
(** [next] of [Iter] and [IntoIter].  src/headers/iter.rs:15-17, src/headers/into_iter.rs:15-17. *)
Definition e_next (c : cursor) : option (str * header_values) * cursor :=
  match c with [] => (None, []) | e :: c' => (Some e, c') end.
(** src/headers/iter.rs:20-22, src/headers/into_iter.rs:20-22, src/headers/iter_mut.rs:20-22. *)
Definition e_size_hint (c : cursor) : N * option N := (N.of_nat (length c), Some (N.of_nat (length c))).

(** [Headers::names]: src/headers/headers.rs:111-115; [Trailers::names]: src/trailers.rs:150-152. *)
Definition h_names (order : headers) : cursor := order.
(** src/headers/names.rs:15-17. *)
Definition n_next (c : cursor) : option str * cursor :=
  match c with [] => (None, []) | (n, _) :: c' => (Some n, c') end.
(** [Names] has no [size_hint] of its own: that of the [Iterator] trait.  src/headers/names.rs:12-18. *)
Definition n_size_hint (c : cursor) : N * option N := (0, None).

(** The first [k] answers of an iterator. *)
Fixpoint answers {A} (next : cursor -> option A * cursor) (k : nat) (c : cursor) : list (option A) * cursor :=
  match k with
  | O => ([], c)
  | S k' => let (x, c') := next c in let (xs, c'') := answers next k' c' in (x :: xs, c'')
  end.

(** [IterMut]: the entries already lent, as they are now, and those to come. *)
Definition cursor_mut := (cursor * cursor)%type.
(** [Headers::iter_mut], [into_iter] of a mutable reference: src/headers/headers.rs:104-108, 180-182; [Trailers::iter_mut]: src/trailers.rs:145-147. *)
Definition h_iter_mut (order : headers) : cursor_mut := ([], order).
(** [next] of [IterMut], the caller then changing the lent values by [f], which sees the name.  src/headers/iter_mut.rs:15-17. *)
Definition m_next (f : str -> header_values -> header_values) (c : cursor_mut) : cursor_mut :=
  match snd c with [] => c | (n, vs) :: r => (fst c ++ [(n, f n vs)], r) end.
(** A loop over [iter_mut]: one change per turn, stopping when the changes or the entries run out; the map afterwards. *)
Definition h_update (order : headers) (fs : list (str -> header_values -> header_values)) : headers :=
  let c := fold_left (fun c f => m_next f c) fs (h_iter_mut order) in fst c ++ snd c.

(** A new map filled with entries, in their order: [for (n, v) in &headers { new.insert(n, v) }]. *)
Definition copy_entries (entries : headers) : headers :=
  fold_left (fun h e => fst (h_insert h (fst e) (TvValues (snd e)))) entries headers_new.
(** The same with [append], onto a map that may hold something. *)
Definition append_entries (h : headers) (entries : headers) : headers :=
  fold_left (fun h e => fst (h_append h (fst e) (TvValues (snd e)))) entries h.

(** ** src/headers/header_values.rs *)
(** [FromIterator]: src/headers/header_values.rs:69-79; [From<Vec<HeaderValue>>]: 175-177; [into_iter]: 185-187. *)
Definition values_from_iter (l : list str) : header_values := fold_left (fun out v => out ++ [v]) l [].
(** [From<HeaderValue>]: src/headers/header_values.rs:133-135. *)
Definition values_from_value (v : str) : header_values := [v].
(** [Index<usize>] and [Index<Range<usize>>]: src/headers/header_values.rs:63-65, [slice] indexing of std. *)
Definition values_index (vs : header_values) (i : nat) : outcome str := unwrap (nth_error vs i).
(** src/headers/header_values.rs:63-65 with a range. *)
Definition values_slice (vs : header_values) (a b : nat) : outcome (list str) :=
  if ((a <=? b) && (b <=? length vs))%nat then Ok (firstn (b - a) (skipn a vs)) else Panic.
(** [AsMut], [DerefMut]: src/headers/header_values.rs:145-147, 159-161, writing [v] through the reference. *)
Definition values_set_first (vs : header_values) (v : str) : outcome header_values :=
  match vs with [] => Panic | _ :: r => Ok (v :: r) end.
(** [PartialEq<[&str]>]: src/headers/header_values.rs:115-117. *)
Fixpoint values_eq_list (vs : header_values) (l : list str) : bool :=
  match vs, l with
  | [], [] => true
  | v :: vs', s :: l' => seqb v s && values_eq_list vs' l'
  | _, _ => false
  end.

(** ** [Debug] of [str] (std), for ASCII; what it prints for other characters is a parameter. *)
Section Debug.
  Context (escape_other : N -> str).
  (** A hexadecimal digit in lower case.  std's [char::escape_unicode]. *)
  Definition hex_digit (n : N) : N := if n <? 10 then 48 + n else 87 + n.
  (** [char::escape_debug] inside a string: a single quote is not escaped. *)
  Definition escape_char (c : N) : str :=
    if c =? 0 then lit "\0"
    else if c =? 9 then lit "\t"
    else if c =? 10 then lit "\n"
    else if c =? 13 then lit "\r"
    else if c =? 34 then lit "\"""
    else if c =? 92 then lit "\\"
    else if (c <? 32) || (c =? 127) then lit "\u{" ++ (if c <? 16 then [hex_digit c] else [hex_digit (c / 16); hex_digit (c mod 16)]) ++ lit "}"
    else if c <? 128 then [c]
    else escape_other c.
  (** [Debug] of [HeaderValue] and [HeaderName]: src/headers/header_value.rs:99-101, src/headers/header_name.rs:64-66. *)
  Definition value_debug (v : str) : str := 34 :: flat_map escape_char v ++ [34].
  (** [Display] of [HeaderValues]: src/headers/header_values.rs:93-99 ([debug_list], without the alternate flag). *)
  Definition values_display (vs : header_values) : str := 91 :: join (lit ", ") (map value_debug vs) ++ [93].
  (** [Debug] of [HeaderValues]: src/headers/header_values.rs:83-89. *)
  Definition values_debug (vs : header_values) : str :=
    match vs with [v] => value_debug v | _ => values_display vs end.
  (** [Debug] of [Headers]: src/headers/headers.rs:186-188 ([debug_map]). *)
  Definition headers_debug (order : headers) : str :=
    123 :: join (lit ", ") (map (fun e => value_debug (fst e) ++ lit ": " ++ values_debug (snd e)) order) ++ [125].
End Debug.

(** ** src/headers/header.rs: a pair of texts is a header. *)
(** src/headers/header.rs:26-28; [From<T: Header> for HeaderName]: src/headers/header_name.rs:94-96. *)
Definition pair_name (p : str * str) : outcome str := name_into (fst p).
(** src/headers/header.rs:30-33. *)
Definition pair_value (p : str * str) : outcome str := match value_from_bytes (snd p) with Ok v => Ok v | _ => Panic end.
(** [apply_header]: src/headers/header.rs:15-22. *)
Definition pair_apply (h : headers) (p : str * str) : headers * outcome unit :=
  match pair_name p with
  | Ok n => match pair_value p with
            | Ok v => match h_insert h n (TvValues [v]) with (h', Ok _) => (h', Ok tt) | (h', _) => (h', Panic) end
            | _ => (h, Panic)
            end
  | _ => (h, Panic)
  end.
(** [headers.insert(p, q)] with pairs on both sides: the name of one, the value of the other.  src/headers/headers.rs:48-56,
    src/headers/to_header_values.rs:21-23. *)
Definition pair_insert (h : headers) (p q : str * str) : headers * outcome (option header_values) :=
  match pair_name p with
  | Ok n => match pair_value q with Ok v => h_insert h n (TvValues [v]) | _ => (h, Panic) end
  | _ => (h, Panic)
  end.

(** ** The map part of src/trailers.rs *)
(** src/trailers.rs:64-66. *)
Record trailers : Type := mkTrailers { t_headers : headers }.
(** src/trailers.rs:70-74. *)
Definition t_new : trailers := mkTrailers headers_new.
(** src/trailers.rs:161-167. *)
Definition t_clone (t : trailers) : trailers := mkTrailers (t_headers t).
(** One call: [insert] (src/trailers.rs:90-96), [append] (115-121), [get] (124-126), [get_mut] (129-131), [remove] (134-136). *)
Definition t_step (t : trailers) (o : op) : trailers * outcome (option header_values) :=
  match o with
  | OpInsert s v => match name_into s with
                    | Ok n => let '(h, r) := h_insert (t_headers t) n v in (mkTrailers h, r)
                    | Err e => (t, Err e) | Panic => (t, Panic) end
  | OpAppend s v => match name_into s with
                    | Ok n => let '(h, r) := h_append (t_headers t) n v in (mkTrailers h, let* _ := r in Ok None)
                    | Err e => (t, Err e) | Panic => (t, Panic) end
  | OpRemove s => match name_into s with
                  | Ok n => let '(h, r) := h_remove (t_headers t) n in (mkTrailers h, Ok r)
                  | Err e => (t, Err e) | Panic => (t, Panic) end
  | OpGet s => match name_into s with
               | Ok n => (t, Ok (h_get (t_headers t) n))
               | Err e => (t, Err e) | Panic => (t, Panic) end
  | OpEdit s f => match name_into s with
                  | Ok n => (mkTrailers (h_edit (t_headers t) n f), Ok (h_get (t_headers t) n))
                  | Err e => (t, Err e) | Panic => (t, Panic) end
  end.
(** [Index]: src/trailers.rs:193-195, 207-209. *)
Definition t_index (t : trailers) (s : str) : outcome header_values := h_index (t_headers t) s.
(** A history of calls on a store of trailers: calls on one of them, and cloning one. *)
Inductive t_op : Type := TOn (i : nat) (o : op) | TClone (i : nat).
(** Replacing an element; not crate code. *)
Fixpoint replace_at {A} (l : list A) (i : nat) (x : A) : list A :=
  match l, i with
  | [], _ => []
  | _ :: l', O => x :: l'
  | y :: l', S i' => y :: replace_at l' i' x
  end.
(** One call on the store; the lines are those at [t_step] and [t_clone]. *)
Definition t_do (ts : list trailers) (o : t_op) : list trailers :=
  match o with
  | TOn i o => match nth_error ts i with Some t => replace_at ts i (fst (t_step t o)) | None => ts end
  | TClone i => match nth_error ts i with Some t => ts ++ [t_clone t] | None => ts end
  end.
