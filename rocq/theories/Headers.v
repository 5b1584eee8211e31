(** Model of src/headers: header_name.rs, header_value.rs, header_values.rs, headers.rs, values.rs,
    to_header_values.rs.

    A [HeaderName] and a [HeaderValue] are modelled by their text; the wrappers carry nothing else. *)
From Verif Require Import Base.

(** ** std [HashMap]: an association list whose keys stay distinct (proved in HeadersFacts.v).
    Order is irrelevant: theorems about iteration quantify over permutations. *)
Section HashMap.
  Context {V : Type}.
  (** The field of src/headers/headers.rs:31-33. *)
  Definition hmap : Type := list (str * V).
  (** [HashMap::get] (std). *)
  Fixpoint hm_get (m : hmap) (k : str) : option V :=
    match m with
    | [] => None
    | (k', v) :: m' => if seqb k k' then Some v else hm_get m' k
    end.
  (** [HashMap::insert] (std). *)
  Fixpoint hm_insert (m : hmap) (k : str) (v : V) : hmap :=
    match m with
    | [] => [(k, v)]
    | (k', v') :: m' => if seqb k k' then (k', v) :: m' else (k', v') :: hm_insert m' k v
    end.
  (** [HashMap::remove] (std). *)
  Fixpoint hm_remove (m : hmap) (k : str) : hmap :=
    match m with
    | [] => []
    | (k', v') :: m' => if seqb k k' then m' else (k', v') :: hm_remove m' k
    end.
End HashMap.
Arguments hmap V : clear implicits.

(** ** src/headers/header_name.rs *)

(** src/headers/header_name.rs:19-26 [from_bytes] (and [from_string], 33-35, on the UTF-8 bytes of the
    text, which are ASCII exactly when the text is). *)
Definition name_from_bytes (b : list N) : outcome str :=
  if is_ascii b then Ok (to_lower b) else Err 500.
(** src/headers/header_name.rs:75-85 [FromStr] *)
Definition name_from_str (s : str) : outcome str :=
  if is_ascii s then Ok (to_lower s) else Err 500.
(** src/headers/header_name.rs:99-103 [From<&str>]: panics on non-ASCII text. *)
Definition name_into (s : str) : outcome str :=
  match name_from_str s with Ok n => Ok n | _ => Panic end.
(** src/headers/header_name.rs:105-139 [PartialEq<str>] and its siblings. *)
Definition name_eq (n : str) (other : str) : bool :=
  match name_from_str other with Ok o => seqb n o | _ => false end.

(** ** src/headers/header_value.rs:23-29 [from_bytes], 78-87 [FromStr] *)
Definition value_from_bytes (b : list N) : outcome str := if is_ascii b then Ok b else Err 500.
(** src/headers/header_value.rs:23-29, 76-88. *)
Definition value_from_str (s : str) : outcome str := if is_ascii s then Ok s else Err 500.

(** ** src/headers/header_values.rs *)
Definition header_values := list str.
(** src/headers/header_values.rs:18-20 [append] empties the argument ([Vec::append]): returns (self, other). *)
Definition values_append (self other : header_values) : header_values * header_values :=
  (self ++ other, []).
(** src/headers/header_values.rs:23-25 *)
Definition values_get (vs : header_values) (i : nat) : option str := nth_error vs i.
(** src/headers/header_values.rs:28-30, writing [v] through the returned reference. *)
Fixpoint values_set (vs : header_values) (i : nat) (v : str) : header_values :=
  match vs, i with
  | [], _ => []
  | _ :: vs', O => v :: vs'
  | x :: vs', S i' => x :: values_set vs' i' v
  end.
(** src/headers/header_values.rs:34-36 *)
Definition values_contains (vs : header_values) (v : str) : bool := existsb (seqb v) vs.
(** src/headers/header_values.rs:39-43 [last]: panics when empty. *)
Definition values_last (vs : header_values) : outcome str :=
  match rev vs with v :: _ => Ok v | [] => Panic end.
(** src/headers/header_values.rs:150-156 [Deref], :138-142 [AsRef]: [self.inner[0]]. *)
Definition values_first (vs : header_values) : outcome str :=
  match vs with v :: _ => Ok v | [] => Panic end.
(** src/headers/header_values.rs:102-106 and siblings [PartialEq<str>] *)
Definition values_eq_str (vs : header_values) (s : str) : bool :=
  match vs with [v] => seqb v s | _ => false end.
(** src/headers/header_value.rs:134-142 [From<HeaderValues> for HeaderValue]: reverse, pop. *)
Definition value_from_values (vs : header_values) : outcome str :=
  match rev (rev vs) with v :: _ => Ok v | [] => Panic end.

(** ** src/headers/to_header_values.rs: the argument kinds of [insert]/[append].
    [TvText]: &str, String, &String, Cow (50-83).  [TvValues]: already converted values, that is
    HeaderValue, &[HeaderValue], &HeaderValues or a typed header (18-48). *)
Inductive to_values : Type :=
| TvText (s : str)
| TvValues (vs : header_values).
(** src/headers/to_header_values.rs:18-83. *)
Definition to_header_values (t : to_values) : outcome header_values :=
  match t with
  | TvText s => let* v := value_from_str s in Ok [v]
  | TvValues vs => Ok vs
  end.

(** ** src/headers/headers.rs *)
Definition headers := hmap header_values.
(** src/headers/headers.rs:37-41. *)
Definition headers_new : headers := [].

(** src/headers/headers.rs:48-56 [insert], the name already converted. *)
Definition h_insert (h : headers) (n : str) (t : to_values) : headers * outcome (option header_values) :=
  match to_header_values t with
  | Ok vs => (hm_insert h n vs, Ok (hm_get h n))
  | Err e => (h, Err e)
  | Panic => (h, Panic)
  end.
(** src/headers/headers.rs:62-78 [append] *)
Definition h_append (h : headers) (n : str) (t : to_values) : headers * outcome unit :=
  match hm_get h n with
  | Some cur =>
      match to_header_values t with
      | Ok vs => (hm_insert h n (fst (values_append cur vs)), Ok tt)
      | Err e => (h, Err e)
      | Panic => (h, Panic)
      end
  | None => let '(h', r) := h_insert h n t in
            (h', let* _ := r in Ok tt)
  end.
(** src/headers/headers.rs:81-83 [get], :91-93 [remove] *)
Definition h_get (h : headers) (n : str) : option header_values := hm_get h n.
(** src/headers/headers.rs:91-93. *)
Definition h_remove (h : headers) (n : str) : headers * option header_values :=
  (hm_remove h n, hm_get h n).
(** src/headers/headers.rs:86-88 [get_mut], followed by the edit [f] on the borrowed values. *)
Definition h_edit (h : headers) (n : str) (f : header_values -> header_values) : headers :=
  match hm_get h n with Some vs => hm_insert h n (f vs) | None => h end.
(** src/headers/headers.rs:132-134, :145-149 [Index]: panics when the name is not ASCII or absent. *)
Definition h_index (h : headers) (s : str) : outcome header_values :=
  let* n := (match name_from_str s with Ok n => Ok n | _ => Panic end) in unwrap (hm_get h n).

(** One call through the public API with the name given as text ([impl Into<HeaderName>]). *)
Inductive op : Type :=
| OpInsert (n : str) (t : to_values)
| OpAppend (n : str) (t : to_values)
| OpRemove (n : str)
| OpGet (n : str)
| OpEdit (n : str) (f : header_values -> header_values).

(** One call on a map; the lines are those of the functions called. *)
Definition step (h : headers) (o : op) : headers * outcome (option header_values) :=
  match o with
  | OpInsert s t => match name_into s with
                    | Ok n => h_insert h n t
                    | Err e => (h, Err e) | Panic => (h, Panic) end
  | OpAppend s t => match name_into s with
                    | Ok n => let '(h', r) := h_append h n t in (h', let* _ := r in Ok None)
                    | Err e => (h, Err e) | Panic => (h, Panic) end
  | OpRemove s => match name_into s with
                  | Ok n => let '(h', r) := h_remove h n in (h', Ok r)
                  | Err e => (h, Err e) | Panic => (h, Panic) end
  | OpGet s => match name_into s with
               | Ok n => (h, Ok (h_get h n))
               | Err e => (h, Err e) | Panic => (h, Panic) end
  | OpEdit s f => match name_into s with
                  | Ok n => (h_edit h n f, Ok (h_get h n))
                  | Err e => (h, Err e) | Panic => (h, Panic) end
  end.

(** A history of calls. *)
Fixpoint run (h : headers) (ops : list op) : headers * list (outcome (option header_values)) :=
  match ops with
  | [] => (h, [])
  | o :: ops' => let '(h', r) := step h o in
                 let '(h'', rs) := run h' ops' in (h'', r :: rs)
  end.

(** ** src/headers/values.rs *)
Record values_iter : Type := mkIter {
  it_inner : option (list header_values);  (* the remaining hash-map values, in hash order *)
  it_slot : option header_values;
  it_cursor : nat
}.
(** src/headers/values.rs:14-32 *)
Definition iter_new (inner : list header_values) : values_iter := mkIter (Some inner) None 0.
(** src/headers/values.rs:24-31. *)
Definition iter_new_values (vs : header_values) : values_iter := mkIter None (Some vs) 0.

(** src/headers/values.rs:37-63 [next], for a slot that is unset: the loop takes the next hash-map entry and retries while
    the entry is empty. *)
Fixpoint next_entry (inner : list header_values) : option str * values_iter :=
  match inner with
  | [] => (None, mkIter (Some []) None 0)
  | vs :: rest => match nth_error vs 0 with
                  | Some item => (Some item, mkIter (Some rest) (Some vs) 1)
                  | None => next_entry rest
                  end
  end.
(** src/headers/values.rs:37-63: the slot is unset. *)
Definition advance (inner : option (list header_values)) (cursor : nat) : option str * values_iter :=
  match inner with
  | None => (None, mkIter None None cursor)
  | Some l => next_entry l
  end.
(** The cursor left behind by an exhausted iterator is never read again; [next_entry] leaves 0. *)
Definition next (it : values_iter) : option str * values_iter :=
  match it_slot it with
  | None => advance (it_inner it) (it_cursor it)
  | Some vs => match nth_error vs (it_cursor it) with
               | Some item => (Some item, mkIter (it_inner it) (it_slot it) (S (it_cursor it)))
               | None => advance (it_inner it) (it_cursor it)
               end
  end.
(** src/headers/values.rs:66-71 *)
Definition size_hint (it : values_iter) : N * option N :=
  match it_inner it with
  | Some l => (N.of_nat (length l), Some (N.of_nat (length l)))
  | None => (0, None)
  end.
(** A [for] loop over the iterator, [fuel] calls to [next] at most; [None] if it has not ended. *)
Fixpoint collect (fuel : nat) (it : values_iter) : option (list str) :=
  match fuel with
  | O => None
  | S f => match next it with
           | (None, _) => Some []
           | (Some x, it') => match collect f it' with Some l => Some (x :: l) | None => None end
           end
  end.
(** src/headers/headers.rs:118-120 [values], when hashing yields the entries in order [order]. *)
Definition headers_values (order : headers) : values_iter := iter_new (map snd order).
(** src/headers/headers.rs:111-115 [names] *)
Definition headers_names (order : headers) : list str := map fst order.

(** src/headers/constants.rs: every header-name constant (built with the unchecked
    [from_lowercase_str], src/headers/header_name.rs:58-60). *)
Definition header_constants : list str :=
  map (fun s => lit s)
  ["content-encoding";
   "content-language";
   "content-length";
   "content-location";
   "content-md5";
   "content-range";
   "content-type";
   "cookie";
   "set-cookie";
   "transfer-encoding";
   "date";
   "host";
   "origin";
   "access-control-max-age";
   "access-control-allow-origin";
   "access-control-allow-headers";
   "access-control-allow-methods";
   "access-control-expose-headers";
   "access-control-request-method";
   "access-control-request-headers";
   "access-control-allow-credentials";
   "accept";
   "accept-charset";
   "accept-encoding";
   "accept-language";
   "accept-ranges";
   "age";
   "allow";
   "authorization";
   "cache-control";
   "clear-site-data";
   "connection";
   "etag";
   "expect";
   "expires";
   "forwarded";
   "from";
   "if-match";
   "if-modified-since";
   "if-none-match";
   "if-range";
   "if-unmodified-since";
   "last-modified";
   "location";
   "max-forwards";
   "pragma";
   "proxy-authenticate";
   "proxy-authorization";
   "proxy-connection";
   "referer";
   "retry-after";
   "server";
   "server-timing";
   "sourcemap";
   "strict-transport-security";
   "te";
   "timing-allow-origin";
   "traceparent";
   "trailer";
   "upgrade";
   "user-agent";
   "vary";
   "via";
   "warning";
   "www-authenticate"]%string.
