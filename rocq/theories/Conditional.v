(** src/conditional: ETag, If-Match, If-None-Match, Vary. *)
From Verif Require Import Base Headers Typed.

(** ** conditional/etag.rs *)

(** src/conditional/etag.rs:34-39 *)
Inductive etag : Type := Strong (s : str) | Weak (s : str).

(** src/conditional/etag.rs:43-46 [new], [new_weak]: the [debug_assert!] about backslashes is compiled out of release builds; with
    debug assertions on it panics. *)
Definition etag_new (debug : bool) (weak : bool) (s : str) : outcome etag :=
  if debug && existsb (N.eqb 92) s then Panic else Ok (if weak then Weak s else Strong s).

(** src/conditional/etag.rs:70-77 *)
Definition is_strong (e : etag) : bool := match e with Strong _ => true | Weak _ => false end.
(** src/conditional/etag.rs:75-77. *)
Definition is_weak (e : etag) : bool := match e with Weak _ => true | Strong _ => false end.

(** src/conditional/etag.rs:101-103, the byte test.  The bytes of a character at or above U+0080 are all at least 0x80, so testing the
    characters is the same as testing the bytes. *)
Definition etag_char (c : N) : bool := (c =? 33) || ((35 <=? c) && (c <=? 126)) || (128 <=? c).

(** src/conditional/etag.rs:80-112 [from_str] *)
Definition etag_from_str (s : str) : outcome etag :=
  let (weak, s) := match strip_prefix (lit "W/") s with Some r => (true, r) | None => (false, s) end in
  match (match strip_prefix [34] s with Some r => strip_suffix [34] r | None => None end) with
  | None => Err 400
  | Some t => if forallb etag_char t then Ok (if weak then Weak t else Strong t) else Err 400
  end.

(** src/conditional/etag.rs:126-133 [Display] and :115-123 [header_value] (unchecked). *)
Definition etag_show (e : etag) : str :=
  match e with Strong s => [34] ++ s ++ [34] | Weak s => lit "W/" ++ [34] ++ s ++ [34] end.

(** src/conditional/etag.rs:116-118. *)
Definition ETAG : str := lit "etag".
(** src/conditional/etag.rs:58-67 *)
Definition etag_from_headers (h : headers) : outcome (option etag) := with_last h ETAG etag_from_str.
(** src/headers/header.rs:15-22 with src/conditional/etag.rs:115-124. *)
Definition etag_apply (h : headers) (e : etag) : headers := apply_value h ETAG (etag_show e).

(** ** conditional/if_match.rs, conditional/if_none_match.rs: the same code under two names. *)
(** src/conditional/if_match.rs:39-42, src/conditional/if_none_match.rs:45-48: the same fields under two names. *)
Inductive cond : Type := IfMatch | IfNoneMatch.
(** src/conditional/if_match.rs:107-109, src/conditional/if_none_match.rs:113-115. *)
Definition cond_name (k : cond) : str :=
  match k with IfMatch => lit "if-match" | IfNoneMatch => lit "if-none-match" end.

(** src/conditional/if_match.rs:54-74, src/conditional/if_none_match.rs:60-80 *)
Definition cond_from_headers (k : cond) (h : headers) : outcome (option (list etag * bool)) :=
  with_all h (cond_name k) (fun vs => read_parts (lit "*") etag_from_str (comma_parts vs)).
(** src/conditional/if_match.rs:110-128, src/conditional/if_none_match.rs:116-134 *)
Definition cond_value (c : list etag * bool) : str := list_value (lit "*") (map etag_show (fst c)) (snd c).
(** src/headers/header.rs:15-22 with src/conditional/if_match.rs:106-129, src/conditional/if_none_match.rs:112-135. *)
Definition cond_apply (k : cond) (h : headers) (c : list etag * bool) : headers :=
  apply_value h (cond_name k) (cond_value c).

(** ** conditional/vary.rs *)
(** src/conditional/vary.rs:109-111. *)
Definition VARY : str := lit "vary".

(** A [Vary]: header names (as stored, see Headers.v) and the wildcard flag.  src/conditional/vary.rs:39-42. *)
Definition vary := (list str * bool)%type.
(** src/conditional/vary.rs:88-91 [push]: the conversion panics on non-ASCII text. *)
Definition vary_push (v : vary) (name : str) : outcome vary :=
  let* n := name_into name in Ok (fst v ++ [n], snd v).
(** src/conditional/vary.rs:54-75 *)
Definition vary_from_headers (h : headers) : outcome (option vary) :=
  with_all h VARY (fun vs => read_parts (lit "*") (fun p => name_from_str (trim p)) (comma_parts vs)).
(** src/conditional/vary.rs:113-135: a name goes through [HeaderValue::from_str] and [expect]. *)
Fixpoint vary_texts (names : list str) : outcome (list str) :=
  match names with
  | [] => Ok []
  | n :: ns => let* v := (match value_from_str n with Ok v => Ok v | _ => Panic end) in
               let* vs := vary_texts ns in Ok (v :: vs)
  end.
(** src/conditional/vary.rs:113-135. *)
Definition vary_value (v : vary) : outcome str :=
  let* ts := vary_texts (fst v) in Ok (list_value (lit "*") ts (snd v)).
(** src/headers/header.rs:15-22 with src/conditional/vary.rs:108-136. *)
Definition vary_apply (h : headers) (v : vary) : outcome headers :=
  let* t := vary_value v in Ok (apply_value h VARY t).
