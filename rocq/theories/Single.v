(** Comparing header values with texts, and converting single names and values to and from the http crate:
    headers/{header_value,header_values}.rs, mime/mod.rs, hyperium_http.rs. *)
From Verif Require Import Base Headers Hyperium.

(** src/headers/header_value.rs:110-132: the four [PartialEq]s with texts; also [ParamValue]'s, src/mime/mod.rs:262-272. *)
Definition value_is (v s : str) : bool := seqb v s.
(** src/headers/header_values.rs:102-112, 120-130: the four [PartialEq]s with one text; [self.inner[0]] is behind the length test. *)
Definition values_are (vs : header_values) (s : str) : outcome bool :=
  if Nat.eqb (length vs) 1 then let* v := unwrap (nth_error vs 0) in Ok (value_is v s) else Ok false.
(** [Iterator::eq] (std). *)
Fixpoint iter_eq (a b : list str) : bool :=
  match a, b with [], [] => true | x :: a', y :: b' => value_is x y && iter_eq a' b' | _, _ => false end.
(** src/headers/header_values.rs:114-118 [PartialEq<[&str]>]. *)
Definition values_list_are (vs : header_values) (l : list str) : bool := iter_eq vs l.
(** src/headers/header_values.rs:143-164: [as_mut], [deref_mut], then an assignment of the value: [&mut self.inner[0]] panics when there is none. *)
Definition values_set_first (vs : header_values) (v : str) : outcome header_values :=
  match vs with [] => Panic | _ :: vs' => Ok (v :: vs') end.
(** src/hyperium_http.rs:57-64 *)
Definition single_name_from_http (n : str) : outcome str := name_from_bytes n.
(** src/hyperium_http.rs:66-73; [new_adhoc] has status 500. *)
Definition single_name_to_http (name_ok : str -> bool) (n : str) : outcome str := http_name name_ok n.
(** src/hyperium_http.rs:75-82 *)
Definition single_value_from_http (v : list N) : outcome str := value_from_bytes v.
(** src/hyperium_http.rs:84-91 *)
Definition single_value_to_http (v : str) : outcome str := http_value v.
