(** src/error.rs in full, src/macros.rs and the helper behind the macros in src/lib.rs:177-189. *)
From Verif Require Import Base StatusCode Message.

(** How values of all types print, by [Display] and by [Debug]: std and the types themselves. *)
Record printing (V : Type) : Type := Printing { by_display : N -> V -> str; by_debug : N -> V -> str }.
Arguments Printing {V}. Arguments by_display {V}. Arguments by_debug {V}.

Section Errors.
  (** Values of all types and how they print. *)
  Context {V : Type}.
  Context (print : printing V).
  (** The type [String], its values, and the name [std::any::type_name] gives a type; [anyhow::Error] has a name of its own. *)
  Context (STRING : N) (string : str -> V) (name_of : N -> str) (ANYHOW : str).

  (** [anyhow::Error]: a value of some type that can be downcast to that type and no other. *)
  Record cause : Type := Cause { ty : N; payload : V }.
  (** src/error.rs:16-20 *)
  Record err : Type := Error { e_cause : cause; e_status : status_code; e_name : option str }.

  (** What converts into [anyhow::Error]: a value of an error type, or an [anyhow::Error]. *)
  Inductive source : Type := Typed (t : N) (v : V) | Any (c : cause).
  (** [E: Into<anyhow::Error>], src/error.rs:43, 48. *)
  Definition into_anyhow (s : source) : cause := match s with Typed t v => Cause t v | Any c => c end.
  (** [std::any::type_name::<E>()], src/error.rs:49. *)
  Definition source_name (s : source) : str := match s with Typed t _ => name_of t | Any _ => ANYHOW end.

  (** src/error.rs:39-52; [None] is the panic of [expect]. *)
  Definition err_new (n : N) (s : source) : option err :=
    match expect_status n with Some c => Some (Error (into_anyhow s) c (Some (source_name s))) | None => None end.
  (** src/error.rs:55-68: the message is a value of any printable type. *)
  Definition err_from_str (n : N) (t : N) (m : V) : option err :=
    match expect_status n with Some c => Some (Error (Cause t m) c None) | None => None end.
  (** src/error.rs:70-75, src/lib.rs:183-188 *)
  Definition err_new_adhoc (t : N) (m : V) : err := Error (Cause t m) S_InternalServerError None.
  (** src/error.rs:78-80, 212-216 *)
  Definition err_status (e : err) : status_code := e_status e.
  (** src/error.rs:83-91 *)
  Definition err_set_status (e : err) (n : N) : option err :=
    match expect_status n with Some c => Some (Error (e_cause e) c (e_name e)) | None => None end.
  (** src/error.rs:218-222, after assigning. *)
  Definition err_assign_status (e : err) (c : status_code) : err := Error (e_cause e) c (e_name e).
  (** src/error.rs:122-124, on the stable channel. *)
  Definition err_backtrace (e : err) : option unit := None.
  (** src/error.rs:128-130, 206-210, 224-246 *)
  Definition err_into_inner (e : err) : cause := e_cause e.

  (** [anyhow::Error::downcast_ref] *)
  Definition any_downcast_ref (t : N) (c : cause) : option V := if t =? ty c then Some (payload c) else None.
  (** src/error.rs:145-150 *)
  Definition err_downcast_ref (t : N) (e : err) : option V := any_downcast_ref t (e_cause e).
  (** src/error.rs:133-142; [unwrap] of the second downcast panics ([None]) if it fails. *)
  Definition err_downcast (t : N) (e : err) : option (V + err) :=
    match any_downcast_ref t (e_cause e) with
    | Some _ => match any_downcast_ref t (e_cause e) with Some v => Some (inl v) | None => None end
    | None => Some (inr e)
    end.
  (** src/error.rs:153-158, the caller then changing the value with [f]; [false] when the type is another. *)
  Definition err_downcast_mut (t : N) (f : V -> V) (e : err) : bool * err :=
    match any_downcast_ref t (e_cause e) with
    | Some v => (true, Error (Cause t (f v)) (e_status e) (e_name e))
    | None => (false, e)
    end.
  (** src/error.rs:161-163 *)
  Definition err_type_name (e : err) : option str := e_name e.
  (** src/error.rs:200-204 *)
  Definition err_from (s : source) : err := Error (into_anyhow s) S_InternalServerError (Some (source_name s)).
  (** src/error.rs:172-174: [anyhow::Error::msg] of the text, converted with [From]. *)
  Definition err_from_display (t : N) (v : V) : err := err_from (Any (Cause STRING (string (by_display print t v)))).
  (** src/error.rs:183-185 *)
  Definition err_from_debug (t : N) (v : V) : err := err_from (Any (Cause STRING (string (by_debug print t v)))).
  (** src/error.rs:188-192 *)
  Definition err_display (e : err) : str := by_display print (ty (e_cause e)) (payload (e_cause e)).
  (** src/error.rs:194-198. *)
  Definition err_debug (e : err) : str := by_debug print (ty (e_cause e)) (payload (e_cause e)).

  (** src/macros.rs:73-86 [format_err!]: text, formatted or not, or any printable value. *)
  Definition format_err (t : N) (m : V) : err := err_new_adhoc t m.
  (** src/macros.rs:164-182 [format_err_status!] *)
  Definition format_err_status (n : N) (t : N) (m : V) : option err := err_set_status (err_new_adhoc t m) n.
  (** src/macros.rs:3-13 [bail!], 23-39 [ensure!], 49-65 [ensure_eq!] with the comparison as a bool: the function goes on
      ([None]) or returns the error. *)
  Definition ensure (cond : bool) (t : N) (m : V) : option err := if cond then None else Some (format_err t m).
  (** src/macros.rs:91-101 [bail_status!], 112-128 [ensure_status!], 139-155 [ensure_eq_status!]; the inner [None] is a panic. *)
  Definition ensure_status (cond : bool) (n : N) (t : N) (m : V) : option (option err) :=
    if cond then None else Some (format_err_status n t m).

  (** The calls that may change an error. *)
  Inductive change : Type :=
  | SetStatus (n : N) | AssignStatus (c : status_code) | EditAs (t : N) (f : V -> V) | TryAs (t : N).
  (** A failed [downcast] gives the error back; [None]: a panic, or the error is gone because it was downcast. *)
  Definition do_change (e : err) (c : change) : option err :=
    match c with
    | SetStatus n => err_set_status e n
    | AssignStatus s => Some (err_assign_status e s)
    | EditAs t f => Some (snd (err_downcast_mut t f e))
    | TryAs t => match err_downcast t e with Some (inr e') => Some e' | _ => None end
    end.
  Fixpoint do_changes (e : err) (cs : list change) : option err :=
    match cs with [] => Some e | c :: cs' => obind (do_change e c) (fun e' => do_changes e' cs') end.
End Errors.
