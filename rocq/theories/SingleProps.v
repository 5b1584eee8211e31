(** C95: comparing header values with texts; single names and values crossing to the http crate and back. *)
From Coq Require Import ZifyBool ZifyNat ZifyN Lia.
From Verif Require Import Base BaseFacts Headers HeadersFacts HeadersProps Hyperium HyperiumProps Single.
Open Scope N_scope.

(** ** Comparisons *)
(** The values of a header equal a text exactly when that text is the only value; comparing never panics. *)
Theorem C95_values_are : forall vs s, exists b, values_are vs s = Ok b /\ (b = true <-> vs = [s]).
Proof.
  intros [|v [|w vs]] s; unfold values_are; cbn [length Nat.eqb nth_error unwrap bind].
  - exists false. split; [reflexivity|]. split; discriminate.
  - exists (value_is v s). split; [reflexivity|]. unfold value_is. rewrite seqb_eq. split; congruence.
  - exists false. split; [reflexivity|]. split; discriminate.
Qed.
(** They equal a list of texts exactly when they are that list. *)
Theorem C95_values_list_are : forall vs l, values_list_are vs l = true <-> vs = l.
Proof.
  unfold values_list_are, value_is. induction vs as [|v vs IH]; intros [|x l]; cbn [iter_eq]; try (split; [discriminate|discriminate]); [split; reflexivity|].
  unfold value_is. rewrite andb_true_iff, seqb_eq, IH. split; [intros [-> ->]; reflexivity|intros H; inversion H; auto].
Qed.
(** So, after any history of calls on a header map, what a name holds compares equal to a text exactly when the last calls left that one value. *)
Theorem C95_lookup_is : forall ops n s vs, h_get (fst (run headers_new ops)) n = Some vs ->
  (values_are vs s = Ok true <-> h_get (fst (run headers_new ops)) n = Some [s]).
Proof.
  intros ops n s vs G. destruct (C95_values_are vs s) as (b & E & B). rewrite E, G. split.
  - intros H. injection H as ->. rewrite (proj1 B eq_refl). reflexivity.
  - intros H. injection H as H. apply B in H. now subst b.
Qed.
(** Writing through the header as if it were one value changes the first value and no other. *)
Theorem C95_set_first : forall vs v r, values_set_first vs v = r ->
  match r with
  | Ok vs' => length vs' = length vs /\ nth_error vs' 0 = Some v /\ forall i, nth_error vs' (S i) = nth_error vs (S i)
  | Err _ => False
  | Panic => vs = []
  end.
Proof. intros [|x vs] v r <-; cbn [values_set_first]; [reflexivity|]. split; [reflexivity|]. split; reflexivity. Qed.
Example C95_example : values_are [lit "a"] (lit "a") = Ok true /\ values_are [lit "a"; lit "a"] (lit "a") = Ok false /\ values_are [] [] = Ok false /\
  values_list_are [lit "a"; lit "b"] [lit "a"; lit "b"] = true /\ values_list_are [lit "b"; lit "a"] [lit "a"; lit "b"] = false /\
  values_set_first [lit "a"; lit "b"] (lit "c") = Ok [lit "c"; lit "b"].
Proof. vm_compute. repeat split. Qed.
Print Assumptions C95_values_are.
Print Assumptions C95_values_list_are.
Print Assumptions C95_lookup_is.
Print Assumptions C95_set_first.

(** ** Single names and values *)
Section Names.
  (** Which texts are names for the http crate: all we use is that they are ASCII. *)
  Context (name_ok : str -> bool) (name_ascii : forall n, name_ok n = true -> is_ascii n = true).
  (** A name made from any text crosses exactly when http takes its lower case, and then as the same text; it comes back as the same name. *)
  Theorem C95_name_to_http : forall t n, name_from_str t = Ok n ->
    (single_name_to_http name_ok n = Ok n /\ single_name_from_http n = Ok n /\ name_ok n = true) \/ (single_name_to_http name_ok n = Err 500 /\ name_ok n = false).
  Proof.
    intros t n H. unfold name_from_str in H. destruct (is_ascii t); [|discriminate]. injection H as <-. unfold single_name_to_http, single_name_from_http, name_from_bytes, http_name.
    rewrite to_lower_idem. destruct (name_ok (to_lower t)) eqn:K; [left|right; split; reflexivity]. rewrite (name_ascii _ K). split; [reflexivity|]. split; reflexivity.
  Qed.
  (** Every name of the http crate (lower case) crosses, and comes back as the same text. *)
  Theorem C95_name_from_http : forall n, name_ok n = true -> to_lower n = n -> single_name_from_http n = Ok n /\ single_name_to_http name_ok n = Ok n.
  Proof.
    intros n K L. unfold single_name_to_http, single_name_from_http, name_from_bytes, http_name. rewrite (name_ascii _ K), L, K. split; reflexivity.
  Qed.
End Names.
(** A value crosses to http exactly when it has no control character but tabs; out of http exactly when it is ASCII; what crosses is unchanged. *)
Theorem C95_value : forall v,
  ((forall c, In c v -> 32 <= c /\ c <> 127 \/ c = 9) <-> single_value_to_http v = Ok v) /\ (single_value_to_http v = Ok v \/ single_value_to_http v = Err 500) /\
  ((forall c, In c v -> c < 128) <-> single_value_from_http v = Ok v) /\ (single_value_from_http v = Ok v \/ single_value_from_http v = Err 500).
Proof.
  intros v. unfold single_value_to_http, http_value, single_value_from_http, value_from_bytes.
  assert (A : forallb value_char v = true <-> forall c, In c v -> 32 <= c /\ c <> 127 \/ c = 9).
  { rewrite forallb_forall. split; intros H c I; specialize (H c I); unfold value_char in *; lia. }
  assert (B : is_ascii v = true <-> forall c, In c v -> c < 128).
  { unfold is_ascii. rewrite forallb_forall. split; intros H c I; specialize (H c I); lia. }
  destruct (forallb value_char v), (is_ascii v); (split; [split; [intros H; first [reflexivity|apply A in H; discriminate H]|intros H; first [now apply A|discriminate H]]|]); (split; [auto|]);
    (split; [split; [intros H; first [reflexivity|apply B in H; discriminate H]|intros H; first [now apply B|discriminate H]]|auto]).
Qed.
(** Values that can be held here need not cross: a line break can be stored but not converted. *)
Example C95_value_example : value_from_str [97; 13; 10] = Ok [97; 13; 10] /\ single_value_to_http [97; 13; 10] = Err 500 /\
  single_value_to_http [97; 9; 32; 233] = Ok [97; 9; 32; 233] /\ single_value_from_http [97; 9; 32; 233] = Err 500 /\
  single_name_to_http (fun n => negb (seqb n [])) (lit "a b") = Ok (lit "a b").
Proof. vm_compute. repeat split. Qed.
Print Assumptions C95_name_to_http.
Print Assumptions C95_name_from_http.
Print Assumptions C95_value.
