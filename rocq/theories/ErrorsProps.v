(** C87: error objects. *)
From Verif Require Import Base BaseFacts StatusCode EnumProps Message Errors.
From Coq Require Import ZifyBool ZifyNat ZifyN.

Section Errors.
  Context {V : Type} (display debug : N -> V -> str) (STRING : N) (string : str -> V) (name_of : N -> str) (ANYHOW : str).
  Context (string_display : forall s, display STRING (string s) = s).
  Notation err := (@err V).

  (** A status number is taken exactly when it is one of the 60 supported ones; anything else panics. *)
  Theorem C87_status_numbers : forall n (s : @source V) t (m : V) (e : err),
    (forall c, code_u16 c = n ->
       (exists e', err_new name_of ANYHOW n s = Some e' /\ err_status e' = c) /\
       (exists e', err_from_str n t m = Some e' /\ err_status e' = c) /\
       (exists e', err_set_status e n = Some e' /\ err_status e' = c) /\
       (exists e', format_err_status n t m = Some e' /\ err_status e' = c)) /\
    (~ In n supported_codes ->
       err_new name_of ANYHOW n s = None /\ err_from_str n t m = None /\ err_set_status e n = None /\ format_err_status n t m = None).
  Proof.
    intros n s t m e. unfold err_new, err_from_str, format_err_status, err_set_status, expect_status. split.
    - intros c <-. rewrite C09_code_number_code. repeat split; eexists; split; reflexivity.
    - intros H. rewrite C09_unsupported_is_error by exact H. auto.
  Qed.

  (** The status last given, if any. *)
  Fixpoint last_status (cs : list (@change V)) (d : N) : N :=
    match cs with
    | [] => d
    | SetStatus n :: cs' => last_status cs' n
    | AssignStatus c :: cs' => last_status cs' (code_u16 c)
    | _ :: cs' => last_status cs' d
    end.
  (** The edits made to a value of type [t]. *)
  Fixpoint edits (t : N) (cs : list (@change V)) (v : V) : V :=
    match cs with [] => v | EditAs t' f :: cs' => edits t cs' (if t' =? t then f v else v) | _ :: cs' => edits t cs' v end.
  (** Whatever is done to an error, unless a step panics or takes the cause out: the cause keeps its type, its value
      changes only by edits under the right type, the status is the last one given and the type name never changes. *)
  Theorem C87_history : forall (cs : list (@change V)) (e e' : err), do_changes e cs = Some e' ->
    err_into_inner e' = Cause (ty (err_into_inner e)) (edits (ty (err_into_inner e)) cs (payload (err_into_inner e))) /\
    code_u16 (err_status e') = last_status cs (code_u16 (err_status e)) /\
    err_type_name e' = err_type_name e.
  Proof.
    induction cs as [|c cs IH]; intros e e' H.
    - injection H as <-. destruct e as [[t v] s n]. auto.
    - cbn [do_changes] in H. destruct (do_change e c) as [e1|] eqn:D; [|discriminate H]. cbn [obind] in H. apply IH in H.
      destruct e as [[t v] s n]. destruct c as [k|k|t' f|t']; cbn [do_change] in D.
      + unfold err_set_status, expect_status in D. destruct (code_try_from k) as [k'| |] eqn:K; try discriminate D. injection D as <-.
        apply C09_number_code_number in K. cbn [last_status edits]. unfold err_into_inner, err_status, err_type_name in *. cbn [e_cause e_status e_name ty payload] in *. now subst k.
      + injection D as <-. exact H.
      + injection D as <-. unfold err_downcast_mut, any_downcast_ref in H. cbn [e_cause ty payload e_status e_name] in H. cbn [last_status edits].
        unfold err_into_inner, err_status, err_type_name in *. cbn [e_cause ty payload e_status e_name] in *. destruct (N.eqb_spec t' t) as [->|N].
        * exact H.
        * exact H.
      + unfold err_downcast, any_downcast_ref in D. cbn [e_cause ty] in D. destruct (t' =? t); [discriminate D|]. injection D as <-. exact H.
  Qed.
  (** Nothing but an unsupported status number or a successful downcast ends such a history. *)
  Theorem C87_history_total : forall (cs : list (@change V)) (e : err),
    Forall (fun c => match c with SetStatus n => In n supported_codes | TryAs t => t <> ty (err_into_inner e) | _ => True end) cs ->
    exists e', do_changes e cs = Some e'.
  Proof.
    induction cs as [|c cs IH]; intros e F; [now exists e|]. inv F. cbn [do_changes].
    assert (X : exists e1, do_change e c = Some e1 /\ ty (err_into_inner e1) = ty (err_into_inner e)).
    { destruct e as [[t v] s n]. unfold err_into_inner in *. cbn [e_cause ty] in *. destruct c as [k|k|t' f|t']; cbn [do_change].
      - unfold err_set_status, expect_status. destruct (code_try_from k) as [k'| |] eqn:K; [eexists; split; reflexivity| |];
          exfalso; unfold supported_codes in H1; cbn [In] in H1; repeat (destruct H1 as [<-|H1]; [vm_compute in K; discriminate K|]); destruct H1.
      - eexists; split; reflexivity.
      - eexists; split; [reflexivity|]. unfold err_downcast_mut, any_downcast_ref. cbn [e_cause ty payload]. destruct (N.eqb_spec t' t); [now subst t'|reflexivity].
      - unfold err_downcast, any_downcast_ref. cbn [e_cause ty]. destruct (N.eqb_spec t' t); [contradiction|]. eexists; split; reflexivity. }
    destruct X as (e1 & -> & T). cbn [obind]. apply IH. now rewrite T.
  Qed.

  (** Downcasting never panics; it gives the cause exactly when the type is right, and otherwise the whole error back,
      status and type name included.  The borrowed form agrees. *)
  Theorem C87_downcast : forall t (e : err),
    (t = ty (err_into_inner e) -> err_downcast t e = Some (inl (payload (err_into_inner e))) /\ err_downcast_ref t e = Some (payload (err_into_inner e)) /\
       forall f, fst (err_downcast_mut t f e) = true /\ err_downcast_ref t (snd (err_downcast_mut t f e)) = Some (f (payload (err_into_inner e)))) /\
    (t <> ty (err_into_inner e) -> err_downcast t e = Some (inr e) /\ err_downcast_ref t e = None /\ forall f, err_downcast_mut t f e = (false, e)).
  Proof.
    intros t [[t' v] s n]. unfold err_downcast, err_downcast_ref, err_downcast_mut, any_downcast_ref, err_into_inner. cbn [e_cause ty payload]. split.
    - intros ->. rewrite N.eqb_refl. cbn [fst snd e_cause ty payload]. rewrite N.eqb_refl. auto.
    - intros N. apply N.eqb_neq in N. rewrite N. auto.
  Qed.
  (** The five ways to make an error out of a value: the cause, the status, the name. *)
  Theorem C87_made : forall t (v : V),
    let made (e : err) k s n := err_into_inner e = k /\ code_u16 (err_status e) = s /\ err_type_name e = n in
    made (err_from name_of ANYHOW (Typed t v)) (Cause t v) 500 (Some (name_of t)) /\
    made (err_new_adhoc t v) (Cause t v) 500 None /\
    (forall n e, err_new name_of ANYHOW n (Typed t v) = Some e -> made e (Cause t v) n (Some (name_of t))) /\
    (forall n e, err_from_str n t v = Some e -> made e (Cause t v) n None) /\
    (forall c n e, err_new name_of ANYHOW n (Any c) = Some e -> made e c n (Some ANYHOW)).
  Proof.
    intros t v made. unfold made, err_new, err_from_str, expect_status.
    split; [repeat split|]. split; [repeat split|].
    split; [|split]; [intros n e H|intros n e H|intros c n e H]; (destruct (code_try_from n) as [k| |] eqn:K; try discriminate H);
      apply C09_number_code_number in K; injection H as <-; cbn; auto.
  Qed.
  (** Errors made from printed values print the same text, at status 500. *)
  Theorem C87_printed : forall t v,
    err_display (Printing display debug) (err_from_display (Printing display debug) STRING string name_of ANYHOW t v) = display t v /\
    err_display (Printing display debug) (err_from_debug (Printing display debug) STRING string name_of ANYHOW t v) = debug t v /\
    err_display (Printing display debug) (err_new_adhoc t v) = display t v /\
    err_display (Printing display debug) (err_from name_of ANYHOW (Typed t v)) = display t v /\
    (forall n e, err_from_str n t v = Some e -> err_display (Printing display debug) e = display t v) /\
    err_status (err_from_display (Printing display debug) STRING string name_of ANYHOW t v) = S_InternalServerError.
  Proof.
    intros t v. unfold err_display, err_from_display, err_from_debug, err_from, err_new_adhoc, err_from_str. cbn [e_cause into_anyhow ty payload by_display by_debug].
    rewrite !string_display. split; [reflexivity|]. split; [reflexivity|]. split; [reflexivity|]. split; [reflexivity|]. split; [|reflexivity].
    intros n x H. destruct (expect_status n); [|discriminate H]. injection H as <-. reflexivity.
  Qed.
  (** On the stable channel no error has a backtrace, however it was made and whatever was done to it. *)
  Theorem C87_no_backtrace : forall n s t (m : V) cs e e',
    err_new name_of ANYHOW n s = Some e \/ err_from_str n t m = Some e \/ e = err_from name_of ANYHOW s \/ e = err_new_adhoc t m ->
    do_changes e cs = Some e' -> err_backtrace e = None /\ err_backtrace e' = None.
  Proof. intros n s t m cs e e' _ _. split; reflexivity. Qed.
  (** The macros: a condition that holds is passed, otherwise an error of status 500 or the status named. *)
  Theorem C87_macros : forall cond n t (m : V),
    (ensure cond t m = None <-> cond = true) /\
    (forall e, ensure cond t m = Some e -> code_u16 (err_status e) = 500 /\ err_into_inner e = Cause t m /\ err_type_name e = None) /\
    (forall e, ensure_status cond n t m = Some (Some e) -> code_u16 (err_status e) = n /\ err_into_inner e = Cause t m /\ err_type_name e = None) /\
    (ensure_status cond n t m = Some None <-> cond = false /\ ~ (exists c, code_u16 c = n)).
  Proof.
    intros cond n t m. unfold ensure, ensure_status, format_err_status, err_set_status, expect_status. destruct cond.
    - split; [tauto|]. split; [discriminate|]. split; [discriminate|]. split; [discriminate|]. intros [H _]; discriminate H.
    - split; [split; discriminate|]. split; [intros e H; injection H as <-; auto|]. split.
      + intros e H. destruct (code_try_from n) as [k| |] eqn:K; try discriminate H. apply C09_number_code_number in K. injection H as <-. auto.
      + destruct (code_try_from n) as [k| |] eqn:K.
        * split; [discriminate|]. intros [_ X]. elim X. exists k. now apply C09_number_code_number.
        * split; [intros _|reflexivity]. split; [reflexivity|]. intros (c & <-). rewrite C09_code_number_code in K. discriminate K.
        * split; [intros _|reflexivity]. split; [reflexivity|]. intros (c & <-). rewrite C09_code_number_code in K. discriminate K.
  Qed.
End Errors.
Print Assumptions C87_status_numbers.
Print Assumptions C87_history.
Print Assumptions C87_history_total.
Print Assumptions C87_downcast.
Print Assumptions C87_made.
Print Assumptions C87_printed.
Print Assumptions C87_macros.

(** "The type name is the name of the type the error can be downcast to" is false: of an error made from printed text it
    is that of [anyhow::Error], the cause being a [String]. *)
Theorem C87_type_name_refuted : forall (V : Type) (display debug : N -> V -> str) STRING (string : str -> V) (name_of : N -> str) ANYHOW t v,
  name_of STRING <> ANYHOW -> exists e : err (V := V), e = err_from_display (Printing display debug) STRING string name_of ANYHOW t v /\
  err_downcast_ref STRING e = Some (string (display t v)) /\ err_type_name e = Some ANYHOW /\ err_type_name e <> Some (name_of STRING).
Proof.
  intros V display debug STRING string name_of ANYHOW t v N. eexists. split; [reflexivity|].
  unfold err_downcast_ref, any_downcast_ref, err_from_display, err_from. cbn [e_cause into_anyhow ty payload err_type_name e_name source_name].
  rewrite N.eqb_refl. split; [reflexivity|]. split; [reflexivity|]. congruence.
Qed.
Print Assumptions C87_no_backtrace.
Print Assumptions C87_type_name_refuted.

(** Values: a number of some type, or text. *)
Example C87_example :
  let display t (v : N + str) := match v with inl n => show_dec n | inr s => s end in
  let debug (t : N) (v : N + str) := lit "?" in
  let e := err_from (fun t => show_dec t) (lit "anyhow") (Typed 7 (inl 42)) in
  (let* e' := unwrap (do_changes e [TryAs 8; SetStatus 404; EditAs 8 (fun _ => inl 0); EditAs 7 (fun _ => inl 43); AssignStatus S_Gone]) in
   Ok (err_display (Printing display debug) e', code_u16 (err_status e'), err_type_name e', err_downcast 7 e')) =
    Ok (lit "43", 410, Some (lit "7"), Some (inl (inl 43))) /\
  do_changes e [SetStatus 600] = None /\ do_changes e [TryAs 7; SetStatus 404] = None.
Proof. vm_compute. auto. Qed.
