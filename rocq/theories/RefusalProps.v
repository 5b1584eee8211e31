(** C128: a client that is refused and told what is allowed.  RFC 9110, sections 15.5.6 and 10.2.1: a 405 answer carries Allow with the methods
    supported.  The request passes gateways that let some methods through and a server that serves some; a gateway that hands on a refusal
    takes out of Allow what it would not let through itself.  The client goes on with what it was told. *)
From Verif Require Import Base BaseFacts Headers Method Typed Other OtherProps.
From Coq Require Import Lia Permutation.

Definition has (l : list method) (m : method) : bool := existsb (method_eqb m) l.
Lemma has_In : forall l m, has l m = true <-> In m l.
Proof.
  intros l m. unfold has. rewrite existsb_exists. split.
  - intros (x & I & E). apply method_eqb_iff in E. now subst.
  - intros I. exists m. split; [exact I|]. now apply method_eqb_iff.
Qed.
Lemma has_not : forall l m, has l m = false <-> ~ In m l.
Proof. intros l m. rewrite <- has_In. destruct (has l m); split; congruence. Qed.

Inductive ending : Type := Served (m : method) | NoneLeft | Unread | Running.

Section Order.
  (** The order in which a hash set is iterated. *)
  Context (order : list method -> list method).
  (** What comes back through the hops, the server last: nothing if the request was served, else the headers of the refusal. *)
  Fixpoint hop_answer (hops : list (list method)) (m : method) : outcome (option headers) :=
    match hops with
    | [] => Ok None
    | g :: hops' =>
      if has g m then
        let* r := hop_answer hops' m in
        match r with
        | None => Ok None
        | Some h => let* o := allow_from_headers h in
                    Ok (Some (match o with Some s => allow_apply h (order (filter (has g) s)) | None => h end))
        end
      else Ok (Some (allow_apply [] (order g)))
    end.
  (** The client: [wanted] in order of preference; the requests made and how it ended. *)
  Fixpoint visit (n : nat) (hops : list (list method)) (wanted : list method) : list method * ending :=
    match n, wanted with
    | _, [] => ([], NoneLeft)
    | O, _ => ([], Running)
    | S n', m :: _ =>
      match hop_answer hops m with
      | Ok None => ([m], Served m)
      | Ok (Some h) => match allow_from_headers h with
                       | Ok (Some s) => let '(t, e) := visit n' hops (filter (has s) wanted) in (m :: t, e)
                       | _ => ([m], Unread)
                       end
      | _ => ([m], Unread)
      end
    end.

  Definition everywhere (hops : list (list method)) (m : method) : bool := forallb (fun g => has g m) hops.
  Lemma everywhere_In : forall hops m, everywhere hops m = true <-> forall g, In g hops -> In m g.
  Proof. intros hops m. unfold everywhere. rewrite forallb_forall. split; intros H g I; apply has_In, H, I. Qed.

  Context (same : forall l, Permutation l (order l)).
  Lemma in_order : forall l m, In m (order l) <-> In m l.
  Proof. intros l m. split; apply Permutation_in; [apply Permutation_sym|]; apply same. Qed.

  Lemma answer_cases : forall x m hops, (forall g, In g hops -> In x g) ->
    (hop_answer hops m = Ok None /\ everywhere hops m = true) \/
    exists before g after h s, hops = before ++ g :: after /\ everywhere before m = true /\ has g m = false /\
      hop_answer hops m = Ok (Some h) /\ allow_from_headers h = Ok (Some s) /\ forall y, In y s <-> forall k, In k (before ++ [g]) -> In y k.
  Proof.
    intros x m. induction hops as [|g hops IH]; intros X; [left; split; reflexivity|]. cbn [hop_answer].
    destruct (has g m) eqn:G.
    - destruct IH as [[A E]|(b & k & a & h & s & -> & B & K & A & R & I)]; [intros k J; apply X; now right| |].
      + left. rewrite A. cbn [bind everywhere forallb]. rewrite G. split; [reflexivity|exact E].
      + right. rewrite A. cbn [bind]. rewrite R. cbn [bind].
        assert (N : order (filter (has g) s) <> []).
        { assert (J : In x (order (filter (has g) s))).
          { apply in_order, filter_In. split.
            - apply I. intros j J. apply X. right. apply in_app_iff in J as [J|[<-|[]]]; apply in_app_iff; [now left|right; now left].
            - apply has_In, X. now left. }
          intros E. rewrite E in J. destruct J. }
        destruct (C59_round_trip_partial h _ N) as (s' & R' & _ & I').
        exists (g :: b), k, a, (allow_apply h (order (filter (has g) s))), s'. split; [reflexivity|]. split; [cbn [everywhere forallb]; rewrite G; exact B|].
        split; [exact K|]. split; [reflexivity|]. split; [exact R'|]. intros y. rewrite I', in_order, filter_In, has_In, I. cbn [app]. split.
        * intros [Y1 Y2] j [<-|J]; [exact Y2|now apply Y1].
        * intros Y. split; [intros j J; apply Y; now right|apply Y; now left].
    - right. assert (N : order g <> []).
      { assert (J : In x (order g)) by (apply in_order, X; now left). intros E. rewrite E in J. destruct J. }
      destruct (C59_round_trip_partial [] _ N) as (s & R & _ & I). exists [], g, hops, (allow_apply [] (order g)), s.
      split; [reflexivity|]. split; [reflexivity|]. split; [exact G|]. split; [reflexivity|]. split; [exact R|].
      intros y. rewrite I, in_order. cbn [app]. split; [intros Y k [<-|[]]; exact Y|intros Y; apply Y; now left].
  Qed.

  Lemma find_filter : forall (p q : method -> bool) l, (forall y, p y = true -> q y = true) -> find p (filter q l) = find p l.
  Proof.
    intros p q l H. induction l as [|y l IH]; [reflexivity|]. cbn [filter find]. destruct (q y) eqn:Q; cbn [find]; rewrite IH; [reflexivity|].
    destruct (p y) eqn:P; [|reflexivity]. now rewrite (H y P) in Q.
  Qed.
  Lemma find_first : forall (p : method -> bool) m l, p m = true -> find p (m :: l) = Some m.
  Proof. intros p m l P. cbn [find]. now rewrite P. Qed.

  Lemma visit_run : forall x hops, (forall g, In g hops -> In x g) -> forall n before after wanted, hops = before ++ after ->
    (forall y, In y wanted -> forall g, In g before -> In y g) -> (length after < n)%nat ->
    exists tried, visit n hops wanted = (tried, match find (everywhere hops) wanted with Some m => Served m | None => NoneLeft end) /\
      (length tried <= S (length after))%nat /\ NoDup tried /\ forall y, In y tried -> In y wanted.
  Proof.
    intros x hops X. induction n as [|n IH]; intros before after wanted E W L; [lia|].
    destruct wanted as [|m ms]; [exists []; repeat split; [cbn; lia|constructor|intros y []]|]. cbn [visit].
    destruct (answer_cases x m hops X) as [[A V]|(b & g & a & h & s & E2 & B & K & A & R & I)]; rewrite A.
    - exists [m]. rewrite (find_first _ _ _ V). split; [reflexivity|]. split; [cbn; lia|]. split; [constructor; [intros []|constructor]|].
      intros y [<-|[]]. now left.
    - rewrite R.
      assert (NS : ~ In m s).
      { intros J. rewrite I in J. apply has_not in K. apply K, J. apply in_app_iff. right. now left. }
      assert (LA : (length a < length after)%nat).
      { destruct (Nat.lt_ge_cases (length a) (length after)) as [Q|Q]; [exact Q|exfalso]. apply has_not in K. apply K.
        apply (W m (or_introl eq_refl)). rewrite E in E2. revert E2 Q. clear. revert b. induction before as [|k before IH]; intros b E2 Q.
        - cbn [app] in E2. apply (f_equal (@length _)) in E2. rewrite app_length in E2. cbn [length] in E2. lia.
        - destruct b as [|k' b]; cbn [app] in E2; inv E2; [now left|]. right. now apply (IH b). }
      destruct (IH (b ++ [g]) a (filter (has s) (m :: ms))) as (t & V & LT & ND & TI).
      { rewrite E2, <- app_assoc. reflexivity. }
      { intros y J k J2. apply filter_In in J as [_ J]. apply has_In in J. rewrite I in J. now apply J. }
      { lia. }
      rewrite V. rewrite find_filter.
      + exists (m :: t). split; [reflexivity|]. split; [cbn [length]; lia|]. split.
        * constructor; [|exact ND]. intros J. apply TI, filter_In in J as [_ J]. apply has_In in J. contradiction.
        * intros y [<-|J]; [now left|]. apply TI, filter_In in J. apply J.
      + intros y Y. apply has_In. rewrite I. intros k J. rewrite everywhere_In in Y. apply Y. rewrite E2.
        apply in_app_iff in J as [J|[<-|[]]]; apply in_app_iff; [now left|right; now left].
  Qed.

  (** If some method passes everywhere, the client ends with the first of its wishes that does, or knows that there is none; it never makes the same
      request twice, and at most one more than there are hops. *)
  Theorem C128_served : forall hops x wanted n, (forall g, In g hops -> In x g) -> (length hops < n)%nat ->
    exists tried, visit n hops wanted = (tried, match find (everywhere hops) wanted with Some m => Served m | None => NoneLeft end) /\
      (length tried <= S (length hops))%nat /\ NoDup tried /\ forall y, In y tried -> In y wanted.
  Proof. intros hops x wanted n X L. apply (visit_run x hops X n [] hops wanted eq_refl); [intros y _ g []|exact L]. Qed.

  (** With no gateway between: the client knows after the first refusal, and the second request is served. *)
  Theorem C128_direct : forall serves x wanted n, In x serves -> (1 < n)%nat ->
    exists tried, visit n [serves] wanted = (tried, match find (has serves) wanted with Some m => Served m | None => NoneLeft end) /\ (length tried <= 2)%nat.
  Proof.
    intros serves x wanted n X L. destruct (C128_served [serves] x wanted n) as (t & V & T & _); [intros g [<-|[]]; exact X|exact L|].
    exists t. split; [|exact T]. rewrite V. f_equal. assert (F : forall l, find (everywhere [serves]) l = find (has serves) l).
    { induction l as [|y l IH]; [reflexivity|]. cbn [find everywhere forallb]. rewrite andb_true_r, IH. reflexivity. }
    now rewrite F.
  Qed.
End Order.
Print Assumptions C128_served.
Print Assumptions C128_direct.

(** The bound is reached: two gateways and a server, four requests. *)
Definition path : list (list method) := [[M_Get; M_Put; M_Post; M_Head]; [M_Get; M_Post; M_Head]; [M_Get; M_Patch]].
Theorem C128_bound_reached : exists wanted, visit (@rev method) 4 path wanted = ([M_Delete; M_Put; M_Post; M_Get], Served M_Get).
Proof. exists [M_Delete; M_Put; M_Post; M_Get]. vm_compute. reflexivity. Qed.
Print Assumptions C128_bound_reached.
(** False without a method that passes everywhere: a server that serves nothing (RFC 9110, section 10.2.1, lets it say so by an empty Allow), or hops
    that have nothing in common, send an Allow that this crate cannot read, and the client is not told that nothing is left. *)
Theorem C128_nothing_refuted : exists wanted, visit (@rev method) 9 [[]] wanted = ([M_Get], Unread) /\
  visit (@rev method) 9 [[M_Get]; [M_Put]] wanted = ([M_Get], Unread).
Proof. exists [M_Get]. vm_compute. auto. Qed.
Print Assumptions C128_nothing_refuted.
Example C128_example : (forall l : list method, Permutation l (rev l)) /\ (forall g, In g path -> In M_Get g) /\
  visit (@rev method) 4 path [M_Put; M_Head; M_Get] = ([M_Put; M_Head; M_Get], Served M_Get) /\
  visit (@rev method) 4 path [M_Put; M_Head] = ([M_Put; M_Head], NoneLeft).
Proof. split; [apply Permutation_rev|]. split; [intros g [<-|[<-|[<-|[]]]]; cbn; auto|]. vm_compute. auto. Qed.
