(** Property C30: trailers and upgrades over their channels, for every schedule. *)
From Verif Require Import Base BaseFacts Message Channel.
From Coq Require Import ZifyBool ZifyNat ZifyN.

Section Props.
Variable T : Type.
Variable rf : bool.
Notation op := (Channel.op T).
Notation res := (Channel.res T).
Notation world := (Channel.world T).
Notation step := (@Channel.step T rf).
Notation run := (@Channel.run T rf).

Lemma assoc_without_same : forall A (l : list (nat * A)) k, assoc (without l k) k = None.
Proof.
  induction l as [|[k' a] l IH]; intros k; cbn [without]; [reflexivity|].
  destruct (Nat.eqb k' k) eqn:E; [apply IH|]. cbn [assoc]. rewrite E. apply IH.
Qed.
Lemma assoc_without_other : forall A (l : list (nat * A)) k j, j <> k -> assoc (without l k) j = assoc l j.
Proof.
  induction l as [|[k' a] l IH]; intros k j N; cbn [without assoc]; [reflexivity|].
  destruct (Nat.eqb_spec k' k) as [->|E].
  - rewrite IH by exact N. destruct (Nat.eqb_spec k j); [congruence|reflexivity].
  - cbn [assoc]. rewrite IH by exact N. reflexivity.
Qed.
Lemma in_without : forall A (l : list (nat * A)) k p, In p (without l k) -> In p l /\ fst p <> k.
Proof.
  induction l as [|[k' a] l IH]; intros k p H; cbn [without] in H; [contradiction|].
  destruct (Nat.eqb_spec k' k) as [->|E].
  - apply IH in H. cbn. tauto.
  - destruct H as [<-|H]; [cbn; auto|]. apply IH in H. cbn. tauto.
Qed.
Lemma assoc_in : forall A (l : list (nat * A)) k a, assoc l k = Some a -> In (k, a) l.
Proof.
  induction l as [|[k' a'] l IH]; intros k a H; cbn [assoc] in H; [discriminate|].
  destruct (Nat.eqb_spec k' k) as [->|E]; [inv H; left; reflexivity|right; auto].
Qed.

Lemma run_app : forall a b w, run w (a ++ b) =
  let '(w1, r1) := run w a in let '(w2, r2) := run w1 b in (w2, r1 ++ r2).
Proof.
  induction a as [|o a IH]; intros b w; cbn [app Channel.run].
  - destruct (run w b). reflexivity.
  - destruct (step w o) as [w1 r]. rewrite IH. destruct (run w1 a) as [w2 r2]. destruct (run w2 b). reflexivity.
Qed.

(** An invariant of a state and the history so far holds throughout a schedule. *)
Lemma run_invariant : forall (I : world -> list (op * res) -> Prop) (ok : op -> Prop),
  (forall w tr o w' r, I w tr -> ok o -> step w o = (w', r) -> I w' (tr ++ [(o, r)])) ->
  forall ops w tr w' tr', I w tr -> Forall ok ops -> run w ops = (w', tr') -> I w' (tr ++ tr').
Proof.
  intros I ok S. induction ops as [|o ops IH]; intros w tr w' tr' H F R; cbn [Channel.run] in R.
  - inv R. rewrite app_nil_r. exact H.
  - inv F. destruct (step w o) as [w1 r] eqn:E. destruct (run w1 ops) as [w2 rs] eqn:Q. inv R.
    replace (tr ++ (o, r) :: rs) with ((tr ++ [(o, r)]) ++ rs) by (rewrite <- app_assoc; reflexivity).
    eapply IH; eauto.
Qed.

(** ** At most once *)
Definition spent (m : nat) (w : world) : Prop :=
  (m < fresh w)%nat /\ forall x, assoc (msgs w) m = Some x -> e_send (m_ends x) = None.
Definition spent_recv (m : nat) (w : world) : Prop :=
  (m < fresh w)%nat /\ forall x, assoc (msgs w) m = Some x -> e_recv (m_ends x) = None.
Definition below (w : world) : Prop := forall p, In p (msgs w) -> (fst p < fresh w)%nat.

Ltac step_cases H :=
  repeat match type of H with
  | context [match assoc ?l ?k with _ => _ end] => let E := fresh "A" in destruct (assoc l k) as [?x|] eqn:E
  | context [match ?p with (_, _) => _ end] => destruct p
  | context [match e_send ?x with _ => _ end] => destruct (e_send x) eqn:?
  | context [match e_recv ?x with _ => _ end] => destruct (e_recv x) eqn:?
  | context [match ?o with Some _ => _ | None => _ end] => destruct o
  | context [if ?b then _ else _] => destruct b eqn:?
  end; inv H.

Lemma below_step : forall w o w' r, below w -> step w o = (w', r) -> below w'.
Proof.
  intros w o w' r B H. destruct o; cbn [Channel.step] in H; step_cases H; try exact B;
    unfold below, update in *; cbn [msgs fresh] in *; intros p P;
    repeat match goal with
    | H : In _ (_ :: _) |- _ => destruct H as [<-|H]; cbn [fst] in *
    | H : In _ (without _ _) |- _ => apply in_without in H as [H _]
    | H : assoc (msgs _) _ = Some _ |- _ => apply assoc_in in H
    end; try (apply B in P); try lia;
    repeat match goal with H : In _ _ |- _ => apply B in H; cbn [fst] in H end; lia.
Qed.

Lemma msgs_step : forall w o w' r m x', below w -> (m < fresh w)%nat -> step w o = (w', r) -> assoc (msgs w') m = Some x' ->
  exists x, assoc (msgs w) m = Some x /\
    (e_send (m_ends x') = e_send (m_ends x) \/ e_send (m_ends x') = None) /\
    (e_recv (m_ends x') = e_recv (m_ends x) \/ e_recv (m_ends x') = None).
Proof.
  intros w o w' r m x' B L H G.
  assert (K : forall m0 x0 x1, assoc (msgs w) m0 = Some x0 ->
      (e_send (m_ends x1) = e_send (m_ends x0) \/ e_send (m_ends x1) = None) ->
      (e_recv (m_ends x1) = e_recv (m_ends x0) \/ e_recv (m_ends x1) = None) ->
      assoc (update (msgs w) m0 x1) m = Some x' ->
      exists x, assoc (msgs w) m = Some x /\
        (e_send (m_ends x') = e_send (m_ends x) \/ e_send (m_ends x') = None) /\
        (e_recv (m_ends x') = e_recv (m_ends x) \/ e_recv (m_ends x') = None)).
  { intros m0 x0 x1 A S R U. unfold update in U. cbn [assoc] in U. destruct (Nat.eqb_spec m0 m) as [->|N].
    - inv U. eauto.
    - rewrite assoc_without_other in U by congruence. exists x'. auto. }
  destruct o; cbn [Channel.step] in H; step_cases H; cbn [msgs] in G; try (exists x'; auto; fail);
    try (match goal with A : assoc (msgs w) ?k = Some ?y, G : assoc (update (msgs w) ?k ?z) _ = _ |- _ =>
           apply (K k y z A); cbn; auto end).
  - cbn [assoc] in G. destruct (Nat.eqb_spec (S (fresh w)) m); [lia|]. exists x'. auto.
  - cbn [assoc] in G. destruct (Nat.eqb_spec (fresh w) m); [lia|]. exists x'. auto.
  - destruct (Nat.eq_dec m m0) as [->|N]; [rewrite assoc_without_same in G; discriminate|].
    rewrite assoc_without_other in G by exact N. exists x'. auto.
Qed.

Lemma fresh_step : forall w o w' r, step w o = (w', r) -> (fresh w <= fresh w')%nat.
Proof. intros w o w' r H. destruct o; cbn [Channel.step] in H; step_cases H; cbn [fresh]; lia. Qed.

Lemma spent_step : forall m w o w' r, below w -> spent m w -> step w o = (w', r) ->
  spent m w' /\ forall h, (o, r) <> (TakeSender m, Handle h).
Proof.
  intros m w o w' r B [L S] H. split.
  - split; [apply fresh_step in H; lia|]. intros x' G. destruct (msgs_step _ _ _ _ _ _ B L H G) as (x & A & [E|E] & _); [|exact E].
    rewrite E. auto.
  - intros h E. inv E. cbn [Channel.step] in H. destruct (assoc (msgs w) m) as [x|] eqn:A; [|inv H].
    rewrite (S x eq_refl) in H. inv H.
Qed.
Lemma spent_recv_step : forall m w o w' r, below w -> spent_recv m w -> step w o = (w', r) ->
  spent_recv m w' /\ forall h, (o, r) <> (TakeReceiver m, Handle h).
Proof.
  intros m w o w' r B [L S] H. split.
  - split; [apply fresh_step in H; lia|]. intros x' G. destruct (msgs_step _ _ _ _ _ _ B L H G) as (x & A & _ & [E|E]); [|exact E].
    rewrite E. auto.
  - intros h E. inv E. cbn [Channel.step] in H. destruct (assoc (msgs w) m) as [x|] eqn:A; [|inv H].
    rewrite (S x eq_refl) in H. inv H.
Qed.

Lemma take_spends : forall w m h w', below w -> step w (TakeSender m) = (w', Handle h) -> spent m w'.
Proof.
  intros w m h w' B H. assert (B' := below_step _ _ _ _ B H). cbn [Channel.step] in H.
  destruct (assoc (msgs w) m) as [x|] eqn:A; [|inv H]. destruct (e_send (m_ends x)); inv H.
  split; [apply assoc_in in A; apply B in A; cbn in *; lia|]. intros x' G. cbn [msgs] in G. unfold update in G. cbn [assoc] in G.
  rewrite Nat.eqb_refl in G. inv G. reflexivity.
Qed.
Lemma take_spends_recv : forall w m h w', below w -> step w (TakeReceiver m) = (w', Handle h) -> spent_recv m w'.
Proof.
  intros w m h w' B H. cbn [Channel.step] in H.
  destruct (assoc (msgs w) m) as [x|] eqn:A; [|inv H]. destruct (e_recv (m_ends x)); inv H.
  split; [apply assoc_in in A; apply B in A; cbn in *; lia|]. intros x' G. cbn [msgs] in G. unfold update in G. cbn [assoc] in G.
  rewrite Nat.eqb_refl in G. inv G. reflexivity.
Qed.

Lemma spent_run : forall m ops w w' tr, below w -> spent m w -> run w ops = (w', tr) ->
  forall h, ~ In (TakeSender m, Handle h) tr.
Proof.
  induction ops as [|o ops IH]; intros w w' tr B S R h I; cbn [Channel.run] in R; [inv R; exact I|].
  destruct (step w o) as [w1 r] eqn:E. destruct (run w1 ops) as [w2 rs] eqn:Q. inv R.
  destruct (spent_step _ _ _ _ _ B S E) as [S' N]. destruct I as [I|I]; [exact (N h I)|].
  exact (IH _ _ _ (below_step _ _ _ _ B E) S' Q h I).
Qed.
Lemma spent_recv_run : forall m ops w w' tr, below w -> spent_recv m w -> run w ops = (w', tr) ->
  forall h, ~ In (TakeReceiver m, Handle h) tr.
Proof.
  induction ops as [|o ops IH]; intros w w' tr B S R h I; cbn [Channel.run] in R; [inv R; exact I|].
  destruct (step w o) as [w1 r] eqn:E. destruct (run w1 ops) as [w2 rs] eqn:Q. inv R.
  destruct (spent_recv_step _ _ _ _ _ B S E) as [S' N]. destruct I as [I|I]; [exact (N h I)|].
  exact (IH _ _ _ (below_step _ _ _ _ B E) S' Q h I).
Qed.

(** Whatever happens, each message (also a clone) hands out its sender and its receiver at most once. *)
Theorem C30_taken_at_most_once : forall ops w tr1 tr2 m h,
  (run world0 ops = (w, tr1 ++ (TakeSender m, Handle h) :: tr2) -> forall h', ~ In (TakeSender m, Handle h') tr2) /\
  (run world0 ops = (w, tr1 ++ (TakeReceiver m, Handle h) :: tr2) -> forall h', ~ In (TakeReceiver m, Handle h') tr2).
Proof.
  assert (G : forall ops w0 w tr1 e tr2, below w0 -> run w0 ops = (w, tr1 ++ e :: tr2) ->
    exists w1 w2 ops2, below w1 /\ step w1 (fst e) = (w2, snd e) /\ run w2 ops2 = (w, tr2)).
  { induction ops as [|o ops IH]; intros w0 w tr1 e tr2 B R; cbn [Channel.run] in R.
    - destruct tr1; discriminate.
    - destruct (step w0 o) as [wa r] eqn:E. destruct (run wa ops) as [wb rs] eqn:Q. injection R as -> R.
      destruct tr1 as [|e' tr1]; cbn [app] in R.
      + injection R as <- ->. exists w0, wa, ops. auto.
      + injection R as _ ->. eapply IH; [eapply below_step; eassumption|exact Q]. }
  assert (B0 : below world0) by (intros p []).
  intros ops w tr1 tr2 m h. split; intros R h'.
  - destruct (G _ _ _ _ _ _ B0 R) as (w1 & w2 & ops2 & B1 & S & R2). cbn [fst snd] in S.
    eapply spent_run; [eapply below_step; eassumption|eapply take_spends; eassumption|exact R2].
  - destruct (G _ _ _ _ _ _ B0 R) as (w1 & w2 & ops2 & B1 & S & R2). cbn [fst snd] in S.
    eapply spent_recv_run; [eapply below_step; eassumption|eapply take_spends_recv; eassumption|exact R2].
Qed.

(** ** Nothing duplicated, nothing invented *)
Definition started (tr : list (op * res)) : list T :=
  flat_map (fun e => match e with (StartSend _ t, Handle _) => [t] | _ => [] end) tr.
Definition got (tr : list (op * res)) : list T :=
  flat_map (fun e => match e with (PollRecv _, Got t) => [t] | _ => [] end) tr.

Definition queued (w : world) : list T := flat_map (fun p => match snd p with Some t => [t] | None => [] end) (queues w).
Definition flying (w : world) : list T := map (fun p => snd (snd p)) (sends w).

Lemma without_perm : forall A (l : list (nat * A)) k, exists d, Permutation l (without l k ++ d).
Proof.
  induction l as [|[k' a] l IH]; intros k; cbn [without]; [exists []; constructor|].
  destruct (IH k) as [d P]. destruct (Nat.eqb k' k).
  - exists ((k', a) :: d). rewrite P at 1. apply Permutation_middle.
  - exists d. cbn. constructor. exact P.
Qed.
Lemma without_perm_some : forall A (l : list (nat * A)) k a, assoc l k = Some a ->
  exists d, Permutation l ((k, a) :: without l k ++ d).
Proof.
  induction l as [|[k' a'] l IH]; intros k a H; cbn [assoc] in H; [discriminate|]. cbn [without].
  destruct (Nat.eqb_spec k' k) as [->|N].
  - inv H. destruct (without_perm _ l k) as [d P]. exists d. constructor. exact P.
  - destruct (IH _ _ H) as [d P]. exists d. rewrite P at 1. cbn. apply perm_swap.
Qed.

Definition conserved (w : world) (tr : list (op * res)) : Prop :=
  exists lost, Permutation (started tr) (got tr ++ queued w ++ flying w ++ lost).

Lemma started_snoc : forall tr o r, started (tr ++ [(o, r)])
  = started tr ++ match o, r with StartSend _ t, Handle _ => [t] | _, _ => [] end.
Proof. intros. unfold started. rewrite flat_map_app. cbn [flat_map]. rewrite app_nil_r. reflexivity. Qed.
Lemma got_snoc : forall tr o r, got (tr ++ [(o, r)])
  = got tr ++ match o, r with PollRecv _, Got t => [t] | _, _ => [] end.
Proof. intros. unfold got. rewrite flat_map_app. cbn [flat_map]. rewrite app_nil_r. reflexivity. Qed.

Lemma flying_without : forall (l : list (nat * (nat * T))) f, exists d,
  Permutation (map (fun p => snd (snd p)) l) (map (fun p => snd (snd p)) (without l f) ++ d).
Proof.
  intros l f. destruct (without_perm _ l f) as [d P]. exists (map (fun p => snd (snd p)) d).
  rewrite <- map_app. apply Permutation_map, P.
Qed.

Lemma conserved_step : forall w tr o w' r, conserved w tr -> step w o = (w', r) -> conserved w' (tr ++ [(o, r)]).
Proof.
  intros w tr o w' r [lost P] H. unfold conserved. rewrite started_snoc, got_snoc.
  assert (K : forall w1, queued w1 = queued w -> sends w1 = sends w -> exists lost0,
      Permutation (started tr ++ []) ((got tr ++ []) ++ queued w1 ++ flying w1 ++ lost0)).
  { intros w1 Q F. exists lost. rewrite !app_nil_r, Q. unfold flying. rewrite F. exact P. }
  assert (D : forall w1 f, queued w1 = queued w -> sends w1 = without (sends w) f -> exists lost0,
      Permutation (started tr ++ []) ((got tr ++ []) ++ queued w1 ++ flying w1 ++ lost0)).
  { intros w1 f Q F. destruct (flying_without (sends w) f) as [d P2]. exists (d ++ lost). rewrite !app_nil_r, Q, P.
    unfold flying. rewrite F. do 2 apply Permutation_app_head. rewrite app_assoc. apply Permutation_app_tail. exact P2. }
  destruct o as [b|m|m|m|m|s t|f|f|s|rc|rc]; cbn [Channel.step] in H.
  - inv H. apply K; reflexivity.
  - step_cases H; apply K; reflexivity.
  - step_cases H; apply K; reflexivity.
  - step_cases H; apply K; reflexivity.
  - step_cases H; apply K; reflexivity.
  - destruct (assoc (senders w) s) as [c|]; inv H; [|apply K; reflexivity].
    exists lost. rewrite app_nil_r. unfold flying, queued in *. cbn [sends queues map snd].
    rewrite P. rewrite <- !app_assoc. do 2 apply Permutation_app_head. cbn.
    symmetry. rewrite app_assoc. apply Permutation_cons_append.
  - destruct (assoc (sends w) f) as [[c t]|] eqn:A; [|inv H; apply K; reflexivity].
    destruct (negb (receiver_alive w c)); [inv H; apply (D _ f); reflexivity|].
    destruct (assoc (queues w) c) as [[x|]|] eqn:Q; [inv H; apply K; reflexivity| |inv H; apply K; reflexivity].
    inv H. destruct (without_perm_some _ _ _ _ A) as [d1 P1].
    destruct (without_perm _ (queues w) c) as [d2 P2].
    set (q := fun p : nat * option T => match snd p with Some t => [t] | None => [] end) in *.
    exists (map (fun p => snd (snd p)) d1 ++ flat_map q d2 ++ lost). rewrite !app_nil_r, P.
    apply Permutation_app_head. unfold queued, flying. fold q. cbn [queues sends]. unfold update. cbn [flat_map]. change (q (c, Some t)) with [t].
    rewrite (Permutation_flat_map q P2) at 1. rewrite flat_map_app.
    rewrite (Permutation_map (fun p : nat * (nat * T) => snd (snd p)) P1) at 1. cbn [map snd]. rewrite map_app.
    set (Q0 := flat_map q (without (queues w) c)). set (D2 := flat_map q d2).
    set (S0 := map (fun p => snd (snd p)) (without (sends w) f)). set (D1 := map (fun p => snd (snd p)) d1).
    rewrite <- ?app_assoc. cbn [app]. rewrite <- ?app_assoc.
    transitivity (t :: Q0 ++ D2 ++ S0 ++ D1 ++ lost).
    { symmetry. rewrite (app_assoc Q0 D2). rewrite (app_assoc Q0 D2 (t :: _)). apply Permutation_middle. }
    constructor. apply Permutation_app_head. rewrite !app_assoc. apply Permutation_app_tail.
    rewrite <- (app_assoc D2). apply Permutation_app_comm.
  - destruct (assoc (sends w) f); inv H; [apply (D _ f); reflexivity|apply K; reflexivity].
  - step_cases H; apply K; reflexivity.
  - destruct (assoc (receivers w) rc) as [c|]; [|inv H; apply K; reflexivity].
    destruct (assoc (queues w) c) as [[t|]|] eqn:Q.
    + inv H. destruct (without_perm_some _ _ _ _ Q) as [d P1].
      set (q := fun p : nat * option T => match snd p with Some t => [t] | None => [] end) in *.
      exists (flat_map q d ++ lost). rewrite app_nil_r, P. rewrite <- app_assoc. apply Permutation_app_head.
      unfold queued, flying. fold q. cbn [queues sends]. unfold update. cbn [flat_map]. change (q (c, None)) with (@nil T). cbn [app].
      rewrite (Permutation_flat_map q P1) at 1. cbn [flat_map]. change (q (c, Some t)) with [t]. rewrite flat_map_app.
      rewrite <- !app_assoc. cbn [app]. constructor. apply Permutation_app_head.
      rewrite !app_assoc. apply Permutation_app_tail. apply Permutation_app_comm.
    + destruct (sender_alive w c); inv H; apply K; reflexivity.
    + destruct (sender_alive w c); inv H; apply K; reflexivity.
  - step_cases H; apply K; reflexivity.
Qed.

(** Over any schedule, with any number of messages and clones: the values received are among the values
    sent, each at most as often as it was sent. *)
Theorem C30_never_duplicated_or_invented : forall ops w tr, run world0 ops = (w, tr) ->
  exists undelivered, Permutation (started tr) (got tr ++ undelivered).
Proof.
  intros ops w tr R.
  assert (C : conserved w ([] ++ tr)).
  { eapply (run_invariant conserved (fun _ => True)); [intros; eapply conserved_step; eassumption| |apply Forall_forall; auto|exact R].
    exists []. constructor. }
  destruct C as [lost P]. eexists. exact P.
Qed.

(** ** The trailers of a message reach the receiver of that message, once *)
Definition private_op (w : world) (o : op) : Prop :=
  match o with CloneMsg m => forall x, assoc (msgs w) m = Some x -> m_request x = true | _ => True end.

Definition linked (w : world) (tr : list (op * res)) : Prop :=
  (forall m x c, In (m, x) (msgs w) -> e_send (m_ends x) = Some c \/ e_recv (m_ends x) = Some c -> m = S c) /\
  (forall s c, In (s, c) (senders w) -> In (TakeSender (S c), Handle s) tr) /\
  (forall r c, In (r, c) (receivers w) -> In (TakeReceiver (S c), Handle r) tr) /\
  (forall f c t, In (f, (c, t)) (sends w) -> exists s, In (TakeSender (S c), Handle s) tr /\ In (StartSend s t, Handle f) tr) /\
  (forall c t, In (c, Some t) (queues w) -> exists s f, In (TakeSender (S c), Handle s) tr /\ In (StartSend s t, Handle f) tr).

Ltac in_cases :=
  repeat match goal with
  | H : In _ (_ :: _) |- _ => destruct H as [H|H]
  | H : In _ (update _ _ _) |- _ => unfold update in H
  | H : In _ (without _ _) |- _ => apply in_without in H as [H _]
  end.

Lemma linked_step : forall w tr o w' r, linked w tr -> private_op w o -> step w o = (w', r) -> linked w' (tr ++ [(o, r)]).
Proof.
  intros w tr o w' r (L1 & L2 & L3 & L4 & L5) PO H.
  assert (M : forall e, In e tr -> In e (tr ++ [(o, r)])) by (intros; apply in_app_iff; auto).
  assert (N : In (o, r) (tr ++ [(o, r)])) by (apply in_app_iff; right; left; reflexivity).
  assert (L2' : forall s c, In (s, c) (senders w) -> In (TakeSender (S c), Handle s) (tr ++ [(o, r)])) by auto.
  assert (L3' : forall s c, In (s, c) (receivers w) -> In (TakeReceiver (S c), Handle s) (tr ++ [(o, r)])) by auto.
  assert (L4' : forall f c t, In (f, (c, t)) (sends w) -> exists s, In (TakeSender (S c), Handle s) (tr ++ [(o, r)])
             /\ In (StartSend s t, Handle f) (tr ++ [(o, r)])).
  { intros f c t I. destruct (L4 _ _ _ I) as (s & A & B). exists s. auto. }
  assert (L5' : forall c t, In (c, Some t) (queues w) -> exists s f, In (TakeSender (S c), Handle s) (tr ++ [(o, r)])
             /\ In (StartSend s t, Handle f) (tr ++ [(o, r)])).
  { intros c t I. destruct (L5 _ _ I) as (s & f & A & B). exists s, f. auto. }
  destruct o as [b|m|m|m|m|s t|f|f|s|rc|rc]; cbn [Channel.step] in H; step_cases H;
    unfold linked; cbn [msgs senders receivers sends queues];
    (split; [intros m' x' c' I V; in_cases; eauto|split; [intros s' c' I; in_cases; eauto|split; [intros r' c' I; in_cases; eauto|
       split; [intros f' c' t' I; in_cases; eauto|intros c' t' I; in_cases; eauto]]]]); try discriminate.
  - inv I. cbn in V. destruct V as [V|V]; inv V; reflexivity.
  - inv I. cbn [m_ends m_request] in V. rewrite (PO x A) in V. cbn in V. destruct V; discriminate.
  - inv I. cbn in V. destruct V as [V|V]; [discriminate|]. apply assoc_in in A. eauto.
  - inv I. apply assoc_in in A. rewrite <- (L1 _ _ _ A (or_introl Heqo)). exact N.
  - inv I. cbn in V. destruct V as [V|V]; [discriminate|]. apply assoc_in in A. eauto.
  - inv I. cbn in V. destruct V as [V|V]; [|discriminate]. apply assoc_in in A. eauto.
  - inv I. apply assoc_in in A. rewrite <- (L1 _ _ _ A (or_intror Heqo)). exact N.
  - inv I. cbn in V. destruct V as [V|V]; [|discriminate]. apply assoc_in in A. eauto.
  - inv I. apply assoc_in in A. exists s. split; [|exact N]. apply M, L2, A.
  - inv I. apply assoc_in in A. destruct (L4' _ _ _ A) as (s & P & Q). eauto.
Qed.

(** How many values are on their way through channel [c]. *)
Definition countp {A} (p : A -> bool) (l : list (nat * A)) : nat := length (filter (fun x => p (snd x)) l).
Definition tokens (c : nat) (w : world) : nat :=
  (countp (fun x => is_chan c (e_send (m_ends x))) (msgs w)
   + countp (fun k => Nat.eqb k c) (senders w)
   + countp (fun x => Nat.eqb (fst x) c) (sends w)
   + match assoc (queues w) c with Some (Some _) => 1 | _ => 0 end)%nat.

Lemma count_without_le : forall A (p : A -> bool) (l : list (nat * A)) k, (countp p (without l k) <= countp p l)%nat.
Proof.
  unfold countp. induction l as [|[k' a] l IH]; intros k; cbn [without]; [reflexivity|]. specialize (IH k). cbn [filter snd].
  destruct (Nat.eqb k' k); destruct (p a) eqn:E; cbn [filter length snd]; rewrite ?E; cbn [length]; lia.
Qed.
Lemma count_without_some : forall A (p : A -> bool) (l : list (nat * A)) k a, assoc l k = Some a ->
  (countp p (without l k) + (if p a then 1 else 0) <= countp p l)%nat.
Proof.
  unfold countp. induction l as [|[k' a'] l IH]; intros k a H; cbn [assoc] in H; [discriminate|]. cbn [without filter snd].
  destruct (Nat.eqb k' k) eqn:K.
  - inv H. assert (Q := count_without_le _ p l k). unfold countp in Q. destruct (p a); cbn [length]; lia.
  - specialize (IH _ _ H). cbn [filter snd]. destruct (p a'); cbn [length]; lia.
Qed.
Lemma countp_cons : forall A (p : A -> bool) (l : list (nat * A)) k a,
  countp p ((k, a) :: l) = ((if p a then 1 else 0) + countp p l)%nat.
Proof. intros. unfold countp. cbn [filter snd]. destruct (p a); reflexivity. Qed.

(** Channels not created yet are untouched. *)
Definition bounded (w : world) : Prop := forall c, (fresh w <= c)%nat -> tokens c w = 0%nat.

Lemma tokens_step : forall c w o w' r, private_op w o -> step w o = (w', r) ->
  (tokens c w' <= tokens c w + (match o with NewMsg _ => if Nat.eqb (fresh w) c then 1 else 0 | _ => 0 end))%nat /\
  match o, r with PollRecv rc, Got _ => assoc (receivers w) rc = Some c -> (tokens c w' < tokens c w)%nat | _, _ => True end.
Proof.
  intros c w o w' r PO H. unfold tokens.
  assert (MS : forall m x ms, assoc (msgs w) m = Some x ->
     (countp (fun x => is_chan c (e_send (m_ends x))) (without (msgs w) m)
       + (if is_chan c (e_send (m_ends x)) then 1 else 0) <= countp (fun x => is_chan c (e_send (m_ends x))) (msgs w))%nat \/ ms = tt).
  { intros m x ms A. left. apply (count_without_some _ (fun x => is_chan c (e_send (m_ends x))) _ _ _ A). }
  destruct o as [b|m|m|m|m|s t|f|f|s|rc|rc]; cbn [Channel.step] in H; step_cases H; cbn [msgs senders sends queues receivers];
    unfold update; rewrite ?countp_cons; cbn [m_ends m_request e_send is_chan fst snd assoc]; try (split; [lia|exact I]).
  all: try (assert (Q := count_without_le _ (fun x : nat * T => Nat.eqb (fst x) c) (sends w) f); split; [lia|exact I]).
  all: try (assert (Q := count_without_le _ (fun k => Nat.eqb k c) (senders w) s); split; [lia|exact I]).
  all: try (destruct (Nat.eqb_spec x c) as [->|Nc];
    [rewrite A0; split; lia|rewrite assoc_without_other by congruence; split; [lia|]; intros E; inv E; congruence]).
  - destruct (Nat.eqb_spec (fresh w) c) as [Ec|Nc]; split; auto; lia.
  - cbn [private_op] in PO. rewrite (PO x A). cbn. split; [lia|exact I].
  - assert (Q := count_without_le _ (fun x => is_chan c (e_send (m_ends x))) (msgs w) m). split; [lia|exact I].
  - assert (Q := count_without_some _ (fun x => is_chan c (e_send (m_ends x))) _ _ _ A). cbv beta in Q. rewrite Heqo in Q. cbn in Q.
    split; [|exact I]. lia.
  - assert (Q := count_without_le _ (fun x => is_chan c (e_send (m_ends x))) (msgs w) m). split; [lia|exact I].
  - assert (Q := count_without_some _ (fun x => is_chan c (e_send (m_ends x))) _ _ _ A). cbv beta in Q. split; [lia|exact I].
  - assert (Q := count_without_some _ (fun x => is_chan c (e_send (m_ends x))) _ _ _ A). cbv beta in Q. split; [lia|exact I].
  - assert (Q := count_without_some _ (fun k => Nat.eqb k c) _ _ _ A). cbv beta in Q. split; [lia|exact I].
  - assert (Q := count_without_some _ (fun x : nat * T => Nat.eqb (fst x) c) _ _ _ A). cbn [fst] in Q. split; [|exact I].
    destruct (Nat.eqb_spec n c) as [->|Nc].
    + rewrite A0. lia.
    + rewrite assoc_without_other by congruence. lia.
Qed.

Definition invariant (w : world) (tr : list (op * res)) : Prop :=
  linked w tr /\ bounded w /\ (forall c, (tokens c w <= 1)%nat).

Lemma invariant_step : forall w tr o w' r, invariant w tr -> private_op w o -> step w o = (w', r) -> invariant w' (tr ++ [(o, r)]).
Proof.
  intros w tr o w' r (L & B & K) PO H. split; [eapply linked_step; eassumption|].
  assert (F := fresh_step _ _ _ _ H). split.
  - intros c C. destruct (tokens_step c _ _ _ _ PO H) as [Q _]. assert (Z := B c ltac:(lia)).
    destruct o; try lia. cbn [Channel.step] in H. inv H. cbn [fresh] in C. destruct (Nat.eqb_spec (fresh w) c); lia.
  - intros c. destruct (tokens_step c _ _ _ _ PO H) as [Q _]. assert (Z := K c).
    destruct o; try lia. destruct (Nat.eqb_spec (fresh w) c) as [E|E]; [|lia]. assert (Y := B c ltac:(lia)). lia.
Qed.

(** Numbers in use are below [fresh]. *)
Definition bounds (w : world) : Prop :=
  (forall m x c, In (m, x) (msgs w) -> e_recv (m_ends x) = Some c -> (c < fresh w)%nat) /\
  (forall r c, In (r, c) (receivers w) -> (r < fresh w)%nat /\ (c < fresh w)%nat).
Lemma bounds_step : forall w o w' r, bounds w -> step w o = (w', r) -> bounds w'.
Proof.
  intros w o w' r [B1 B2] H. assert (F := fresh_step _ _ _ _ H).
  assert (C1 : forall m x c, In (m, x) (msgs w) -> e_recv (m_ends x) = Some c -> (c < fresh w')%nat).
  { intros m x c I E. specialize (B1 _ _ _ I E). lia. }
  assert (C2 : forall r c, In (r, c) (receivers w) -> (r < fresh w')%nat /\ (c < fresh w')%nat).
  { intros r' c I. specialize (B2 _ _ I). lia. }
  destruct o as [b|m|m|m|m|s t|f|f|s|rc|rc]; cbn [Channel.step] in H; step_cases H; unfold bounds; cbn [msgs receivers fresh] in *;
    (split; [intros m' x' c' I V; in_cases; eauto|intros r' c' I; in_cases; eauto]).
  - inv I. cbn in V. inv V. lia.
  - inv I. cbn [m_ends] in V. unfold clone_ends in V. destruct (m_request x); cbn in V; [discriminate|].
    apply assoc_in in A. eauto.
  - inv I. cbn in V. apply assoc_in in A. eauto.
  - inv I. cbn in V. apply assoc_in in A. eauto.
  - inv I. discriminate.
  - inv I. apply assoc_in in A. specialize (B1 _ _ _ A Heqo). lia.
  - inv I. discriminate.
Qed.

Fixpoint all_private (w : world) (ops : list op) : Prop :=
  match ops with
  | [] => True
  | o :: ops' => private_op w o /\ all_private (fst (step w o)) ops'
  end.

(** Once channel [c] is drained of tokens nothing comes out of it any more. *)
Lemma drained : forall c rc ops w w' tr, all_private w ops -> tokens c w = 0%nat -> (c < fresh w)%nat -> (rc < fresh w)%nat ->
  (forall c', assoc (receivers w) rc = Some c' -> c' = c) -> run w ops = (w', tr) -> forall t, ~ In (PollRecv rc, Got t) tr.
Proof.
  intros c rc. induction ops as [|o ops IH]; intros w w' tr PA Tk Lc Lr U R t I; cbn [Channel.run] in R; [inv R; exact I|]. destruct PA as [PO AP].
  destruct (step w o) as [w1 r] eqn:E. destruct (run w1 ops) as [w2 rs] eqn:Q. inv R. cbn [fst] in AP.
  destruct (tokens_step c _ _ _ _ PO E) as [T1 T2]. assert (F := fresh_step _ _ _ _ E).
  destruct I as [I|I].
  - inv I. cbn [Channel.step] in E. destruct (assoc (receivers w) rc) as [c'|] eqn:A; [|inv E].
    specialize (U _ eq_refl). subst c'. specialize (T2 eq_refl). lia.
  - refine (IH w1 w' rs AP _ _ _ _ Q t I); [|lia|lia|].
    + destruct o; try lia. destruct (Nat.eqb_spec (fresh w) c); lia.
    + intros c' A. apply U. clear -E A Lr. destruct o as [b|m|m|m|m|s t|f|f|s|rc'|rc']; cbn [Channel.step] in E; step_cases E;
        cbn [receivers] in A; auto.
      * cbn [assoc] in A. destruct (Nat.eqb_spec (fresh w) rc); [lia|exact A].
      * destruct (Nat.eq_dec rc rc') as [->|N]; [rewrite assoc_without_same in A; discriminate|].
        rewrite assoc_without_other in A by exact N. exact A.
Qed.

Lemma private_run : forall ops w tr w' tr', invariant w tr -> bounds w -> all_private w ops -> run w ops = (w', tr') ->
  forall rc t a b, tr' = a ++ (PollRecv rc, Got t) :: b ->
     (exists m s f, In (TakeReceiver m, Handle rc) (tr ++ a) /\ In (TakeSender m, Handle s) (tr ++ a) /\
                    In (StartSend s t, Handle f) (tr ++ a)) /\
     (forall t', ~ In (PollRecv rc, Got t') b).
Proof.
  induction ops as [|o ops IH]; intros w tr w' tr' Inv B PA R rc t a b E; cbn [Channel.run] in R.
  - inv R. destruct a; discriminate.
  - destruct PA as [PO AP]. destruct (step w o) as [w1 r] eqn:S. destruct (run w1 ops) as [w2 rs] eqn:Q. injection R as -> <-. cbn [fst] in AP.
    destruct a as [|e a]; cbn [app] in E.
    + injection E as -> -> ->. rewrite app_nil_r.
      assert (S' := S). cbn [Channel.step] in S'. destruct (assoc (receivers w) rc) as [c|] eqn:A; [|inv S'].
      destruct (assoc (queues w) c) as [[t0|]|] eqn:A2; [|destruct (sender_alive w c); inv S'|destruct (sender_alive w c); inv S'].
      assert (t0 = t) by (inv S'; reflexivity). subst t0. clear S'.
      assert (F := fresh_step _ _ _ _ S). destruct B as [B1 B2].
      assert (A' := assoc_in _ _ _ _ A). destruct (B2 _ _ A') as [Lr Lc].
      destruct Inv as ((_ & L2 & L3 & L4 & L5) & _ & K). split.
      * apply assoc_in in A2. destruct (L5 _ _ A2) as (s & f & I1 & I2). exists (Datatypes.S c), s, f. auto.
      * assert (T2 := proj2 (tokens_step c _ _ _ _ PO S) A). specialize (K c).
        eapply (drained c); [exact AP|lia|lia|lia| |exact Q].
        intros c' C. clear -S C A A2. cbn [Channel.step] in S. rewrite A, A2 in S. inv S. cbn [receivers] in C. congruence.
    + injection E as <- E.
      destruct (IH w1 (tr ++ [(o, r)]) w' rs (invariant_step _ _ _ _ _ Inv PO S) (bounds_step _ _ _ _ B S) AP Q rc t a b E) as [X Y].
      rewrite <- app_assoc in X. auto.
Qed.

(** A schedule in which no response is cloned: nothing is cloned at all, or all messages are requests. *)
Definition private (ops : list op) : Prop :=
  (forall m, ~ In (CloneMsg m) ops) \/ (forall b, In (NewMsg b) ops -> b = true).
Definition all_requests (w : world) : Prop := forall p, In p (msgs w) -> m_request (snd p) = true.

Lemma all_requests_step : forall w o w' r, all_requests w -> (forall b, o = NewMsg b -> b = true) -> step w o = (w', r) -> all_requests w'.
Proof.
  intros w o w' r A NB H. destruct o; cbn [Channel.step] in H; step_cases H; try exact A;
    unfold all_requests in *; cbn [msgs]; intros p P; in_cases; auto; subst; cbn [snd m_request];
    try (apply NB; reflexivity);
    match goal with E : assoc (msgs _) _ = Some _ |- _ => apply assoc_in in E; apply A in E; exact E end.
Qed.

Lemma private_all : forall ops w, all_requests w -> private ops -> all_private w ops.
Proof.
  intros ops w A [P|P].
  - clear A. revert w. induction ops as [|o ops IH]; intros w; cbn [all_private]; [exact I|]. split.
    + destruct o; try exact I. exfalso. apply (P m). left. reflexivity.
    + apply IH. intros m M. apply (P m). right. exact M.
  - revert w A. induction ops as [|o ops IH]; intros w A; cbn [all_private]; [exact I|]. split.
    + destruct o; try exact I. intros x X. apply assoc_in in X. apply A in X. exact X.
    + destruct (step w o) as [w1 r] eqn:S. apply IH; [intros b B; apply P; right; exact B|].
      eapply all_requests_step; [exact A| |exact S]. intros b ->. apply P. left. reflexivity.
Qed.

Lemma invariant0 : invariant world0 [].
Proof.
  split; [|split; [intros c _; reflexivity|intros c; cbn; lia]].
  unfold linked. cbn. split; [intros ? ? ? []|]. split; [intros ? ? []|]. split; [intros ? ? []|]. split; [intros ? ? ? []|intros ? ? []].
Qed.

(** What a receiver yields was given to the sender of the same message, before; and it yields at most one
    value. *)
Theorem C30_receiver_gets_what_was_sent : forall ops w tr rc t before after,
  private ops -> run world0 ops = (w, tr) -> tr = before ++ (PollRecv rc, Got t) :: after ->
  (exists m s f, In (TakeReceiver m, Handle rc) before /\ In (TakeSender m, Handle s) before /\
                 In (StartSend s t, Handle f) before) /\
  (forall t', ~ In (PollRecv rc, Got t') after).
Proof.
  intros ops w tr rc t a b P R E.
  eapply (private_run ops world0 [] w tr); [apply invariant0|split; [intros ? ? ? []|intros ? ? []]|apply private_all; [intros ? []|exact P]|exact R|exact E].
Qed.

(** ** Delivery and closing *)

(** An accepted value stays in the channel until a receiver of that channel is polled, and that poll
    yields it. *)
Lemma queue_step : forall w o w' r c t, step w o = (w', r) -> assoc (queues w) c = Some (Some t) -> (c < fresh w)%nat ->
  assoc (queues w') c = Some (Some t) \/ (exists rc, o = PollRecv rc /\ r = Got t /\ assoc (receivers w) rc = Some c).
Proof.
  intros w o w' r c t H Q L. destruct o as [b|m|m|m|m|s u|f|f|s|rc|rc]; cbn [Channel.step] in H; step_cases H; cbn [queues]; auto.
  - cbn [assoc]. destruct (Nat.eqb_spec (fresh w) c); [lia|auto].
  - unfold update. cbn [assoc]. destruct (Nat.eqb_spec n c) as [->|N]; [congruence|]. rewrite assoc_without_other by congruence. auto.
  - unfold update. cbn [assoc]. destruct (Nat.eqb_spec x c) as [->|N].
    + rewrite Q in A0. inv A0. right. eauto.
    + rewrite assoc_without_other by congruence. auto.
Qed.

(** Sending handles refer to existing channels. *)
Definition sbounds (w : world) : Prop :=
  (forall m x c, In (m, x) (msgs w) -> e_send (m_ends x) = Some c -> (c < fresh w)%nat) /\
  (forall s c, In (s, c) (senders w) -> (c < fresh w)%nat) /\
  (forall f c t, In (f, (c, t)) (sends w) -> (c < fresh w)%nat).
Lemma sbounds_step : forall w o w' r, sbounds w -> step w o = (w', r) -> sbounds w'.
Proof.
  intros w o w' r (B1 & B2 & B3) H. assert (F := fresh_step _ _ _ _ H).
  assert (C1 : forall m x c, In (m, x) (msgs w) -> e_send (m_ends x) = Some c -> (c < fresh w')%nat).
  { intros m x c I E. specialize (B1 _ _ _ I E). lia. }
  assert (C2 : forall s c, In (s, c) (senders w) -> (c < fresh w')%nat).
  { intros s c I. specialize (B2 _ _ I). lia. }
  assert (C3 : forall f c t, In (f, (c, t)) (sends w) -> (c < fresh w')%nat).
  { intros f c t I. specialize (B3 _ _ _ I). lia. }
  destruct o as [b|m|m|m|m|s t|f|f|s|rc|rc]; cbn [Channel.step] in H; step_cases H; unfold sbounds; cbn [msgs senders sends fresh] in *;
    (split; [intros m' x' c' I V; in_cases; eauto|split; [intros s' c' I; in_cases; eauto|intros f' c' t' I; in_cases; eauto]]);
    try (inv I; cbn in V; discriminate).
  - inv I. cbn in V. inv V. lia.
  - inv I. cbn [m_ends] in V. unfold clone_ends in V. destruct (m_request x); cbn in V; [discriminate|].
    apply assoc_in in A. eauto.
  - inv I. apply assoc_in in A. eauto.
  - inv I. cbn in V. apply assoc_in in A. eauto.
  - inv I. cbn in V. apply assoc_in in A. eauto.
  - inv I. apply assoc_in in A. eauto.
Qed.

(** A value whose send completed on the channel of receiver [rc] is what [rc] yields when polled, unless it
    was received before (by [rc] or, for cloned responses, another receiver of the channel). *)
Theorem C30_accepted_is_delivered : forall ops1 ops2 w tr1 tr2 f t rc w1 w2 c,
  run world0 ops1 = (w1, tr1) -> assoc (sends w1) f = Some (c, t) -> step w1 (PollSend f) = (w2, Sent) ->
  run w2 ops2 = (w, tr2) -> assoc (receivers w) rc = Some c ->
  (exists rc', In (PollRecv rc', Got t) tr2) \/ snd (step w (PollRecv rc)) = Got t.
Proof.
  intros ops1 ops2 w tr1 tr2 f t rc w1 w2 c R1 A S R2 A2.
  assert (B : sbounds w1).
  { refine (run_invariant (fun w _ => sbounds w) (fun _ => True) _ ops1 world0 [] w1 tr1 _ _ R1);
      [intros; eapply sbounds_step; eassumption| |apply Forall_forall; auto].
    split; [intros ? ? ? []|split; [intros ? ? []|intros ? ? ? []]]. }
  assert (L2 : (c < fresh w2)%nat).
  { assert (F := fresh_step _ _ _ _ S). apply assoc_in in A. destruct B as (_ & _ & B). specialize (B _ _ _ A). lia. }
  assert (Q2 : assoc (queues w2) c = Some (Some t)).
  { cbn [Channel.step] in S. rewrite A in S. destruct (negb (receiver_alive w1 c)); [discriminate|].
    destruct (assoc (queues w1) c) as [[x|]|]; inv S. cbn [queues]. unfold update. cbn [assoc]. rewrite Nat.eqb_refl. reflexivity. }
  assert (G : forall ops w tr w', assoc (queues w) c = Some (Some t) -> (c < fresh w)%nat -> run w ops = (w', tr) ->
     (exists rc', In (PollRecv rc', Got t) tr) \/ assoc (queues w') c = Some (Some t)).
  { clear. induction ops as [|o ops IH]; intros w tr w' Q L R; cbn [Channel.run] in R; [inv R; auto|].
    destruct (step w o) as [wa r] eqn:E. destruct (run wa ops) as [wb rs] eqn:R2. inv R.
    destruct (queue_step _ _ _ _ _ _ E Q L) as [Q'|(rc & -> & -> & _)].
    - assert (F := fresh_step _ _ _ _ E). destruct (IH _ _ _ Q' ltac:(lia) R2) as [(rc & X)|X]; [left; exists rc; right; exact X|auto].
    - left. exists rc. left. reflexivity. }
  destruct (G _ _ _ _ Q2 L2 R2) as [X|X]; [left; exact X|right].
  cbn [Channel.step]. rewrite A2, X. reflexivity.
Qed.

(** A receiver reports the end only when every sending handle is gone and the channel is empty, and then
    for good. *)
Lemma dead_step : forall w o w' r c, step w o = (w', r) -> (c < fresh w)%nat -> sender_alive w c = false -> sender_alive w' c = false.
Proof.
  intros w o w' r c H L D. unfold sender_alive in *. apply orb_false_iff in D as [D D3]. apply orb_false_iff in D as [D1 D2].
  assert (E : forall A (p : nat * A -> bool) l k, existsb p l = false -> existsb p (without l k) = false).
  { clear. intros A p l k X. induction l as [|[k' a] l IH]; [reflexivity|]. cbn [existsb without] in *.
    apply orb_false_iff in X as [X1 X2]. destruct (Nat.eqb k' k); cbn [existsb]; [|rewrite X1]; auto. }
  assert (EI : forall A (p : nat * A -> bool) l k a, existsb p l = false -> assoc l k = Some a -> p (k, a) = false).
  { clear. intros A p l k a X Y. apply assoc_in in Y. destruct (p (k, a)) eqn:P; [|reflexivity].
    rewrite <- X. symmetry. apply existsb_exists. eauto. }
  rewrite !orb_false_iff.
  destruct o as [b|m|m|m|m|s t|f|f|s|rc|rc]; cbn [Channel.step] in H; step_cases H; cbn [msgs senders sends]; unfold update; cbn [existsb snd];
    rewrite ?D1, ?D2, ?D3, ?E by assumption; auto.
  - cbn. destruct (Nat.eqb_spec (fresh w) c); [lia|auto].
  - assert (X := EI _ _ _ _ _ D1 A). cbn [snd] in X. cbn [m_ends]. unfold clone_ends. destruct (m_request x); cbn; [auto|]. cbn in X. rewrite X. auto.
  - cbn. assert (X := EI _ _ _ _ _ D1 A). cbn [snd] in X. rewrite Heqo in X. cbn in X. rewrite X. auto.
  - cbn. assert (X := EI _ _ _ _ _ D1 A). cbn [snd] in X. rewrite X. auto.
  - cbn. assert (X := EI _ _ _ _ _ D1 A). cbn [snd] in X. rewrite X. auto.
  - cbn. assert (X := EI _ _ _ _ _ D2 A). cbn [snd] in X. rewrite X. auto.
Qed.

Theorem C30_closed_means_all_senders_gone : forall ops w tr rc w' ops2 w2 tr2,
  run world0 ops = (w, tr) -> step w (PollRecv rc) = (w', Closed) -> run w' ops2 = (w2, tr2) ->
  (exists c, assoc (receivers w) rc = Some c /\ sender_alive w c = false) /\
  (forall t, ~ In (PollRecv rc, Got t) tr2).
Proof.
  intros ops w tr rc w' ops2 w2 tr2 R S R2.
  assert (B : bounds w).
  { change (let _ := [] ++ tr in bounds w).
    refine (run_invariant (fun w _ => bounds w) (fun _ => True) _ ops world0 [] w tr _ _ R);
      [intros; eapply bounds_step; eassumption| |apply Forall_forall; auto].
    split; [intros ? ? ? []|intros ? ? []]. }
  cbn [Channel.step] in S. destruct (assoc (receivers w) rc) as [c|] eqn:A; [|inv S].
  assert (Q : match assoc (queues w) c with Some (Some _) => False | _ => True end /\ sender_alive w c = false /\ w' = w).
  { destruct (assoc (queues w) c) as [[t|]|]; [inv S| |]; destruct (sender_alive w c); inv S; auto. }
  destruct Q as (Q & D & ->). split; [eauto|].
  destruct B as [_ B2]. assert (A' := assoc_in _ _ _ _ A). destruct (B2 _ _ A') as [Lr Lc].
  assert (U : forall c', assoc (receivers w) rc = Some c' -> c' = c) by congruence. clear A A' S R B2.
  revert w w2 tr2 Q D R2 Lr Lc U. induction ops2 as [|o ops2 IH]; intros w w2 tr2 Q D R Lr Lc U t I; cbn [Channel.run] in R; [inv R; exact I|].
  destruct (step w o) as [w1 r] eqn:E. destruct (run w1 ops2) as [wb rs] eqn:R2. inv R. assert (F := fresh_step _ _ _ _ E).
  destruct I as [I|I].
  - inv I. cbn [Channel.step] in E. destruct (assoc (receivers w) rc) as [c'|]; [|inv E]. rewrite (U _ eq_refl) in E.
    destruct (assoc (queues w) c) as [[t0|]|]; [contradiction| |]; destruct (sender_alive w c); inv E.
  - refine (IH w1 w2 rs _ (dead_step _ _ _ _ _ E Lc D) R2 _ _ _ t I); [|lia|lia|].
    + unfold sender_alive in D. apply orb_false_iff in D as [_ D3].
      clear -E Q D3 Lc. destruct o as [b|m|m|m|m|s u|f|f|s|rc'|rc']; cbn [Channel.step] in E; step_cases E; cbn [queues]; auto.
      * cbn [assoc]. destruct (Nat.eqb_spec (fresh w) c); [exact I|exact Q].
      * unfold update. cbn [assoc]. destruct (Nat.eqb_spec n c) as [->|N]; [|rewrite assoc_without_other by congruence; exact Q].
        exfalso. apply assoc_in in A. assert (X : existsb (fun p : nat * (nat * T) => Nat.eqb (fst (snd p)) c) (sends w) = true)
          by (apply existsb_exists; exists (f, (c, t)); cbn; rewrite Nat.eqb_refl; auto). congruence.
      * unfold update. cbn [assoc]. destruct (Nat.eqb_spec x c) as [->|N]; [exact I|rewrite assoc_without_other by congruence; exact Q].
    + intros c' A. apply U. clear -E A Lr. destruct o as [b|m|m|m|m|s u|f|f|s|rc'|rc']; cbn [Channel.step] in E; step_cases E;
        cbn [receivers] in A; auto.
      * cbn [assoc] in A. destruct (Nat.eqb_spec (fresh w) rc); [lia|exact A].
      * destruct (Nat.eq_dec rc rc') as [->|N]; [rewrite assoc_without_same in A; discriminate|].
        rewrite assoc_without_other in A by exact N. exact A.
Qed.

(** A send is given up exactly when nobody can receive it, now or after anything that may happen next. *)
Lemma dead_recv_step : forall w o w' r c, step w o = (w', r) -> (c < fresh w)%nat -> receiver_alive w c = false -> receiver_alive w' c = false.
Proof.
  intros w o w' r c H L D. unfold receiver_alive in *. apply orb_false_iff in D as [D1 D2].
  assert (E : forall A (p : nat * A -> bool) l k, existsb p l = false -> existsb p (without l k) = false).
  { clear. intros A p l k X. induction l as [|[k' a] l IH]; [reflexivity|]. cbn [existsb without] in *.
    apply orb_false_iff in X as [X1 X2]. destruct (Nat.eqb k' k); cbn [existsb]; [|rewrite X1]; auto. }
  assert (EI : forall A (p : nat * A -> bool) l k a, existsb p l = false -> assoc l k = Some a -> p (k, a) = false).
  { clear. intros A p l k a X Y. apply assoc_in in Y. destruct (p (k, a)) eqn:P; [|reflexivity].
    rewrite <- X. symmetry. apply existsb_exists. eauto. }
  rewrite !orb_false_iff.
  destruct o as [b|m|m|m|m|s t|f|f|s|rc|rc]; cbn [Channel.step] in H; step_cases H; cbn [msgs receivers]; unfold update; cbn [existsb snd];
    rewrite ?D1, ?D2, ?E by assumption; auto.
  - cbn. destruct (Nat.eqb_spec (fresh w) c); [lia|auto].
  - assert (X := EI _ _ _ _ _ D1 A). cbn [snd] in X. cbn [m_ends]. unfold clone_ends. destruct (m_request x); cbn; [auto|]. cbn in X. rewrite X. auto.
  - cbn. assert (X := EI _ _ _ _ _ D1 A). cbn [snd] in X. rewrite X. auto.
  - cbn. assert (X := EI _ _ _ _ _ D1 A). cbn [snd] in X. rewrite X. auto.
  - cbn. assert (X := EI _ _ _ _ _ D1 A). cbn [snd] in X. rewrite Heqo in X. cbn in X. rewrite X. auto.
Qed.
Lemma assoc_nodup : forall A (l : list (nat * A)) k a, NoDup (map fst l) -> In (k, a) l -> assoc l k = Some a.
Proof.
  induction l as [|[k' a'] l IH]; intros k a N I; [destruct I|]. cbn [map fst] in N. inv N. cbn [assoc]. destruct I as [I|I].
  - inv I. now rewrite Nat.eqb_refl.
  - destruct (Nat.eqb_spec k' k) as [->|_]; [|auto]. elim H1. apply in_map_iff. now exists (k, a).
Qed.
Lemma without_nodup : forall A (l : list (nat * A)) k, NoDup (map fst l) -> NoDup (map fst (without l k)) /\ ~ In k (map fst (without l k)).
Proof.
  intros A l k N. split.
  - induction l as [|[k' a] l IH]; [constructor|]. cbn [map fst] in N. inv N. cbn [without]. destruct (Nat.eqb k' k); [auto|]. cbn [map fst]. constructor; [|auto].
    intros I. apply in_map_iff in I as (p & E & I). apply in_without in I as [I _]. apply H1. apply in_map_iff. eauto.
  - intros I. apply in_map_iff in I as (p & E & I). apply in_without in I as [_ I]. auto.
Qed.
Lemma keys_step : forall w o w' r, below w -> NoDup (map fst (msgs w)) -> step w o = (w', r) -> NoDup (map fst (msgs w')).
Proof.
  intros w o w' r B N H.
  assert (F : forall k x, (fresh w <= k)%nat -> NoDup (map fst ((k, x) :: msgs w))).
  { intros k x L. cbn [map fst]. constructor; [|exact N]. intros I. apply in_map_iff in I as (p & E & I). apply B in I. lia. }
  destruct o; cbn [Channel.step] in H; step_cases H; cbn [msgs]; try exact N; try (apply F; lia);
    try (apply without_nodup, N); unfold update; cbn [map fst]; (constructor; [apply without_nodup, N|apply without_nodup, N]).
Qed.
Theorem C30_lost_iff : forall ops w tr f c t, run world0 ops = (w, tr) -> assoc (sends w) f = Some (c, t) ->
  (snd (step w (PollSend f)) = Lost <-> forall ops2 w2 tr2, run w ops2 = (w2, tr2) -> forall rc, ~ In (rc, c) (receivers w2)).
Proof.
  intros ops w tr f c t R A.
  assert (I : sbounds w /\ below w /\ NoDup (map fst (msgs w))).
  { refine (run_invariant (fun w _ => sbounds w /\ below w /\ NoDup (map fst (msgs w))) (fun _ => True) _ ops world0 [] w tr _ _ R).
    - intros w0 tr0 o w' r (X & Y & Z) _ E. split; [eapply sbounds_step; eassumption|]. split; [eapply below_step; eassumption|eapply keys_step; eassumption].
    - split; [split; [intros ? ? ? []|split; [intros ? ? []|intros ? ? ? []]]|]. split; [intros ? []|constructor].
    - apply Forall_forall; auto. }
  destruct I as (B & _ & N). assert (L : (c < fresh w)%nat) by (apply assoc_in in A; destruct B as (_ & _ & B); exact (B _ _ _ A)).
  assert (S : snd (step w (PollSend f)) = Lost <-> receiver_alive w c = false).
  { cbn [Channel.step]. rewrite A. destruct (receiver_alive w c); cbn [negb]; [|now split].
    split; [|discriminate]. destruct (assoc (queues w) c) as [[?|]|]; discriminate. }
  rewrite S. clear S A B R. split.
  - intros D ops2. clear N. revert w L D. induction ops2 as [|o ops2 IH]; intros w L D w2 tr2 R rc I; cbn [Channel.run] in R.
    + inv R. unfold receiver_alive in D. apply orb_false_iff in D as [_ D].
      assert (X : existsb (fun p => Nat.eqb (snd p) c) (receivers w2) = true) by (apply existsb_exists; exists (rc, c); cbn; rewrite Nat.eqb_refl; auto). congruence.
    + destruct (step w o) as [w1 r] eqn:E. destruct (run w1 ops2) as [wb rs] eqn:Q. inv R. assert (F := fresh_step _ _ _ _ E).
      exact (IH w1 ltac:(lia) (dead_recv_step _ _ _ _ _ E L D) _ _ Q rc I).
  - intros H. destruct (receiver_alive w c) eqn:D; [|reflexivity]. exfalso. unfold receiver_alive in D. apply orb_true_iff in D as [D|D].
    + apply existsb_exists in D as ([m x] & I & E). cbn [snd] in E. destruct (e_recv (m_ends x)) as [c'|] eqn:V; [|discriminate E]. cbn [is_chan] in E. apply Nat.eqb_eq in E. subst c'.
      destruct (run w [TakeReceiver m]) as [w2 tr2] eqn:Q. refine (H _ _ _ Q (fresh w) _). cbn [Channel.run Channel.step] in Q. rewrite (assoc_nodup _ _ _ _ N I), V in Q. inv Q. now left.
    + apply existsb_exists in D as ([rc c'] & I & E). cbn [snd] in E. apply Nat.eqb_eq in E. subst c'. exact (H [] w [] eq_refl rc I).
Qed.
(** ** has_trailers / has_upgrade *)
(** A call that announces trailers (an upgrade) for message [m]: one that reached a living message. *)
Definition announces (m : nat) (e : op * res) : bool :=
  match e with
  | (_, NoSuch) => false
  | (TakeSender k, _) => Nat.eqb k m
  | (TakeReceiver k, _) => rf && Nat.eqb k m
  | _ => false
  end.
Definition flagged (w : world) (tr : list (op * res)) : Prop :=
  below w /\ (forall m, existsb (announces m) tr = true -> (m < fresh w)%nat) /\
  forall m x, assoc (msgs w) m = Some x -> e_flag (m_ends x) = existsb (announces m) tr.
Lemma assoc_below : forall w m x, below w -> assoc (msgs w) m = Some x -> (m < fresh w)%nat.
Proof. intros w m x B A. apply assoc_in in A. apply B in A. exact A. Qed.
Lemma flagged_step : forall w tr o w' r, flagged w tr -> step w o = (w', r) -> flagged w' (tr ++ [(o, r)]).
Proof.
  intros w tr o w' r (B & L & F) H. split; [eapply below_step; eassumption|].
  assert (M := fresh_step _ _ _ _ H).
  assert (X : forall m, existsb (announces m) (tr ++ [(o, r)]) = existsb (announces m) tr || announces m (o, r)).
  { intros m. rewrite existsb_app. cbn [existsb]. rewrite orb_false_r. reflexivity. }
  assert (Z : forall m, announces m (o, r) = true -> (m < fresh w)%nat).
  { intros m A. destruct o; cbn [announces] in A; try (destruct r; discriminate A).
    - cbn [Channel.step] in H. destruct (assoc (msgs w) m0) as [x|] eqn:E; [|inv H; discriminate A].
      assert (m0 = m) as <- by (destruct r; try discriminate A; apply Nat.eqb_eq, A). eapply assoc_below; eassumption.
    - cbn [Channel.step] in H. destruct (assoc (msgs w) m0) as [x|] eqn:E; [|inv H; discriminate A].
      assert (m0 = m) as <- by (destruct r; try discriminate A; apply andb_prop in A as [_ A]; apply Nat.eqb_eq, A). eapply assoc_below; eassumption. }
  split.
  - intros m A. rewrite X in A. apply orb_prop in A as [A|A]; [apply L in A; lia|apply Z in A; lia].
  - intros m x A. rewrite X.
    assert (NEW : (fresh w <= m)%nat -> existsb (announces m) tr = false /\ announces m (o, r) = false).
    { intros G. split; [destruct (existsb (announces m) tr) eqn:E; [apply L in E; lia|reflexivity]|].
      destruct (announces m (o, r)) eqn:E; [apply Z in E; lia|reflexivity]. }
    destruct o as [b|k|k|k|k|s t|f|f|s|rc|rc]; cbn [Channel.step] in H.
    + inv H. cbn [msgs assoc] in A. destruct (Nat.eqb_spec (S (fresh w)) m) as [<-|N].
      * inv A. cbn [m_ends e_flag]. destruct (NEW ltac:(lia)) as [-> ->]. reflexivity.
      * cbn [announces]. rewrite orb_false_r. apply F, A.
    + destruct (assoc (msgs w) k) as [y|] eqn:E; inv H; [|cbn [announces]; rewrite orb_false_r; apply F, A].
      cbn [msgs assoc] in A. destruct (Nat.eqb_spec (fresh w) m) as [<-|N].
      * inv A. cbn [m_ends]. destruct (NEW ltac:(lia)) as [-> ->]. unfold clone_ends. destruct (m_request y); reflexivity.
      * cbn [announces]. rewrite orb_false_r. apply F, A.
    + destruct (assoc (msgs w) k) as [y|] eqn:E; inv H; cbn [announces]; rewrite orb_false_r; [|apply F, A].
      cbn [msgs] in A. destruct (Nat.eq_dec m k) as [->|N]; [rewrite assoc_without_same in A; discriminate A|].
      rewrite assoc_without_other in A by exact N. apply F, A.
    + destruct (assoc (msgs w) k) as [y|] eqn:E; [|inv H; cbn [announces]; rewrite orb_false_r; apply F, A].
      assert (R : r <> NoSuch /\ msgs w' = update (msgs w) k (mkMsg (m_request y) (mkEnds None (e_recv (m_ends y)) true)))
        by (destruct (e_send (m_ends y)); inv H; split; [discriminate|reflexivity|discriminate|reflexivity]).
      destruct R as [R1 R2]. rewrite R2 in A. unfold update in A. cbn [assoc] in A.
      assert (Q : announces m (TakeSender k, r) = Nat.eqb k m) by (destruct r; [elim R1|..]; reflexivity). rewrite Q.
      destruct (Nat.eqb_spec k m) as [->|N]; [inv A; cbn [m_ends e_flag]; now rewrite orb_true_r|].
      rewrite orb_false_r. rewrite assoc_without_other in A by congruence. apply F, A.
    + destruct (assoc (msgs w) k) as [y|] eqn:E; [|inv H; cbn [announces]; rewrite orb_false_r; apply F, A].
      assert (R : r <> NoSuch /\ msgs w' = update (msgs w) k (mkMsg (m_request y) (mkEnds (e_send (m_ends y)) None (e_flag (m_ends y) || rf))))
        by (destruct (e_recv (m_ends y)); inv H; split; [discriminate|reflexivity|discriminate|reflexivity]).
      destruct R as [R1 R2]. rewrite R2 in A. unfold update in A. cbn [assoc] in A.
      assert (Q : announces m (TakeReceiver k, r) = rf && Nat.eqb k m) by (destruct r; [elim R1|..]; reflexivity). rewrite Q.
      destruct (Nat.eqb_spec k m) as [->|N]; [inv A; cbn [m_ends e_flag]; rewrite (F _ _ E), andb_true_r; reflexivity|].
      rewrite andb_false_r, orb_false_r. rewrite assoc_without_other in A by congruence. apply F, A.
    + assert (W : msgs w' = msgs w) by (step_cases H; reflexivity). rewrite W in A. destruct r; cbn [announces]; rewrite orb_false_r; apply F, A.
    + assert (W : msgs w' = msgs w) by (step_cases H; reflexivity). rewrite W in A. destruct r; cbn [announces]; rewrite orb_false_r; apply F, A.
    + assert (W : msgs w' = msgs w) by (step_cases H; reflexivity). rewrite W in A. destruct r; cbn [announces]; rewrite orb_false_r; apply F, A.
    + assert (W : msgs w' = msgs w) by (step_cases H; reflexivity). rewrite W in A. destruct r; cbn [announces]; rewrite orb_false_r; apply F, A.
    + assert (W : msgs w' = msgs w) by (step_cases H; reflexivity). rewrite W in A. destruct r; cbn [announces]; rewrite orb_false_r; apply F, A.
    + assert (W : msgs w' = msgs w) by (step_cases H; reflexivity). rewrite W in A. destruct r; cbn [announces]; rewrite orb_false_r; apply F, A.
Qed.

(** A message says that it has trailers (an upgrade) exactly when somebody asked this very message for the
    sender (or, where asking for the receiver counts too, for the receiver), even if that call panicked. *)
Theorem C30_flag : forall ops w tr m x, run world0 ops = (w, tr) -> assoc (msgs w) m = Some x ->
  (e_flag (m_ends x) = true <->
   exists r, r <> NoSuch /\ (In (TakeSender m, r) tr \/ (rf = true /\ In (TakeReceiver m, r) tr))).
Proof.
  intros ops w tr m x R A.
  assert (F : flagged w ([] ++ tr)).
  { eapply (run_invariant flagged (fun _ => True)); [intros; eapply flagged_step; eassumption| |apply Forall_forall; auto|exact R].
    split; [intros p []|]. split; [discriminate|]. intros k y E. discriminate E. }
  destruct F as (_ & _ & F). rewrite (F _ _ A). cbn [app]. rewrite existsb_exists. split.
  - intros ([o r] & I & E). exists r. destruct o; cbn [announces] in E; try (destruct r; discriminate E).
    + assert (r <> NoSuch /\ m0 = m) as [N ->] by (destruct r; try discriminate E; split; try discriminate; apply Nat.eqb_eq, E). auto.
    + assert (r <> NoSuch /\ m0 = m /\ rf = true) as (N & -> & Q) by (destruct r; try discriminate E; apply andb_prop in E as [E1 E]; (split; [discriminate|split; [apply Nat.eqb_eq, E|exact E1]])). auto.
  - intros (r & N & [I|[Q I]]); (eexists; split; [exact I|]).
    + destruct r; try (elim N; reflexivity); cbn [announces]; apply Nat.eqb_refl.
    + destruct r; try (elim N; reflexivity); cbn [announces]; rewrite Q; apply Nat.eqb_refl.
Qed.
End Props.
Print Assumptions C30_flag.
Print Assumptions C30_taken_at_most_once.
Print Assumptions C30_never_duplicated_or_invented.
Print Assumptions C30_receiver_gets_what_was_sent.
Print Assumptions C30_accepted_is_delivered.
Print Assumptions C30_closed_means_all_senders_gone.
Print Assumptions C30_lost_iff.

(** Message 1 with channel 0: the trailers reach the receiver, which then reports the end. *)
Example C30_example :
  map snd (snd (@run str false world0
    [NewMsg true; TakeSender 1; TakeSender 1; TakeReceiver 1; PollRecv 4; StartSend 2 (lit "a"); PollRecv 4;
     PollSend 5; PollRecv 4; PollRecv 4]))
  = [Handle 1; Handle 2; Paniced; Handle 4; Waiting; Handle 5; Waiting; Sent; Got (lit "a"); Closed].
Proof. reflexivity. Qed.

(** A dropped sender ends the wait; while the message itself lives it keeps its own sender. *)
Example C30_example_drop :
  map snd (snd (@run str false world0 [NewMsg true; TakeReceiver 1; PollRecv 2; DropMsg 1; PollRecv 2]))
  = [Handle 1; Handle 2; Waiting; Done; Closed].
Proof. reflexivity. Qed.

(** A send with no receiver left is given up; with a cloned response still holding one, it is accepted. *)
Example C30_example_lost :
  map snd (snd (@run str false world0 [NewMsg true; TakeSender 1; DropMsg 1; StartSend 2 (lit "a"); PollSend 3])) = [Handle 1; Handle 2; Done; Handle 3; Lost] /\
  map snd (snd (@run str false world0 [NewMsg false; NewMsg false; CloneMsg 1; TakeSender 1; DropMsg 1; StartSend 5 (lit "a"); PollSend 6])) = [Handle 1; Handle 3; Handle 4; Handle 5; Done; Handle 6; Sent].
Proof. split; reflexivity. Qed.
