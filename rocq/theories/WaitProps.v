(** C130: who waits for trailers or an upgrade, and for how long.  Over the schedules of Channel.v. *)
From Verif Require Import Base BaseFacts Message Channel ChannelProps.
From Coq Require Import ZifyBool ZifyNat ZifyN Lia.

Section Wait.
Context (T : Type) (rf : bool).
Notation op := (Channel.op T).
Notation res := (Channel.res T).
Notation world := (Channel.world T).
Notation step := (@Channel.step T rf).
Notation run := (@Channel.run T rf).

(** Handles are never given out twice, and the channel of a receiver exists. *)
Definition tidy (w : world) : Prop :=
  ((forall p, In p (senders w) -> (fst p < fresh w)%nat) /\ NoDup (map fst (senders w))) /\
  ((forall p, In p (sends w) -> (fst p < fresh w)%nat) /\ NoDup (map fst (sends w))) /\
  (forall m x c, In (m, x) (msgs w) -> e_recv (m_ends x) = Some c -> assoc (queues w) c <> None) /\
  (forall r c, In (r, c) (receivers w) -> assoc (queues w) c <> None).

Lemma table_old : forall A (l : list (nat * A)) n n' k, (forall p, In p l -> (fst p < n)%nat) /\ NoDup (map fst l) -> (n <= n')%nat ->
  (forall p, In p (without l k) -> (fst p < n')%nat) /\ NoDup (map fst (without l k)).
Proof. intros A l n n' k [B N] L. split; [intros p I; apply in_without in I as [I _]; apply B in I; lia|apply without_nodup, N]. Qed.
Lemma table_same : forall A (l : list (nat * A)) n n', (forall p, In p l -> (fst p < n)%nat) /\ NoDup (map fst l) -> (n <= n')%nat ->
  (forall p, In p l -> (fst p < n')%nat) /\ NoDup (map fst l).
Proof. intros A l n n' [B N] L. split; [intros p I; apply B in I; lia|exact N]. Qed.
Lemma table_new : forall A (l : list (nat * A)) n a, (forall p, In p l -> (fst p < n)%nat) /\ NoDup (map fst l) ->
  (forall p, In p ((n, a) :: l) -> (fst p < S n)%nat) /\ NoDup (map fst ((n, a) :: l)).
Proof.
  intros A l n a [B N]. split.
  - intros p [<-|I]; [cbn; lia|]. apply B in I. lia.
  - cbn [map fst]. constructor; [|exact N]. intros I. apply in_map_iff in I as (p & E & I). apply B in I. lia.
Qed.
Lemma queue_kept : forall (q : list (nat * option T)) c k v, assoc q k <> None -> assoc (update q c v) k <> None.
Proof.
  intros q c k v N. unfold update. cbn [assoc]. destruct (Nat.eqb_spec c k); [discriminate|]. rewrite assoc_without_other by congruence. exact N.
Qed.
Lemma queue_more : forall (q : list (nat * option T)) c k v, assoc q k <> None -> assoc ((c, v) :: q) k <> None.
Proof. intros q c k v N. cbn [assoc]. destruct (Nat.eqb c k); [discriminate|exact N]. Qed.

Ltac step_cases H :=
  repeat match type of H with
  | context [match assoc ?l ?k with _ => _ end] => let E := fresh "A" in destruct (assoc l k) as [?x|] eqn:E
  | context [match ?p with (_, _) => _ end] => destruct p
  | context [match e_send ?x with _ => _ end] => destruct (e_send x) eqn:?
  | context [match e_recv ?x with _ => _ end] => destruct (e_recv x) eqn:?
  | context [match ?o with Some _ => _ | None => _ end] => destruct o
  | context [if ?b then _ else _] => destruct b eqn:?
  end; inv H.
Ltac members :=
  repeat match goal with
  | H : In _ (_ :: _) |- _ => destruct H as [H|H]; [inv H|]
  | H : In _ (without _ _) |- _ => apply in_without in H as [H _]
  | H : In _ (update _ _ _) |- _ => unfold update in H
  end.
Lemma tidy_step : forall w o w' r, tidy w -> step w o = (w', r) -> tidy w'.
Proof.
  intros w o w' r (S1 & S2 & Q1 & Q2) H. assert (F := fresh_step _ _ _ _ _ _ H).
  destruct o as [b|m|m|m|m|s t|f|f|s|rc|rc]; cbn [Channel.step] in H; step_cases H; unfold tidy; cbn [msgs senders sends receivers queues fresh] in *;
    (split; [first [now apply table_new|eapply table_same; [eassumption|lia]|eapply table_old; [eassumption|lia]]|]);
    (split; [first [now apply table_new|eapply table_same; [eassumption|lia]|eapply table_old; [eassumption|lia]]|]);
    (split; [intros m' x' c' I V; members; first [solve [eauto]|solve [apply queue_kept; eauto]|solve [apply queue_more; eauto]|idtac]|
             intros r' c' I; members; first [solve [eauto]|solve [apply queue_kept; eauto]|solve [apply queue_more; eauto]|idtac]]);
    try (cbn in V; discriminate); try (apply assoc_in in A); eauto.
  - cbn in V. inv V. cbn [assoc]. rewrite Nat.eqb_refl. discriminate.
  - cbn [m_ends] in V. unfold clone_ends in V. destruct (m_request x); cbn in V; [discriminate|]. eauto.
Qed.
Lemma reach_tidy : forall ops w tr, run world0 ops = (w, tr) -> tidy w /\ below T w /\ NoDup (map fst (msgs w)).
Proof.
  intros ops w tr R. refine (run_invariant T rf (fun w _ => tidy w /\ below T w /\ NoDup (map fst (msgs w))) (fun _ => True) _ ops world0 [] w tr _ _ R).
  - intros w0 tr0 o w' r (X & Y & Z) _ E. split; [eapply tidy_step; eassumption|]. split; [eapply below_step; eassumption|eapply keys_step; eassumption].
  - split; [|split; [intros ? []|constructor]]. split; [split; [intros p []|apply NoDup_nil]|]. split; [split; [intros p []|apply NoDup_nil]|]. split; [intros m x c []|intros r c []].
  - apply Forall_forall; auto.
Qed.

(** ** Waiting means that something can still come *)
Lemma from_future : forall (w : world) f c t rc, assoc (sends w) f = Some (c, t) -> assoc (receivers w) rc = Some c -> assoc (queues w) c = Some None ->
  exists w2 tr2, run w [PollSend f; PollRecv rc] = (w2, tr2) /\ In (PollRecv rc, Got t) tr2.
Proof.
  intros w f c t rc A R Q. cbn [Channel.run Channel.step]. rewrite A.
  assert (V : receiver_alive w c = true).
  { unfold receiver_alive. apply orb_true_iff. right. apply existsb_exists. exists (rc, c). split; [now apply assoc_in|]. cbn. apply Nat.eqb_refl. }
  rewrite V. cbn [negb]. rewrite Q. cbn [receivers queues]. rewrite R. unfold update at 1. cbn [assoc]. rewrite Nat.eqb_refl.
  eexists. eexists. split; [reflexivity|]. right. left. reflexivity.
Qed.
Lemma from_sender : forall t (w : world) s c rc, assoc (senders w) s = Some c -> assoc (receivers w) rc = Some c -> assoc (queues w) c = Some None ->
  exists ops2 w2 tr2, run w ops2 = (w2, tr2) /\ In (PollRecv rc, Got t) tr2.
Proof.
  intros t w s c rc A R Q. destruct (step w (StartSend s t)) as [w1 r1] eqn:E. assert (E' := E). cbn [Channel.step] in E'. rewrite A in E'. inv E'.
  match type of E with _ = (?w1, _) => destruct (from_future w1 (fresh w) c t rc) as (w2 & tr2 & X & I) end;
    [cbn [sends assoc]; now rewrite Nat.eqb_refl|exact R|exact Q|].
  exists (StartSend s t :: [PollSend (fresh w); PollRecv rc]). cbn [Channel.run] in X |- *. rewrite E. rewrite X. eexists. eexists. split; [reflexivity|]. now right.
Qed.
Lemma from_message : forall t (w : world) m x c rc, assoc (msgs w) m = Some x -> e_send (m_ends x) = Some c -> assoc (receivers w) rc = Some c ->
  assoc (queues w) c = Some None -> exists ops2 w2 tr2, run w ops2 = (w2, tr2) /\ In (PollRecv rc, Got t) tr2.
Proof.
  intros t w m x c rc A V R Q. destruct (step w (TakeSender m)) as [w1 r1] eqn:E. assert (E' := E). cbn [Channel.step] in E'. rewrite A, V in E'. inv E'.
  match type of E with _ = (?w1, _) => destruct (from_sender t w1 (fresh w) c rc) as (ops & w2 & tr2 & X & I) end;
    [cbn [senders assoc]; now rewrite Nat.eqb_refl|exact R|exact Q|].
  exists (TakeSender m :: ops). cbn [Channel.run]. rewrite E, X. eexists. eexists. split; [reflexivity|]. now right.
Qed.

(** A receiver that is polled while nothing is there for it is told to wait exactly if there is a way to go on in which it gets something;
    otherwise it is told that there is nothing to wait for. *)
Theorem C130_waits_iff : forall (t : T) ops w tr rc, run world0 ops = (w, tr) ->
  snd (step w (PollRecv rc)) <> NoSuch -> (forall u, snd (step w (PollRecv rc)) <> Got u) ->
  (snd (step w (PollRecv rc)) = Waiting <-> exists ops2 w2 tr2 u, run w ops2 = (w2, tr2) /\ In (PollRecv rc, Got u) tr2) /\
  (snd (step w (PollRecv rc)) = Closed <-> forall ops2 w2 tr2 u, run w ops2 = (w2, tr2) -> ~ In (PollRecv rc, Got u) tr2).
Proof.
  intros t ops w tr rc R NS NG. destruct (reach_tidy ops w tr R) as ((S1 & S2 & _ & Q2) & _ & N).
  assert (P : (snd (step w (PollRecv rc)) = Waiting /\ exists ops2 w2 tr2 u, run w ops2 = (w2, tr2) /\ In (PollRecv rc, Got u) tr2) \/
              (snd (step w (PollRecv rc)) = Closed /\ forall ops2 w2 tr2 u, run w ops2 = (w2, tr2) -> ~ In (PollRecv rc, Got u) tr2)).
  { destruct (step w (PollRecv rc)) as [w' r] eqn:E. cbn [snd] in *. assert (E' := E). cbn [Channel.step] in E'.
    destruct (assoc (receivers w) rc) as [c|] eqn:A; [|inv E'; congruence].
    destruct (assoc (queues w) c) as [[u|]|] eqn:Q.
    - inv E'. now elim (NG u).
    - destruct (sender_alive w c) eqn:L; inv E'.
      + left. split; [reflexivity|]. unfold sender_alive in L. apply orb_true_iff in L as [L|L]; [apply orb_true_iff in L as [L|L]|].
        * apply existsb_exists in L as ([m x] & I & E2). cbn [snd] in E2. destruct (e_send (m_ends x)) as [c'|] eqn:V; [|discriminate E2]. cbn [is_chan] in E2. apply Nat.eqb_eq in E2. subst c'.
          destruct (from_message t w' m x c rc) as (o2 & w2 & tr2 & X & Y); [now apply assoc_nodup|assumption..|]. eauto 6.
        * apply existsb_exists in L as ([s c'] & I & E2). cbn [snd] in E2. apply Nat.eqb_eq in E2. subst c'.
          destruct (from_sender t w' s c rc) as (o2 & w2 & tr2 & X & Y); [now apply assoc_nodup|assumption..|]. eauto 6.
        * apply existsb_exists in L as ([f [c' u]] & I & E2). cbn [fst snd] in E2. apply Nat.eqb_eq in E2. subst c'.
          destruct (from_future w' f c u rc) as (w2 & tr2 & X & Y); [now apply assoc_nodup|assumption..|]. eauto 6.
      + right. split; [reflexivity|]. intros ops2 w2 tr2 u R2.
        destruct (C30_closed_means_all_senders_gone T rf ops w' tr rc w' ops2 w2 tr2 R E R2) as [_ G]. apply G.
    - apply assoc_in in A. now elim (Q2 _ _ A). }
  destruct P as [[W X]|[W X]]; rewrite W; split; split; intros H; try reflexivity; try discriminate; try exact X.
  - destruct X as (o & w2 & tr2 & u & X & I). now elim (H o w2 tr2 u X).
  - destruct H as (o & w2 & tr2 & u & H & I). now elim (X o w2 tr2 u H).
Qed.

(** ** Waiting for ever *)
Definition quiet (w : world) : Prop := senders w = [] /\ sends w = [] /\ (forall c t, assoc (queues w) c <> Some (Some t)) /\
  forall m x c, In (m, x) (msgs w) -> e_recv (m_ends x) = Some c -> e_send (m_ends x) = Some c.
Definition holds (m rc : nat) (w : world) : Prop :=
  (rc < fresh w)%nat /\ exists x c, assoc (msgs w) m = Some x /\ e_send (m_ends x) = Some c /\ assoc (receivers w) rc = Some c.
Lemma quiet_step : forall w o w' r, quiet w -> (forall m, o <> TakeSender m) -> step w o = (w', r) -> quiet w'.
Proof.
  intros w o w' r (S1 & S2 & Q & M) N H.
  destruct o as [b|m|m|m|m|s t|f|f|s|rc|rc]; cbn [Channel.step] in H; try (now elim (N m));
    try (rewrite S1 in H; cbn [assoc] in H; inv H; repeat split; assumption); try (rewrite S2 in H; cbn [assoc] in H; inv H; repeat split; assumption).
  - inv H. repeat split; cbn; auto.
    + intros c t. destruct (Nat.eqb (fresh w) c); [discriminate|apply Q].
    + intros m' x' c' [I|I] V; [inv I; exact V|eauto].
  - destruct (assoc (msgs w) m) as [x|] eqn:A; inv H; repeat split; cbn; auto. intros m' x' c' [I|I] V; [|eauto]. inv I.
    cbn [m_ends] in *. unfold clone_ends in *. destruct (m_request x); cbn in *; [discriminate V|]. apply assoc_in in A. eauto.
  - destruct (assoc (msgs w) m) as [x|] eqn:A; inv H; repeat split; cbn; auto. intros m' x' c' I V. apply in_without in I as [I _]. eauto.
  - destruct (assoc (msgs w) m) as [x|] eqn:A; [|inv H; repeat split; assumption].
    assert (G : forall rs fr, quiet (mkWorld fr (queues w) (update (msgs w) m (mkMsg (m_request x) (mkEnds (e_send (m_ends x)) None (e_flag (m_ends x) || rf)))) (senders w) (sends w) rs)).
    { intros rs fr. repeat split; cbn; auto. intros m' x' c' [I|I] V; [inv I; discriminate V|]. apply in_without in I as [I _]. eauto. }
    destruct (e_recv (m_ends x)); inv H; apply G.
  - destruct (assoc (receivers w) rc) as [c|]; [|inv H; repeat split; assumption]. destruct (assoc (queues w) c) as [[t|]|] eqn:E.
    + now elim (Q c t).
    + destruct (sender_alive w c); inv H; repeat split; assumption.
    + destruct (sender_alive w c); inv H; repeat split; assumption.
  - destruct (assoc (receivers w) rc); inv H; repeat split; assumption.
Qed.
Lemma holds_step : forall m rc w o w' r, below T w -> holds m rc w -> (forall k, o <> TakeSender k) -> o <> DropMsg m -> o <> DropRecv rc -> step w o = (w', r) -> holds m rc w'.
Proof.
  intros m rc w o w' r B (L & x & c & A & V & R) N1 N2 N3 H. assert (F := fresh_step _ _ _ _ _ _ H). assert (K : (m < fresh w)%nat) by (apply assoc_in in A; apply B in A; exact A).
  assert (Same : forall w1 : world, (fresh w <= fresh w1)%nat -> msgs w1 = msgs w -> receivers w1 = receivers w -> holds m rc w1).
  { intros w1 G1 G2 G3. split; [lia|]. exists x, c. rewrite G2, G3. auto. }
  destruct o as [b|k|k|k|k|s t|f|f|s|k|k]; cbn [Channel.step] in H; try (now elim (N1 k)).
  - inv H. cbn [fresh] in *. split; [cbn [fresh]; lia|]. exists x, c. cbn [msgs receivers assoc]. destruct (Nat.eqb_spec (S (fresh w)) m); [lia|]. auto.
  - destruct (assoc (msgs w) k) as [y|]; inv H; [|now apply Same]. split; [cbn [fresh]; lia|]. exists x, c. cbn [msgs receivers assoc]. destruct (Nat.eqb_spec (fresh w) m); [lia|]. auto.
  - destruct (assoc (msgs w) k) as [y|]; inv H; [|now apply Same]. split; [cbn [fresh]; lia|]. exists x, c. cbn [msgs receivers]. rewrite assoc_without_other by congruence. auto.
  - destruct (assoc (msgs w) k) as [y|] eqn:Y; [|inv H; now apply Same].
    assert (G : forall rs, assoc rs rc = Some c -> holds m rc (mkWorld (S (fresh w)) (queues w) (update (msgs w) k (mkMsg (m_request y) (mkEnds (e_send (m_ends y)) None (e_flag (m_ends y) || rf)))) (senders w) (sends w) rs)).
    { intros rs E. split; [cbn [fresh]; lia|]. cbn [msgs receivers]. unfold update. cbn [assoc]. destruct (Nat.eqb_spec k m) as [->|Z].
      - eexists. exists c. split; [reflexivity|]. cbn [m_ends e_send]. split; [congruence|exact E].
      - exists x, c. rewrite assoc_without_other by congruence. auto. }
    destruct (e_recv (m_ends y)); inv H; apply G; [|exact R]. cbn [assoc]. destruct (Nat.eqb_spec (fresh w) rc); [lia|exact R].
  - destruct (assoc (senders w) s); inv H; apply Same; cbn; auto.
  - destruct (assoc (sends w) f) as [[c' t]|]; [|inv H; now apply Same]. destruct (negb (receiver_alive w c')); [inv H; now apply Same|]. destruct (assoc (queues w) c') as [[?|]|]; inv H; now apply Same.
  - destruct (assoc (sends w) f); inv H; now apply Same.
  - destruct (assoc (senders w) s); inv H; now apply Same.
  - destruct (assoc (receivers w) k) as [c'|]; [|inv H; now apply Same]. destruct (assoc (queues w) c') as [[?|]|]; [inv H; now apply Same| |]; destruct (sender_alive w c'); inv H; now apply Same.
  - destruct (assoc (receivers w) k); inv H; [|now apply Same]. split; [cbn [fresh]; lia|]. exists x, c. cbn [msgs receivers]. rewrite assoc_without_other by congruence. auto.
Qed.
Lemma snoc_cut : forall A (a : list A) e b x c, a ++ [e] = b ++ x :: c -> (c = [] /\ a = b /\ e = x) \/ exists c', a = b ++ x :: c'.
Proof.
  intros A a e b x c E. destruct (rev c) as [|y l] eqn:V.
  - apply (f_equal (@rev A)) in V. rewrite rev_involutive in V. cbn in V. subst c. apply app_inj_tail in E as [-> ->]. auto.
  - right. exists (rev l). assert (C : c = rev l ++ [y]) by (rewrite <- (rev_involutive c), V; reflexivity). rewrite C in E.
    change (b ++ x :: rev l ++ [y]) with (b ++ (x :: rev l) ++ [y]) in E. rewrite app_assoc in E. now apply app_inj_tail in E as [-> _].
Qed.

(** Whoever takes the receiver of a message that lives on waits in vain, however often it asks and whatever else happens, if nobody takes a sender: the message
    holds one itself. *)
Theorem C130_hangs : forall ops w tr m rc before r after, run world0 ops = (w, tr) ->
  (forall k, ~ In (TakeSender k) ops) -> ~ In (DropMsg m) ops -> ~ In (DropRecv rc) ops ->
  tr = before ++ (PollRecv rc, r) :: after -> In (TakeReceiver m, Handle rc) before -> r = Waiting.
Proof.
  intros ops w tr m rc before r after R N1 N2 N3 E I.
  pose (J := fun (w : world) (tr : list (op * res)) => below T w /\ quiet w /\ (In (TakeReceiver m, Handle rc) tr -> holds m rc w) /\
    forall b r a, tr = b ++ (PollRecv rc, r) :: a -> In (TakeReceiver m, Handle rc) b -> r = Waiting).
  assert (G : J w ([] ++ tr)).
  { refine (run_invariant T rf J (fun o => (forall k, o <> TakeSender k) /\ o <> DropMsg m /\ o <> DropRecv rc) _ ops world0 [] w tr _ _ R).
    - intros w0 tr0 o w1 r1 (B & Q & H & P) (O1 & O2 & O3) S. assert (B' := below_step _ _ _ _ _ _ B S). split; [exact B'|].
      split; [eapply quiet_step; eassumption|]. split.
      + intros X. apply in_app_iff in X as [X|[X|[]]]; [exact (holds_step m rc w0 o w1 r1 B (H X) O1 O2 O3 S)|]. inv X.
        cbn [Channel.step] in S. destruct (assoc (msgs w0) m) as [x|] eqn:A; [|discriminate S]. destruct (e_recv (m_ends x)) as [c|] eqn:V; [|discriminate S]. inv S.
        destruct Q as (_ & _ & _ & M). split; [cbn [fresh]; lia|]. eexists. exists c. cbn [msgs receivers]. unfold update. cbn [assoc]. rewrite !Nat.eqb_refl. split; [reflexivity|].
        cbn [m_ends e_send]. apply assoc_in in A. split; [eauto|reflexivity].
      + intros b r0 a X Y. apply snoc_cut in X as [(-> & -> & X)|(a' & ->)]; [|eapply P; [reflexivity|exact Y]]. inv X.
        destruct (H Y) as (_ & x & c & A & V & RC). destruct Q as (_ & _ & Q & _). cbn [Channel.step] in S. rewrite RC in S.
        assert (L : sender_alive w0 c = true).
        { unfold sender_alive. apply orb_true_iff. left. apply orb_true_iff. left. apply existsb_exists. exists (m, x). split; [now apply assoc_in|]. cbn [snd]. rewrite V. cbn. apply Nat.eqb_refl. }
        rewrite L in S. destruct (assoc (queues w0) c) as [[t|]|] eqn:QQ; [now elim (Q c t)| |]; now inv S.
    - split; [intros ? []|]. split; [repeat split; cbn; try discriminate; intros ? ? ? []|]. split; [intros []|]. intros b r0 a X. destruct b; discriminate X.
    - apply Forall_forall. intros o O. split; [intros k ->; now elim (N1 k)|]. split; intros ->; contradiction. }
  destruct G as (_ & _ & _ & P). exact (P before r after E I).
Qed.
End Wait.
Print Assumptions C130_waits_iff.
Print Assumptions C130_hangs.

(** False: that a receiver gets an answer sooner or later.  A response arrives that has no trailers, its reader keeps it and asks for them. *)
Theorem C130_answered_refuted : exists ops : list (op str), forall n r, In r (map snd (snd (@run str false (fst (@run str false world0 ops)) (repeat (PollRecv 2) n)))) -> r = Waiting.
Proof.
  exists [NewMsg false; TakeReceiver 1]. intros n r. induction n as [|n IH]; [intros []|]. cbn [repeat].
  set (w := fst (@run str false world0 [NewMsg false; TakeReceiver 1])) in *. cbn [Channel.run].
  assert (E : @step str false w (PollRecv 2) = (w, Waiting)) by reflexivity. rewrite E.
  destruct (@run str false w (repeat (PollRecv 2) n)) as [w2 tr2]. cbn [snd map] in *. intros [<-|I]; [reflexivity|auto].
Qed.
Print Assumptions C130_answered_refuted.

(** Two clones of a response and a request; the receiver of one clone waits, until the last holder of a sender is gone. *)
Example C130_example :
  map snd (snd (@run str true world0 [NewMsg false; CloneMsg 1; NewMsg true; TakeReceiver 2; PollRecv 5; DropMsg 1; PollRecv 5; PollRecv 5; DropMsg 2; PollRecv 5])) =
  [Handle 1; Handle 2; Handle 4; Handle 5; Waiting; Done; Waiting; Waiting; Done; Closed].
Proof. reflexivity. Qed.
