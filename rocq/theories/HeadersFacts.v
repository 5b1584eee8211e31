(** Lemmas about the header map model. *)
From Verif Require Import Base BaseFacts Headers.
From Coq Require Import ZifyBool ZifyNat ZifyN.

Section HM.
  Context {V : Type}.
  Implicit Types (m : hmap V) (k : str).

  Lemma hm_get_insert_same : forall m k v, hm_get (hm_insert m k v) k = Some v.
  Proof.
    induction m as [|[k' v'] m IH]; intros k v; cbn [hm_insert hm_get].
    - rewrite seqb_refl. reflexivity.
    - destruct (seqb k k') eqn:E; cbn [hm_get]; rewrite E; auto.
  Qed.
  Lemma hm_get_insert_other : forall m k k' v, k' <> k -> hm_get (hm_insert m k v) k' = hm_get m k'.
  Proof.
    induction m as [|[k1 v1] m IH]; intros k k' v H; cbn [hm_insert hm_get].
    - apply seqb_neq in H. rewrite H. reflexivity.
    - destruct (seqb k k1) eqn:E; cbn [hm_get]; destruct (seqb k' k1) eqn:E'; auto.
      apply seqb_eq in E, E'. congruence.
  Qed.
  Lemma hm_get_in : forall m k v, hm_get m k = Some v -> In (k, v) m.
  Proof.
    induction m as [|[k1 v1] m IH]; intros k v H; cbn [hm_get] in H; [discriminate|].
    destruct (seqb k k1) eqn:E; [|right; auto]. apply seqb_eq in E. inv H. left. reflexivity.
  Qed.
  Lemma hm_get_none : forall m k, hm_get m k = None <-> ~ In k (map fst m).
  Proof.
    induction m as [|[k1 v1] m IH]; intros k; cbn [hm_get map fst In]; [tauto|].
    destruct (seqb k k1) eqn:E.
    - apply seqb_eq in E. subst. split; [discriminate|]. intros H. exfalso. auto.
    - apply seqb_neq in E. rewrite IH. split; intros H; [intros [A|A]; auto|]. intros A. auto.
  Qed.
  Lemma hm_in_get : forall m k v, NoDup (map fst m) -> In (k, v) m -> hm_get m k = Some v.
  Proof.
    induction m as [|[k1 v1] m IH]; intros k v D H; cbn [In map fst hm_get] in *; [destruct H|].
    inv D. destruct H as [H|H].
    - inv H. rewrite seqb_refl. reflexivity.
    - destruct (seqb k k1) eqn:E; [|auto]. apply seqb_eq in E. subst.
      exfalso. match goal with HH : ~ In _ _ |- _ => apply HH end. change k1 with (fst (k1, v)). apply in_map. assumption.
  Qed.
  Lemma hm_insert_keys : forall m k v,
    map fst (hm_insert m k v) = if existsb (seqb k) (map fst m) then map fst m else map fst m ++ [k].
  Proof.
    induction m as [|[k1 v1] m IH]; intros k v; cbn [hm_insert map fst existsb app]; [reflexivity|].
    destruct (seqb k k1) eqn:E; cbn [map fst orb]; [reflexivity|]. rewrite IH.
    destruct (existsb (seqb k) (map fst m)); reflexivity.
  Qed.
  Lemma existsb_seqb_in : forall k l, existsb (seqb k) l = true <-> In k l.
  Proof.
    intros k l. rewrite existsb_exists. split.
    - intros (x & H & E). apply seqb_eq in E. subst. exact H.
    - intros H. exists k. rewrite seqb_refl. auto.
  Qed.
  Lemma hm_insert_nodup : forall m k v, NoDup (map fst m) -> NoDup (map fst (hm_insert m k v)).
  Proof.
    intros m k v H. rewrite hm_insert_keys. destruct (existsb _ _) eqn:E; [exact H|].
    apply NoDup_Add with (a := k) (l := map fst m).
    - rewrite <- (app_nil_r (map fst m)) at 1. apply Add_app.
    - split; [exact H|]. intros A. apply existsb_seqb_in in A. congruence.
  Qed.
  Lemma hm_remove_incl : forall m k x, In x (hm_remove m k) -> In x m.
  Proof.
    induction m as [|[k1 v1] m IH]; intros k x H; cbn [hm_remove] in H; [destruct H|].
    destruct (seqb k k1); [right; exact H|]. destruct H as [H|H]; [left; exact H|right; eauto].
  Qed.
  Lemma hm_remove_nodup : forall m k, NoDup (map fst m) -> NoDup (map fst (hm_remove m k)).
  Proof.
    induction m as [|[k1 v1] m IH]; intros k H; cbn [hm_remove map fst] in *; [exact H|].
    inv H. destruct (seqb k k1); [assumption|]. cbn [map fst]. constructor; [|auto].
    intros A. apply in_map_iff in A. destruct A as ((k2 & v2) & E & A). cbn in E. subst.
    apply hm_remove_incl in A. match goal with HH : ~ In _ _ |- _ => apply HH end. change k1 with (fst (k1, v2)). apply in_map. assumption.
  Qed.
  Lemma hm_get_remove_same : forall m k, NoDup (map fst m) -> hm_get (hm_remove m k) k = None.
  Proof.
    induction m as [|[k1 v1] m IH]; intros k H; cbn [hm_remove map fst] in *; [reflexivity|].
    inv H. destruct (seqb k k1) eqn:E.
    - apply seqb_eq in E. subst. apply hm_get_none. assumption.
    - cbn [hm_get]. rewrite E. auto.
  Qed.
  Lemma hm_get_remove_other : forall m k k', k' <> k -> hm_get (hm_remove m k) k' = hm_get m k'.
  Proof.
    induction m as [|[k1 v1] m IH]; intros k k' H; cbn [hm_remove]; [reflexivity|].
    destruct (seqb k k1) eqn:E; cbn [hm_get].
    - apply seqb_eq in E. subst. apply seqb_neq in H. rewrite H. reflexivity.
    - destruct (seqb k' k1); auto.
  Qed.
  Lemma hm_insert_in : forall m k v x, In x (hm_insert m k v) -> x = (k, v) \/ In x m.
  Proof.
    induction m as [|[k1 v1] m IH]; intros k v x H; cbn [hm_insert] in H.
    - destruct H as [H|[]]; auto.
    - destruct (seqb k k1) eqn:E; destruct H as [H|H].
      + apply seqb_eq in E. subst. auto.
      + right. right. exact H.
      + right. left. exact H.
      + destruct (IH k v x H) as [A|A]; auto. right. right. exact A.
  Qed.
  Lemma hm_get_perm : forall m m' k, Permutation m m' -> NoDup (map fst m) -> hm_get m k = hm_get m' k.
  Proof.
    intros m m' k P D. assert (D' : NoDup (map fst m')) by (eapply Permutation_NoDup; [apply Permutation_map, P|exact D]).
    destruct (hm_get m k) as [v|] eqn:E.
    - symmetry. apply hm_in_get; [exact D'|]. eapply Permutation_in; [exact P|]. apply hm_get_in, E.
    - symmetry. apply hm_get_none. apply hm_get_none in E. intros A. apply E.
      eapply Permutation_in; [apply Permutation_sym, Permutation_map, P|exact A].
  Qed.
End HM.

Lemma name_into_cases : forall s,
  (is_ascii s = true /\ name_into s = Ok (to_lower s)) \/ (is_ascii s = false /\ name_into s = Panic).
Proof. intros s. unfold name_into, name_from_str. destruct (is_ascii s); auto. Qed.

Lemma step_nodup : forall h o, NoDup (map fst h) -> NoDup (map fst (fst (step h o))).
Proof.
  intros h o D. destruct o as [n t|n t|n|n|n f]; cbn [step];
    (destruct (name_into_cases n) as [[_ ->]|[_ ->]]; [|exact D]).
  - unfold h_insert. destruct (to_header_values t); cbn [fst]; auto using hm_insert_nodup.
  - unfold h_append, h_insert. destruct (hm_get h (to_lower n)); destruct (to_header_values t); cbn [fst]; auto using hm_insert_nodup.
  - cbn. apply hm_remove_nodup, D.
  - exact D.
  - cbn [fst]. unfold h_edit. destruct (hm_get h (to_lower n)); auto using hm_insert_nodup.
Qed.

(** ** The values iterator *)
Definition remaining (it : values_iter) : list str :=
  (match it_slot it with Some vs => skipn (it_cursor it) vs | None => [] end)
  ++ (match it_inner it with Some l => concat l | None => [] end).

Lemma skipn_nth : forall (A : Type) (l : list A) n,
  skipn n l = match nth_error l n with Some x => x :: skipn (S n) l | None => [] end.
Proof.
  induction l as [|a l IH]; intros [|n]; cbn [skipn nth_error]; auto.
  rewrite IH. destruct (nth_error l n); auto.
Qed.

Lemma next_entry_spec : forall l,
  match concat l with
  | [] => exists it, next_entry l = (None, it) /\ remaining it = []
  | x :: rest => exists it, next_entry l = (Some x, it) /\ remaining it = rest
  end.
Proof.
  induction l as [|vs l IH]; cbn [concat next_entry].
  - eexists. split; reflexivity.
  - destruct vs as [|v vs]; cbn [nth_error app]; [exact IH|].
    eexists. split; [reflexivity|]. unfold remaining. cbn [it_slot it_inner it_cursor skipn]. reflexivity.
Qed.

Lemma advance_spec : forall inner c,
  match (match inner with Some l => concat l | None => [] end) with
  | [] => exists it, advance inner c = (None, it) /\ remaining it = []
  | x :: rest => exists it, advance inner c = (Some x, it) /\ remaining it = rest
  end.
Proof. intros [l|] c; cbn [advance]; [apply next_entry_spec|]. eexists. split; reflexivity. Qed.

Lemma next_spec : forall it,
  match remaining it with
  | [] => exists it', next it = (None, it') /\ remaining it' = []
  | x :: rest => exists it', next it = (Some x, it') /\ remaining it' = rest
  end.
Proof.
  intros [inner slot cur]. unfold remaining at 1, next. cbn [it_slot it_inner it_cursor].
  destruct slot as [vs|].
  - rewrite skipn_nth. destruct (nth_error vs cur) as [x|] eqn:E; cbn [app].
    + eexists. split; [reflexivity|]. reflexivity.
    + apply advance_spec.
  - cbn [app]. apply advance_spec.
Qed.

Lemma collect_spec : forall fuel it, (length (remaining it) < fuel)%nat -> collect fuel it = Some (remaining it).
Proof.
  induction fuel as [|f IH]; intros it H; [lia|]. cbn [collect].
  assert (A := next_spec it). destruct (remaining it) as [|x rest] eqn:E.
  - destruct A as (it' & -> & _). reflexivity.
  - destruct A as (it' & -> & R). rewrite IH; [rewrite R; reflexivity|]. rewrite R. cbn [length] in H. lia.
Qed.
