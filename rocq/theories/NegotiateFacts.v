(** Sorting proposals by weight. *)
From Verif Require Import Base BaseFacts Headers Typed TypedFacts Float FloatFacts Negotiate.
From Coq Require Import ZifyBool ZifyNat ZifyN Permutation Sorted.

(** The order of weights: none at all, then 0 up to 1. *)
Definition rank (w : option float) : N := match w with Some (Fin _ v) => v + 1 | _ => 0 end.

(** The weights a proposal can have: none, or a number between 0 and 1 with positive sign. *)
Definition good_weight (w : option float) : Prop :=
  match w with None => True | Some x => exists v, x = Fin false v /\ v <= 2 ^ 149 end.
Lemma weight_ok_spec : forall w, weight_ok w = true <-> good_weight w.
Proof.
  intros [x|]; [|cbn; tauto]. unfold weight_ok, good_weight, one. change (unit f32) with 149. generalize (2 ^ 149) as o. intros o.
  destruct x as [n|n|n v]; cbn [sign_positive].
  - unfold fle. cbn [fcmp]. rewrite andb_false_r. split; [discriminate|]. intros (v & E & _). discriminate.
  - unfold fle. cbn [fcmp]. destruct n; cbn [negb andb]; (split; [discriminate|]); intros (v & E & _); discriminate.
  - unfold fle. destruct n; cbn [negb andb fcmp].
    + split; [discriminate|]. intros (v' & E & _). discriminate.
    + destruct (N.compare_spec v o) as [H|H|H]; split; try discriminate; intros X.
      * exists v. split; [reflexivity|lia].
      * reflexivity.
      * exists v. split; [reflexivity|lia].
      * reflexivity.
      * destruct X as (v' & E & L). inv E. lia.
Qed.

Lemma sort_cmp_rank : forall i a j b, good_weight a -> good_weight b ->
  sort_cmp (i, a) (j, b) = match N.compare (rank b) (rank a) with Eq => N.compare j i | o => o end.
Proof.
  intros i a j b A B. unfold sort_cmp. cbn [fst snd]. unfold weight_cmp.
  destruct a as [a|], b as [b|]; cbn [good_weight] in *.
  - destruct A as (v & -> & _), B as (w & -> & _). cbn [fcmp rank].
    destruct (N.compare_spec w v), (N.compare_spec (w + 1) (v + 1)); try lia; reflexivity.
  - destruct A as (v & -> & _). cbn [rank]. destruct (N.compare_spec 0 (v + 1)); try lia; reflexivity.
  - destruct B as (v & -> & _). cbn [rank]. destruct (N.compare_spec (v + 1) 0); try lia; reflexivity.
  - cbn [rank N.compare]. reflexivity.
Qed.

Section Enumerate.
  Context {T : Type}.
  Lemma in_enumerate : forall (l : list T) i j x, In (j, x) (enumerate i l) <-> i <= j /\ nth_error l (N.to_nat (j - i)) = Some x.
  Proof.
    induction l as [|y l IH]; intros i j x; cbn [enumerate In].
    - split; [tauto|]. intros [_ H]. destruct (N.to_nat (j - i)); discriminate.
    - rewrite IH. destruct (N.eq_dec i j) as [->|D].
      + rewrite N.sub_diag. cbn [N.to_nat nth_error]. split.
        * intros [E|[L _]]; [inv E; split; [lia|reflexivity]|lia].
        * intros [_ E]. inv E. now left.
      + split.
        * intros [E|[L E]]; [inv E; lia|]. split; [lia|]. replace (N.to_nat (j - i)) with (S (N.to_nat (j - N.succ i))) by lia. exact E.
        * intros [L E]. right. split; [lia|]. replace (N.to_nat (j - i)) with (S (N.to_nat (j - N.succ i))) in E by lia. exact E.
  Qed.
  Lemma enumerate_nodup : forall (l : list T) i, NoDup (map fst (enumerate i l)) /\ Forall (fun a => i <= fst a) (enumerate i l).
  Proof.
    induction l as [|y l IH]; intros i; cbn [enumerate map]; [split; constructor|].
    destruct (IH (N.succ i)) as [N1 F]. split.
    - constructor; [|exact N1]. intros I. apply in_map_iff in I as ([j x] & E & I). cbn in E. subst.
      rewrite Forall_forall in F. specialize (F _ I). cbn in F. lia.
    - constructor; [cbn; lia|]. eapply Forall_impl; [|exact F]. intros a A. cbn in A. lia.
  Qed.
  Lemma enumerate_snd : forall (l : list T) i, map snd (enumerate i l) = l.
  Proof. induction l as [|x l IH]; intros i; [reflexivity|]. cbn [enumerate map snd]. now rewrite IH. Qed.
End Enumerate.

Section Sort.
  Context {T : Type} (weight : T -> option float).
  Definition good (l : list T) : Prop := Forall (fun x => good_weight (weight x)) l.
  (** [a] comes before [b]: heavier, or as heavy and declared later. *)
  Definition before (a b : N * T) : Prop :=
    rank (weight (snd b)) < rank (weight (snd a)) \/
    (rank (weight (snd a)) = rank (weight (snd b)) /\ fst b < fst a).
  Definition good_items (l : list (N * T)) : Prop := Forall (fun a => good_weight (weight (snd a))) l.

  Lemma item_cmp_lt : forall a b, good_weight (weight (snd a)) -> good_weight (weight (snd b)) ->
    (item_cmp weight a b = Lt <-> before a b) /\ (item_cmp weight a b = Eq -> fst a = fst b).
  Proof.
    intros [i x] [j y] A B. unfold item_cmp, before. cbn [fst snd] in *. rewrite sort_cmp_rank by assumption.
    destruct (N.compare_spec (rank (weight y)) (rank (weight x))) as [E|E|E];
      [destruct (N.compare_spec j i) as [F|F|F]|..]; split; try split; intros; try discriminate; try lia; reflexivity.
  Qed.
  Lemma item_cmp_gt : forall a b, good_weight (weight (snd a)) -> good_weight (weight (snd b)) ->
    item_cmp weight a b = Gt -> before b a.
  Proof.
    intros [i x] [j y] A B. unfold item_cmp, before. cbn [fst snd] in *. rewrite sort_cmp_rank by assumption.
    destruct (N.compare_spec (rank (weight y)) (rank (weight x))) as [E|E|E];
      [destruct (N.compare_spec j i) as [F|F|F]|..]; intros; try discriminate; lia.
  Qed.
  Lemma before_trans : forall a b c, before a b -> before b c -> before a c.
  Proof. unfold before. lia. Qed.
  Lemma before_irrefl : forall a, ~ before a a.
  Proof. unfold before. lia. Qed.

  Lemma enumerate_good : forall l i, good l -> good_items (enumerate i l).
  Proof.
    intros l i H. apply Forall_forall. intros [j x] I. cbn [snd]. apply in_enumerate in I as [_ I]. apply nth_error_In in I.
    unfold good in H. rewrite Forall_forall in H. now apply H.
  Qed.

  Lemma insert_perm : forall a l, Permutation (insert_item weight a l) (a :: l).
  Proof.
    intros a l. induction l as [|b l IH]; [apply Permutation_refl|]. cbn [insert_item].
    destruct (item_cmp weight a b); try apply Permutation_refl.
    eapply Permutation_trans; [apply perm_skip, IH|apply perm_swap].
  Qed.
  Lemma sort_perm : forall l, Permutation (sort_items weight l) l.
  Proof.
    induction l as [|a l IH]; [apply perm_nil|]. cbn [sort_items].
    eapply Permutation_trans; [apply insert_perm|]. now apply perm_skip.
  Qed.
  Lemma insert_sorted : forall a l, good_weight (weight (snd a)) -> good_items l -> ~ In (fst a) (map fst l) ->
    StronglySorted before l -> StronglySorted before (insert_item weight a l).
  Proof.
    intros a l A G Nn S. induction S as [|b l S IH F]; cbn [insert_item]; [repeat constructor|].
    inv G. destruct (item_cmp_lt a b A H1) as [L E]. cbn [map In] in Nn.
    destruct (item_cmp weight a b) eqn:C.
    - elim Nn. left. symmetry. now apply E.
    - constructor; [now constructor|]. assert (B : before a b) by now apply L. constructor; [exact B|].
      eapply Forall_impl; [|exact F]. intros c Hc. now apply (before_trans a b c).
    - constructor; [apply IH; [assumption|tauto]|]. rewrite Forall_forall in *. intros c Hc.
      apply (Permutation_in _ (insert_perm a l)) in Hc as [<-|Hc]; [|now apply F]. now apply item_cmp_gt.
  Qed.
  Lemma sort_sorted : forall l, good_items l -> NoDup (map fst l) -> StronglySorted before (sort_items weight l).
  Proof.
    induction l as [|a l IH]; intros G D; cbn [sort_items]; [constructor|]. inv G. inv D. apply insert_sorted; [assumption| | |now apply IH].
    - apply Forall_forall. intros b Hb. apply (Permutation_in _ (sort_perm l)) in Hb. rewrite Forall_forall in H2. now apply H2.
    - intros I. apply H3. apply in_map_iff in I as (b & E & Hb). apply (Permutation_in _ (sort_perm l)) in Hb.
      apply in_map_iff. eauto.
  Qed.

  Lemma sorted_unique : forall l l', StronglySorted before l -> StronglySorted before l' -> Permutation l l' -> l = l'.
  Proof.
    induction l as [|a l IH]; intros l' S S' P.
    - apply Permutation_nil in P. now subst.
    - destruct l' as [|b l']; [apply Permutation_sym, Permutation_nil in P; discriminate|]. inv S. inv S'.
      assert (E : a = b).
      { assert (I : In a (b :: l')) by (eapply Permutation_in; [exact P|now left]).
        assert (J : In b (a :: l)) by (eapply Permutation_in; [apply Permutation_sym, P|now left]).
        destruct I as [<-|I]; [reflexivity|]. destruct J as [->|J]; [reflexivity|]. exfalso.
        rewrite Forall_forall in H2, H4. apply (before_irrefl a). apply (before_trans a b a); [now apply H2|now apply H4]. }
      subst b. f_equal. apply IH; try assumption. now apply Permutation_cons_inv in P.
  Qed.
End Sort.

(** [y], declared at place [j], is no better a choice than [x], declared at place [i]. *)
Definition no_better (j : nat) (y : option float) (i : nat) (x : option float) : Prop :=
  rank y < rank x \/ rank y = rank x /\ (j <= i)%nat.

Section First.
  Context {T : Type} (weight : T -> option float).

  Lemma sort_spec : forall l, good weight l ->
    Permutation (sort_items weight (enumerate 0 l)) (enumerate 0 l) /\ StronglySorted (before weight) (sort_items weight (enumerate 0 l)).
  Proof.
    intros l G. split; [apply sort_perm|]. apply sort_sorted; [now apply enumerate_good|exact (proj1 (enumerate_nodup l 0))].
  Qed.
  Lemma in_sort : forall l x, In x (sort_by_weight weight l) <-> In x l.
  Proof.
    intros l x. unfold sort_by_weight. rewrite <- (enumerate_snd l 0) at 2. split; intros H.
    - eapply Permutation_in; [apply Permutation_map, sort_perm|exact H].
    - eapply Permutation_in; [apply Permutation_sym, Permutation_map, sort_perm|exact H].
  Qed.
  Lemma find_map_snd : forall (P : T -> bool) (l : list (N * T)) x, find P (map snd l) = Some x ->
    exists pre i post, l = pre ++ (i, x) :: post /\ P x = true /\ Forall (fun a => P (snd a) = false) pre.
  Proof.
    intros P l x. induction l as [|[i a] l IH]; [discriminate|]. cbn [map snd find]. destruct (P a) eqn:E.
    - intros X. inv X. exists [], i, l. auto.
    - intros X. destruct (IH X) as (pre & j & post & -> & Px & F). exists ((i, a) :: pre), j, post. auto.
  Qed.
  Lemma first_in_sort : forall (P : T -> bool) l x, good weight l -> find P (sort_by_weight weight l) = Some x ->
    exists i, nth_error l i = Some x /\ P x = true /\
      forall j y, nth_error l j = Some y -> P y = true -> no_better j (weight y) i (weight x).
  Proof.
    intros P l x G F. unfold sort_by_weight in F. destruct (sort_spec l G) as [Pm S].
    apply find_map_snd in F as (pre & i & post & E & Px & Pre). exists (N.to_nat i).
    assert (I : In (i, x) (enumerate 0 l)) by (eapply Permutation_in; [exact Pm|rewrite E; apply in_or_app; right; now left]).
    apply in_enumerate in I as [_ I]. rewrite N.sub_0_r in I. split; [exact I|]. split; [exact Px|].
    intros j y J Py. assert (K : In (N.of_nat j, y) (enumerate 0 l)).
    { apply in_enumerate. split; [lia|]. rewrite N.sub_0_r. now rewrite Nat2N.id. }
    apply (Permutation_in _ (Permutation_sym Pm)) in K. rewrite E in K, S. apply in_app_or in K as [K|[K|K]].
    - rewrite Forall_forall in Pre. specialize (Pre _ K). cbn in Pre. congruence.
    - inv K. right. lia.
    - clear - S K. induction pre as [|a pre IH]; cbn [app] in S; inv S; [|now apply IH].
      rewrite Forall_forall in H2. specialize (H2 _ K). unfold before, no_better in *. cbn [fst snd] in H2. lia.
  Qed.
  Lemma find_sort_none : forall (P : T -> bool) l, find P (sort_by_weight weight l) = None <-> forall x, In x l -> P x = false.
  Proof.
    intros P l. split; intros H.
    - intros x I. apply (find_none _ _ H). now apply in_sort.
    - destruct (find P (sort_by_weight weight l)) as [x|] eqn:E; [|reflexivity]. apply find_some in E as [I Px].
      apply (proj1 (in_sort l x)) in I. rewrite (H _ I) in Px. discriminate.
  Qed.
End First.

(** ** reading lists back *)
Section Lists.
  Context {A : Type} (parse : str -> outcome (option A)).
  Lemma skipping_ext : forall ps ps', map trim ps = map trim ps' -> read_skipping parse ps = read_skipping parse ps'.
  Proof.
    induction ps as [|p ps IH]; intros [|q qs] H; try discriminate; [reflexivity|]. cbn [map] in H. injection H as H1 H2.
    cbn [read_skipping]. rewrite H1, (IH qs H2). reflexivity.
  Qed.
  Lemma skipping_shown : forall (B : Type) (show : B -> str) (back : B -> A) l (w : bool),
    Forall (fun x => clean (show x) = true /\ show x <> [] /\ show x <> lit "*" /\ parse (show x) = Ok (Some (back x))) l ->
    read_skipping parse (comma_parts [list_value (lit "*") (map show l) w]) = Ok (map back l, w).
  Proof.
    intros B show back l w H.
    set (ts := map show l ++ (if w then [lit "*"] else [])).
    assert (V : list_value (lit "*") (map show l) w = join (lit ", ") ts).
    { unfold list_value, ts. destruct w; [|now rewrite app_nil_r]. destruct H as [|x l (_ & N & _) H]; [reflexivity|].
      destruct (join (lit ", ") (map show (x :: l))) eqn:E.
      - exfalso. cbn [map join] in E. apply N. destruct (map show l); [exact E|now apply app_eq_nil in E].
      - rewrite <- E. clear. cbn [map]. generalize (show x) as y. induction (map show l) as [|z r IH]; intros y; [reflexivity|].
        change (join (lit ", ") (y :: z :: r)) with (y ++ lit ", " ++ join (lit ", ") (z :: r)). rewrite <- !app_assoc, IH. reflexivity. }
    rewrite V. assert (X : read_skipping parse ts = Ok (map back l, w)).
    { unfold ts. clear V ts. induction H as [|x l (C & N & S & P) H IH].
      - destruct w; reflexivity.
      - cbn [map app read_skipping]. unfold clean in C. apply andb_true_iff in C as [_ C]. rewrite (trim_id _ C).
        destruct (seqb_spec (show x) []); [contradiction|]. destruct (seqb_spec (show x) (lit "*")); [contradiction|].
        rewrite P, IH. reflexivity. }
    unfold comma_parts. cbn [flat_map]. rewrite app_nil_r. destruct ts as [|t r] eqn:E.
    - cbn [join]. rewrite <- X. reflexivity.
    - rewrite <- X. apply skipping_ext. rewrite pieces_text; [| discriminate|].
      + symmetry. rewrite <- E. unfold ts. rewrite map_app. f_equal; [|now destruct w]. rewrite map_map. apply map_ext_in.
        intros x I. rewrite Forall_forall in H. destruct (H x I) as (C & _). unfold clean in C. apply andb_true_iff in C as [_ C].
        now apply trim_id.
      + rewrite <- E. unfold ts. rewrite forallb_app. apply andb_true_iff. split; [|now destruct w]. apply forallb_forall.
        intros y I. apply in_map_iff in I as (x & <- & I). rewrite Forall_forall in H. now destruct (H x I).
  Qed.
End Lists.
