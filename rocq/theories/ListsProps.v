(** C85, C86: list headers as values, and negotiating more than once. *)
From Verif Require Import Base BaseFacts Headers HeadersFacts Typed TypedFacts Mime MimeFacts Float FloatFacts Method Negotiate NegotiateFacts NegotiateProps Other OtherProps Lists Conditional Cache ConditionalProps CacheProps ExactProps.
From Coq Require Import ZifyBool ZifyNat ZifyN Permutation Sorted.

(** ** C85 *)
Section Iteration.
  Context {A : Type}.
  (** Calling [next] over and over gives the entries in order, then [None] for ever; before each call the size hint
      is the number of entries still to come. *)
  Theorem C85_iteration : forall (c : container A) n,
    let (got, rest) := it_take n (c_iter c) in
    length got = n /\
    (forall i, (i < n)%nat -> nth_error got i = Some (nth_error (fst c) i)) /\
    it_size_hint rest = (length (fst c) - n, Some (length (fst c) - n))%nat.
  Proof.
    intros [l w] n. unfold c_iter. cbn [fst]. revert l. induction n as [|n IH]; intros l.
    - cbn [it_take]. split; [reflexivity|]. split; [intros i L; lia|]. unfold it_size_hint. now rewrite Nat.sub_0_r.
    - cbn [it_take]. destruct l as [|x l]; cbn [it_next].
      + specialize (IH []). destruct (it_take n []) as [got rest]. destruct IH as (L & G & S). split; [cbn [length]; lia|]. split; [|exact S].
        intros [|i] I; [reflexivity|]. cbn [nth_error]. rewrite G by lia. now destruct i.
      + specialize (IH l). destruct (it_take n l) as [got rest]. destruct IH as (L & G & S). split; [cbn [length]; lia|]. split; [|exact S].
        intros [|i] I; [reflexivity|]. cbn [nth_error]. apply G. lia.
  Qed.

  (** What has become of the entry pushed as number [i]; the history is read backwards. *)
  Fixpoint pushes (rh : list (op A)) : nat :=
    match rh with [] => O | Push _ :: h => S (pushes h) | _ :: h => pushes h end.
  Fixpoint entry (i : nat) (rh : list (op A)) : option A :=
    match rh with
    | [] => None
    | Push x :: h => if Nat.eqb i (pushes h) then Some x else entry i h
    | SetWildcard _ :: h => entry i h
    | Update fs :: h => match entry i h with
                        | Some x => Some (match nth_error fs i with Some f => f x | None => x end)
                        | None => None
                        end
    end.
  Fixpoint last_flag (rh : list (op A)) : bool :=
    match rh with [] => false | SetWildcard b :: _ => b | _ :: h => last_flag h end.

  Lemma update_spec : forall fs (d r : list A),
    fold_left (fun it f => im_next f it) fs (d, r) =
    (d ++ map (fun p => fst p (snd p)) (combine fs r), skipn (length fs) r).
  Proof.
    induction fs as [|f fs IH]; intros d r; cbn [fold_left].
    - cbn [combine map length skipn]. now rewrite app_nil_r.
    - destruct r as [|x r]; unfold im_next at 2; cbn [fst snd].
      + rewrite IH. cbn [combine map]. destruct fs; cbn [combine map]; now rewrite skipn_nil.
      + rewrite IH. cbn [combine map length skipn fst snd]. now rewrite <- app_assoc.
  Qed.
  Lemma update_nth : forall fs (l : list A) i,
    nth_error (map (fun p => fst p (snd p)) (combine fs l) ++ skipn (length fs) l) i =
    match nth_error l i with Some x => Some (match nth_error fs i with Some f => f x | None => x end) | None => None end.
  Proof.
    induction fs as [|f fs IH]; intros l i.
    - cbn [combine map length skipn app]. destruct (nth_error l i) eqn:E; [|reflexivity]. now destruct i.
    - destruct l as [|x l].
      + cbn [combine map app length skipn]. now destruct i.
      + cbn [combine map app length skipn fst snd]. destruct i as [|i]; [reflexivity|]. cbn [nth_error]. apply IH.
  Qed.

  (** After any history of calls, starting from [new()]: as many entries as were pushed, the [i]-th of them the [i]-th
      value pushed as changed in place since, and the wildcard flag as last set. *)
  Theorem C85_history : forall (ops : list (op A)),
    length (c_iter (run ops)) = pushes (rev ops) /\
    (forall i, nth_error (c_iter (run ops)) i = entry i (rev ops)) /\
    c_wildcard (run ops) = last_flag (rev ops).
  Proof.
    intros ops. induction ops as [|o ops IH] using rev_ind.
    - split; [reflexivity|]. split; [|reflexivity]. now intros [|i].
    - unfold run. rewrite fold_left_app, rev_app_distr. cbn [fold_left rev app]. fold (run ops).
      destruct (run ops) as [l w]. unfold c_iter, c_wildcard in *. cbn [fst snd] in *. destruct IH as (L & E & W).
      destruct o as [x|b|fs]; cbn [do_op pushes entry last_flag].
      + unfold c_push. cbn [fst snd]. split; [rewrite app_length; cbn [length]; lia|]. split; [|exact W]. intros i.
        destruct (Nat.eqb_spec i (pushes (rev ops))) as [->|D].
        * rewrite <- L, nth_error_app2 by lia. now rewrite Nat.sub_diag.
        * destruct (Nat.lt_ge_cases i (length l)) as [H|H]; [now rewrite nth_error_app1|].
          rewrite nth_error_app2 by lia. rewrite <- E. transitivity (@None A); [|symmetry; now apply nth_error_None].
          apply nth_error_None. cbn [length]. lia.
      + auto.
      + unfold c_update, c_iter_mut. cbn [fst]. rewrite update_spec. cbn [fst snd app]. split; [|split; [|exact W]].
        * rewrite app_length, map_length, combine_length, skipn_length, <- L. lia.
        * intros i. rewrite update_nth. now rewrite E.
  Qed.
  (** In particular what is only pushed is what is iterated. *)
  Fixpoint pushed (ops : list (op A)) : list A :=
    match ops with [] => [] | Push x :: h => x :: pushed h | _ :: h => pushed h end.
  Definition building (o : op A) : Prop := match o with Update _ => False | _ => True end.
  Theorem C85_built : forall (ops : list (op A)), Forall building ops -> c_iter (run ops) = pushed ops.
  Proof.
    intros ops H. assert (X : forall l w, Forall building ops -> fst (fold_left do_op ops (l, w)) = l ++ pushed ops).
    { clear. induction ops as [|o ops IH]; intros l w F; [symmetry; apply app_nil_r|]. inv F. cbn [fold_left pushed].
      destruct o as [x|b|fs]; [| |destruct H1].
      - unfold do_op at 2, c_push. cbn [fst snd]. rewrite (IH _ _ H2). now rewrite <- app_assoc.
      - apply (IH _ _ H2). }
    apply (X [] false H).
  Qed.
End Iteration.
Print Assumptions C85_iteration.
Print Assumptions C85_history.
Print Assumptions C85_built.
Example C85_example :
  let c := run [Push 1; Push 2; SetWildcard true; Update [N.add 10]; Push 3; Update [N.add 1; N.add 1; N.add 1; N.add 1]; SetWildcard false] in
  c_iter c = [12; 3; 4] /\ c_wildcard c = false /\
  it_take 5 (c_iter c) = ([Some 12; Some 3; Some 4; None; None], []) /\ it_size_hint (snd (it_take 1 (c_iter c))) = (2%nat, Some 2%nat).
Proof. vm_compute. auto. Qed.

(** The Allow set: [contains] is what was inserted, and iteration gives each method once. *)
Theorem C85_allow : forall ms,
  let s := fold_left allow_insert ms allow_new in
  (forall m, allow_contains s m = true <-> In m ms) /\
  forall order, Permutation order s -> NoDup (allow_iter order) /\ (forall m, In m (allow_iter order) <-> In m ms).
Proof.
  intros ms. cbv zeta.
  assert (C : forall s m, allow_contains s m = true <-> In m s).
  { intros s m. unfold allow_contains. rewrite existsb_exists. split.
    - intros (x & I & E). apply method_eqb_iff in E. now subst.
    - intros I. exists m. split; [exact I|]. now apply method_eqb_iff. }
  assert (X : forall ms s, NoDup s -> NoDup (fold_left allow_insert ms s) /\ forall m, In m (fold_left allow_insert ms s) <-> In m s \/ In m ms).
  { clear ms. induction ms as [|x ms IH]; intros s D; cbn [fold_left In]; [split; [exact D|tauto]|].
    assert (D' : NoDup (allow_insert s x) /\ forall m, In m (allow_insert s x) <-> In m s \/ x = m).
    { unfold allow_insert, set_insert. fold (allow_contains s x). destruct (allow_contains s x) eqn:E.
      - apply C in E. split; [exact D|]. intros m. split; [tauto|]. intros [I|<-]; auto.
      - split; [|intros m; cbn [In]; tauto]. constructor; [|exact D]. intros I. apply C in I. congruence. }
    destruct D' as [D' I']. destruct (IH _ D') as [N I]. split; [exact N|]. intros m. rewrite I, I'. tauto. }
  destruct (X ms allow_new (NoDup_nil _)) as [D I]. split.
  - intros m. rewrite C, I. cbn [allow_new In]. tauto.
  - intros order P. unfold allow_iter. split; [eapply Permutation_NoDup; [apply Permutation_sym, P|exact D]|].
    intros m. transitivity (In m (fold_left allow_insert ms allow_new)).
    + split; apply Permutation_in; [exact P|now apply Permutation_sym].
    + rewrite I. cbn [allow_new In]. tauto.
Qed.
Print Assumptions C85_allow.
Example C85_allow_example : let s := fold_left allow_insert [M_Put; M_Post; M_Put; M_Get] allow_new in
  allow_contains s M_Put = true /\ allow_contains s M_Delete = false /\ length s = 3%nat.
Proof. vm_compute. auto. Qed.

(** Built call by call, sent in any headers, read and iterated: what was pushed, in order, and the flag as last set. *)
Lemma sent : forall (A : Type) from apply (ops : list (op A)), Forall building ops -> survives from apply (run ops) -> forall h,
  exists c, from (apply h (run ops)) = Ok (Some c) /\ c_iter c = pushed ops /\ c_wildcard c = last_flag (rev ops).
Proof.
  intros A from apply ops B S h. exists (run ops). split; [apply S|]. split; [now apply C85_built|]. apply C85_history.
Qed.
Lemma run_pair : forall (A : Type) (ops : list (op A)), Forall building ops -> run ops = (pushed ops, last_flag (rev ops)).
Proof.
  intros A ops B. rewrite <- (C85_built ops B). destruct (C85_history ops) as (_ & _ & <-). now destruct (run ops).
Qed.
Theorem C85_sent_if_match : forall k (ops : list (op etag)) h, Forall building ops ->
  Forall (fun e => Forall etagc (opaque e) /\ ~ In 44 (opaque e)) (pushed ops) -> (pushed ops <> [] \/ last_flag (rev ops) = true) ->
  exists c, cond_from_headers k (cond_apply k h (run ops)) = Ok (Some c) /\ c_iter c = pushed ops /\ c_wildcard c = last_flag (rev ops).
Proof.
  intros k ops h B F N. apply (sent _ (cond_from_headers k) (cond_apply k)); [exact B|]. rewrite run_pair by exact B.
  apply C84_if_match. auto.
Qed.
Print Assumptions C85_sent_if_match.
Theorem C85_sent_clear_site_data : forall (ops : list (op clear)) h, Forall building ops -> (pushed ops <> [] \/ last_flag (rev ops) = true) ->
  exists c, clear_from_headers (clear_apply h (run ops)) = Ok (Some c) /\ c_iter c = pushed ops /\ c_wildcard c = last_flag (rev ops).
Proof.
  intros ops h B N. apply (sent _ clear_from_headers clear_apply); [exact B|]. rewrite run_pair by exact B. now apply C84_clear_site_data.
Qed.
Print Assumptions C85_sent_clear_site_data.
Theorem C85_sent_codings : forall k (ops : list (op proposal)) h, Forall building ops ->
  Forall (fun p => in_family k (p_coding p) = true /\ (p_weight p = None \/ thousandth (p_weight p))) (pushed ops) ->
  exists c, accept_from_headers k (accept_apply k h (run ops)) = Ok (Some c) /\ c_iter c = pushed ops /\ c_wildcard c = last_flag (rev ops).
Proof.
  intros k ops h B F. apply (sent _ (accept_from_headers k) (accept_apply k)); [exact B|]. rewrite run_pair by exact B. now apply C84_codings.
Qed.
Print Assumptions C85_sent_codings.
Theorem C85_sent_cache_control : forall (ds : list directive) h, Forall u64_secs ds ->
  Forall (fun d => (match dur_of d with Some t => nanos t = 0 | None => True end) /\ forall t, d <> SMaxAge t) ds ->
  cache_from_headers (cache_apply h (c_iter (run (map Push ds)))) = Ok (Some ds).
Proof.
  intros ds h U F. assert (B : Forall building (map (@Push directive) ds)).
  { apply Forall_forall. intros o I. apply in_map_iff in I as (d & <- & _). exact I. }
  rewrite C85_built by exact B. replace (pushed (map Push ds)) with ds; [now apply C84_cache_control|].
  clear. induction ds as [|d ds IH]; [reflexivity|]. cbn [map pushed]. now f_equal.
Qed.
Print Assumptions C85_sent_cache_control.
Example C85_sent_example :
  let ops := [Push (Weak (lit "a")); SetWildcard true; Push (Strong (lit "b")); SetWildcard false] in
  cond_from_headers IfMatch (cond_apply IfMatch [] (run ops)) = Ok (Some ([Weak (lit "a"); Strong (lit "b")], false)).
Proof. vm_compute. reflexivity. Qed.

(** ** C86 *)
Section Again.
  Context {T : Type} (weight : T -> option float).
  Definition of_rank (r : N) (x : T) : bool := rank (weight x) =? r.
  Definition heavier (x y : T) : Prop := rank (weight y) <= rank (weight x).

  Lemma insert_rank : forall a l r, good_weight (weight (snd a)) -> good_items weight l -> StronglySorted (before weight) l ->
    Forall (fun b => fst a < fst b) l ->
    filter (of_rank r) (map snd (insert_item weight a l)) =
    filter (of_rank r) (map snd l) ++ (if of_rank r (snd a) then [snd a] else []).
  Proof.
    intros a l r A G S F. induction S as [|b l S IH Fb].
    - cbn [insert_item map filter app]. now destruct (of_rank r (snd a)).
    - inv G. inv F. cbn [insert_item].
      assert (Low : item_cmp weight a b <> Gt -> Forall (fun c => rank (weight (snd c)) < rank (weight (snd a))) (b :: l)).
      { intros NG. destruct (item_cmp_lt weight a b A H1) as [L E]. assert (B : before weight a b).
        { destruct (item_cmp weight a b); [|now apply L|congruence]. specialize (E eq_refl). lia. }
        apply Forall_forall. intros c [<-|I].
        - unfold before in B. lia.
        - rewrite Forall_forall in Fb, H4. specialize (Fb _ I). specialize (H4 _ I). unfold before in B, Fb. lia. }
      assert (X : item_cmp weight a b <> Gt -> filter (of_rank r) (map snd (a :: b :: l)) =
        filter (of_rank r) (map snd (b :: l)) ++ (if of_rank r (snd a) then [snd a] else [])).
      { intros NG. specialize (Low NG). cbn [map]. change (filter (of_rank r) (snd a :: snd b :: map snd l)) with
          (if of_rank r (snd a) then snd a :: filter (of_rank r) (map snd (b :: l)) else filter (of_rank r) (map snd (b :: l))).
        destruct (of_rank r (snd a)) eqn:R; [|now rewrite app_nil_r]. apply N.eqb_eq in R.
        assert (Z : filter (of_rank r) (map snd (b :: l)) = []); [|cbn [map] in *; rewrite Z; reflexivity].
        clear - Low R. induction Low as [|c m H F IH]; [reflexivity|]. cbn [map filter]. unfold of_rank at 1.
        destruct (N.eqb_spec (rank (weight (snd c))) r); [lia|exact IH]. }
      destruct (item_cmp weight a b) eqn:C; [apply X; discriminate|apply X; discriminate|].
      cbn [map filter]. rewrite (IH H2 H4). now destruct (of_rank r (snd b)).
  Qed.
  (** Within one weight, sorting reverses the order. *)
  Lemma sort_rank : forall l r, good weight l -> filter (of_rank r) (sort_by_weight weight l) = rev (filter (of_rank r) l).
  Proof.
    intros l r G. unfold sort_by_weight. generalize 0 as i. induction l as [|x l IH]; intros i; [reflexivity|]. inv G.
    cbn [enumerate sort_items]. destruct (enumerate_nodup l (N.succ i)) as [D F].
    assert (GI := enumerate_good weight l (N.succ i) H2). rewrite insert_rank.
    - cbn [snd]. rewrite IH by exact H2. cbn [filter]. destruct (of_rank r x); cbn [rev]; [reflexivity|apply app_nil_r].
    - exact H1.
    - apply Forall_forall. intros b I. apply (Permutation_in _ (sort_perm weight _)) in I. unfold good_items in GI. rewrite Forall_forall in GI. now apply GI.
    - now apply sort_sorted.
    - cbn [fst]. apply Forall_forall. intros b I. apply (Permutation_in _ (sort_perm weight _)) in I. rewrite Forall_forall in F. specialize (F _ I). cbv beta in F. lia.
  Qed.
  Lemma sort_heavier : forall l, good weight l -> StronglySorted heavier (sort_by_weight weight l).
  Proof.
    intros l G. destruct (sort_spec weight l G) as [_ S]. unfold sort_by_weight. induction S as [|a s S IH F]; cbn [map]; constructor; [exact IH|].
    apply Forall_forall. intros y I. apply in_map_iff in I as (b & <- & I). rewrite Forall_forall in F. specialize (F _ I).
    unfold before in F. unfold heavier. lia.
  Qed.
  Lemma filter_none : forall (P : T -> bool) l, (forall x, In x l -> P x = false) -> filter P l = [].
  Proof. intros P l H. induction l as [|x l IH]; [reflexivity|]. cbn [filter]. rewrite (H x (or_introl eq_refl)). apply IH. intros y I. apply H. now right. Qed.
  (** A list that goes from heavy to light is determined by its parts of one weight each. *)
  Lemma heavier_unique : forall l l', StronglySorted heavier l -> StronglySorted heavier l' ->
    (forall r, filter (of_rank r) l = filter (of_rank r) l') -> l = l'.
  Proof.
    induction l as [|x l IH]; intros [|y l'] S S' F.
    - reflexivity.
    - specialize (F (rank (weight y))). cbn [filter] in F. unfold of_rank at 1 in F. rewrite N.eqb_refl in F. discriminate F.
    - specialize (F (rank (weight x))). cbn [filter] in F. unfold of_rank at 1 in F. rewrite N.eqb_refl in F. discriminate F.
    - inv S. inv S'. assert (R : rank (weight x) = rank (weight y)).
      { assert (X : In x (y :: l')).
        { assert (I : In x (filter (of_rank (rank (weight x))) (x :: l))) by (apply filter_In; split; [now left|apply N.eqb_refl]).
          rewrite F in I. now apply filter_In in I. }
        assert (Y : In y (x :: l)).
        { assert (I : In y (filter (of_rank (rank (weight y))) (y :: l'))) by (apply filter_In; split; [now left|apply N.eqb_refl]).
          rewrite <- F in I. now apply filter_In in I. }
        rewrite Forall_forall in H2, H4. unfold heavier in *.
        destruct X as [->|X]; [reflexivity|]. destruct Y as [->|Y]; [reflexivity|]. specialize (H2 _ Y). specialize (H4 _ X). lia. }
      assert (E := F (rank (weight x))). cbn [filter] in E.
      assert (X1 : of_rank (rank (weight x)) x = true) by apply N.eqb_refl.
      assert (X2 : of_rank (rank (weight x)) y = true) by (unfold of_rank; rewrite R; apply N.eqb_refl).
      rewrite X1, X2 in E. injection E as E _. subst y.
      f_equal. apply IH; try assumption. intros r. specialize (F r). cbn [filter] in F. destruct (of_rank r x); [now injection F|exact F].
  Qed.
  Lemma sort_good : forall l, good weight l -> good weight (sort_by_weight weight l).
  Proof. intros l G. unfold good in *. rewrite Forall_forall in *. intros x I. apply G. now apply (proj1 (in_sort weight l x)). Qed.

  (** Sorting a third time is sorting once. *)
  Lemma sort_three : forall l, good weight l ->
    sort_by_weight weight (sort_by_weight weight (sort_by_weight weight l)) = sort_by_weight weight l.
  Proof.
    intros l G. assert (G1 := sort_good l G). assert (G2 := sort_good _ G1).
    apply heavier_unique; [now apply sort_heavier|now apply sort_heavier|]. intros r.
    rewrite !sort_rank by assumption. apply rev_involutive.
  Qed.
  (** Sorting twice is sorting once when no two entries weigh the same. *)
  Lemma filter_distinct : forall l r, NoDup (map (fun x => rank (weight x)) l) -> exists z, filter (of_rank r) l = z /\ rev z = z.
  Proof.
    intros l r D. eexists. split; [reflexivity|]. assert (X : (length (filter (of_rank r) l) <= 1)%nat).
    { induction l as [|x l IH]; [cbn; lia|]. cbn [map] in D. inv D. specialize (IH H2). cbn [filter]. unfold of_rank at 1.
      destruct (N.eqb_spec (rank (weight x)) r) as [E|E]; [|exact IH].
      rewrite filter_none; [cbn; lia|]. intros y I. apply N.eqb_neq. intros Y. apply H1. rewrite E, <- Y. now apply in_map with (f := fun x => rank (weight x)). }
    destruct (filter (of_rank r) l) as [|a [|b m]]; [reflexivity|reflexivity|cbn in X; lia].
  Qed.
  Lemma sort_twice_distinct : forall l, good weight l -> NoDup (map (fun x => rank (weight x)) l) ->
    sort_by_weight weight (sort_by_weight weight l) = sort_by_weight weight l.
  Proof.
    intros l G D. assert (G1 := sort_good l G).
    apply heavier_unique; [now apply sort_heavier|now apply sort_heavier|]. intros r. rewrite !sort_rank by assumption.
    rewrite rev_involutive. destruct (filter_distinct l r D) as (z & -> & Z). now rewrite Z.
  Qed.
  (** The first of the wanted entries after sorting twice: the heaviest, and of those the one declared first. *)
  Lemma first_in_sort_twice : forall (P : T -> bool) l x, good weight l -> find P (sort_by_weight weight (sort_by_weight weight l)) = Some x ->
    exists i, nth_error l i = Some x /\ P x = true /\
      forall j y, nth_error l j = Some y -> P y = true -> rank (weight y) < rank (weight x) \/ rank (weight y) = rank (weight x) /\ (i <= j)%nat.
  Proof.
    intros P l x G F. apply first_in_sort in F as (p & Ip & Px & B); [|now apply sort_good].
    destruct (C48_sorted T weight l G) as (places & Pm & M & O).
    assert (AT : forall q y, nth_error (sort_by_weight weight l) q = Some y -> exists j, nth_error places q = Some j /\ nth_error l j = Some y).
    { intros q y H. apply (f_equal (fun l => nth_error l q)) in M. rewrite !nth_error_map, H in M. cbn [option_map] in M.
      destruct (nth_error places q) as [j|]; [|discriminate M]. exists j. split; [reflexivity|]. cbn [option_map] in M. congruence. }
    destruct (AT p x Ip) as (i & Pi & Ni). exists i. split; [exact Ni|]. split; [exact Px|]. intros j y J Py.
    assert (Q : exists q, nth_error places q = Some j).
    { apply In_nth_error. apply (Permutation_in _ (Permutation_sym Pm)). apply in_seq. split; [lia|]. cbn [plus]. apply nth_error_Some. congruence. }
    destruct Q as (q & Q). assert (Y : nth_error (sort_by_weight weight l) q = Some y).
    { apply (f_equal (fun l => nth_error l q)) in M. rewrite !nth_error_map, Q in M. cbn [option_map] in M. rewrite J in M.
      destruct (nth_error (sort_by_weight weight l) q); [|discriminate M]. cbn [option_map] in M. congruence. }
    destruct (B q y Y Py) as [L|[E L]]; [now left|]. destruct (Nat.eq_dec q p) as [->|D].
    - rewrite Q in Pi. injection Pi as ->. right. split; [exact E|lia].
    - destruct (O q p j i y x ltac:(lia) Q Pi J Ni) as [H|[_ H]]; [lia|]. right. split; [exact E|lia].
  Qed.
End Again.

(** Codings: asked several times, the value answers as it would the first time for the 1st, 3rd, 5th ... question, and
    as it would the second time for the others. *)
Fixpoint alternating {M R} (f g : M -> R) (calls : list M) : list R :=
  match calls with [] => [] | av :: rest => f av :: alternating g f rest end.
Theorem C86_alternates : forall l w calls, Forall (fun p => good_weight (p_weight p)) l ->
  answers negotiate_mut (l, w) calls = alternating (negotiate (l, w)) (negotiate (sort_by_weight p_weight l, w)) calls.
Proof.
  intros l w calls G.
  assert (S3 := sort_three p_weight l G).
  assert (N2 : forall av, negotiate (sort_by_weight p_weight (sort_by_weight p_weight l), w) av = negotiate (l, w) av).
  { intros av. unfold negotiate. cbn [fst snd]. now rewrite S3. }
  assert (E : forall calls,
    answers negotiate_mut (sort_by_weight p_weight l, w) calls = alternating (negotiate (sort_by_weight p_weight l, w)) (negotiate (l, w)) calls /\
    answers negotiate_mut (sort_by_weight p_weight (sort_by_weight p_weight l), w) calls = alternating (negotiate (l, w)) (negotiate (sort_by_weight p_weight l, w)) calls).
  { clear calls. induction calls as [|av calls [I1 I2]]; [auto|]. cbn [answers alternating]. unfold negotiate_mut at 1 3, c_sort. cbn [fst snd].
    split; f_equal; [exact I2|apply N2|]. rewrite S3. exact I1. }
  destruct calls as [|av calls]; [reflexivity|]. cbn [answers alternating]. unfold negotiate_mut at 1, c_sort. cbn [fst snd].
  f_equal. apply E.
Qed.
Print Assumptions C86_alternates.
(** The second answer: the heaviest available coding, but of equally heavy ones that declared first. *)
Theorem C86_second_answer : forall l w available1 available2 c, Forall (fun p => good_weight (p_weight p)) l ->
  nth_error (answers negotiate_mut (l, w) [available1; available2]) 1 = Some (Ok c) ->
  (exists i q, nth_error l i = Some (Proposal c q) /\ In c available2 /\
     forall j p, nth_error l j = Some p -> In (p_coding p) available2 ->
       rank (p_weight p) < rank q \/ rank (p_weight p) = rank q /\ (i <= j)%nat) \/
  (w = true /\ hd_error available2 = Some c /\ forall p, In p l -> ~ In (p_coding p) available2).
Proof.
  intros l w av1 av2 c G H. cbn [answers negotiate_mut nth_error fst snd] in H. unfold c_sort in H. cbn [fst snd] in H. injection H as H. unfold negotiate in H. cbn [fst snd] in H.
  destruct (find _ _) as [p|] eqn:F.
  - injection H as <-. apply first_in_sort_twice in F as (i & I & Px & B); [|exact G]. left. exists i, (p_weight p).
    split; [now destruct p|]. split; [now apply available_has_in|]. intros j y J Y. apply B; [exact J|]. now apply available_has_in.
  - right. destruct w, av2 as [|c' av2]; try discriminate H. injection H as <-. split; [reflexivity|]. split; [reflexivity|].
    intros p I C. assert (I' : In p (sort_by_weight p_weight l)) by now apply (proj2 (in_sort p_weight l p)).
    apply find_sort_none with (x := p) in F; [|exact I']. apply available_has_in in C. congruence.
Qed.
Print Assumptions C86_second_answer.
(** Asking the same question twice gives the same answer when no two proposals weigh the same. *)
Theorem C86_repeatable_partial : forall l w available, Forall (fun p => good_weight (p_weight p)) l ->
  NoDup (map (fun p => rank (p_weight p)) l) ->
  answers negotiate_mut (l, w) [available; available] = [negotiate (l, w) available; negotiate (l, w) available].
Proof.
  intros l w av G D. cbn [answers negotiate_mut c_sort fst snd]. assert (E : negotiate (sort_by_weight p_weight l, w) av = negotiate (l, w) av); [|unfold c_sort, m_sort; cbn [fst snd]; now rewrite E].
  unfold negotiate. cbn [fst snd]. now rewrite (sort_twice_distinct p_weight l G D).
Qed.
Print Assumptions C86_repeatable_partial.
Example C86_repeatable_partial_case : let l := [Proposal Gzip (milli 500); Proposal Zstd (milli 900); Proposal Brotli None] in
  NoDup (map (fun p => rank (p_weight p)) l) /\ Forall (fun p => good_weight (p_weight p)) l /\
  answers negotiate_mut (l, true) [[Brotli; Gzip]; [Brotli; Gzip]] = [Ok Gzip; Ok Gzip].
Proof.
  cbv zeta. split; [vm_compute; repeat constructor; cbn; intuition discriminate|]. split; [|vm_compute; reflexivity].
  constructor; [|constructor; [|constructor; [exact I|constructor]]]; (eexists; split; [vm_compute; reflexivity|vm_compute; discriminate]).
Qed.
(** For proposals of different codings that is exact. *)
Theorem C86_repeatable_iff : forall l w, Forall (fun p => good_weight (p_weight p)) l -> NoDup (map p_coding l) ->
  ((forall available, answers negotiate_mut (l, w) [available; available] = [negotiate (l, w) available; negotiate (l, w) available]) <->
   NoDup (map (fun p => rank (p_weight p)) l)).
Proof.
  intros l w G D. split; [|intros N av; now apply C86_repeatable_partial]. intros S.
  assert (K : forall i j a b, (i < j)%nat -> nth_error l i = Some a -> nth_error l j = Some b -> rank (p_weight a) = rank (p_weight b) -> False).
  { intros i j a b L A B R. specialize (S [p_coding a; p_coding b]).
    assert (U : forall k p, nth_error l k = Some p -> In (p_coding p) [p_coding a; p_coding b] -> k = i \/ k = j).
    { intros k p Kp I. assert (Kc : nth_error (map p_coding l) k = Some (p_coding p)) by (rewrite nth_error_map, Kp; reflexivity).
      assert (Kl : (k < length (map p_coding l))%nat) by (apply nth_error_Some; congruence).
      destruct I as [I|[I|[]]]; [left|right]; (eapply (proj1 (NoDup_nth_error _)); [exact D|exact Kl|]); rewrite Kc, nth_error_map; [rewrite A|rewrite B]; cbn [option_map]; congruence. }
    cbn [answers negotiate_mut fst snd] in S. unfold c_sort in S. cbn [fst snd] in S. injection S as S.
    destruct (negotiate (l, w) [p_coding a; p_coding b]) as [c| |] eqn:N1.
    2: { apply C49_not_acceptable in N1 as (_ & X & _). apply (X a); [now apply nth_error_In in A|now left]. }
    2: { exact (C49_no_panic _ _ N1). }
    assert (S2 : nth_error (answers negotiate_mut (l, w) [[p_coding a; p_coding b]; [p_coding a; p_coding b]]) 1 = Some (Ok c)).
    { cbn [answers negotiate_mut fst snd nth_error]. unfold c_sort. cbn [fst snd]. now rewrite S. }
    apply C86_second_answer in S2; [|exact G]. apply C49_best in N1 as [Ic [(i1 & q1 & I1 & B1)|(_ & _ & X)]]; [|exfalso; apply (X a (nth_error_In _ _ A)); now left|exact G].
    destruct S2 as [(i2 & q2 & I2 & _ & B2)|(_ & _ & X)]; [|apply (X a (nth_error_In _ _ A)); now left].
    assert (E1 : i1 = j).
    { destruct (U _ _ I1 Ic) as [-> | ->]; [|reflexivity]. rewrite A in I1. injection I1 as ->. cbn [p_coding p_weight] in *.
      specialize (B1 j b B ltac:(right; now left)). unfold no_better in B1. lia. }
    assert (E2 : i2 = i).
    { destruct (U _ _ I2 Ic) as [-> | ->]; [reflexivity|]. rewrite B in I2. injection I2 as ->. cbn [p_coding p_weight] in *.
      specialize (B2 i a A ltac:(now left)). lia. }
    subst i1 i2. rewrite B in I1. rewrite A in I2. injection I1 as ->. injection I2 as ->.
    assert (E : i = j); [|lia]. eapply (proj1 (NoDup_nth_error _)); [exact D| |].
    - rewrite map_length. apply nth_error_Some. congruence.
    - rewrite !nth_error_map, A, B. reflexivity. }
  apply (proj2 (NoDup_nth_error _)). intros i j Li E. rewrite map_length in Li. rewrite !nth_error_map in E.
  destruct (nth_error l i) as [a|] eqn:A; [|now apply nth_error_None in A; lia]. destruct (nth_error l j) as [b|] eqn:B; [|discriminate E].
  cbn [option_map] in E. injection E as E. destruct (Nat.lt_trichotomy i j) as [L|[L|L]]; [|exact L|]; exfalso; [eapply (K i j)|eapply (K j i)]; eauto.
Qed.
Print Assumptions C86_repeatable_iff.
(** So "negotiating is a question, not a change" is false: the header "gzip, br" picks br, then gzip, then br. *)
Theorem C86_refuted : exists k h a available, h_get h (accept_name k) = Some [lit "gzip, br"] /\ accept_from_headers k h = Ok (Some a) /\
  answers negotiate_mut a [available; available; available] = [Ok Brotli; Ok Gzip; Ok Brotli].
Proof.
  exists Content, (apply_value no_headers (accept_name Content) (lit "gzip, br")). eexists. exists [Gzip; Brotli].
  split; [reflexivity|]. split; [vm_compute; reflexivity|]. vm_compute. reflexivity.
Qed.
Print Assumptions C86_refuted.

(** Media types: the same. *)
Theorem C86_media_alternates : forall l w calls, Forall (fun p => good_weight (mp_weight p)) l ->
  answers media_negotiate_mut (l, w) calls = alternating (media_negotiate (l, w)) (media_negotiate (sort_by_weight mp_weight l, w)) calls.
Proof.
  intros l w calls G. assert (S3 := sort_three mp_weight l G).
  assert (N2 : forall av, media_negotiate (sort_by_weight mp_weight (sort_by_weight mp_weight l), w) av = media_negotiate (l, w) av).
  { intros av. unfold media_negotiate. cbn [fst snd]. now rewrite S3. }
  assert (E : forall calls,
    answers media_negotiate_mut (sort_by_weight mp_weight l, w) calls = alternating (media_negotiate (sort_by_weight mp_weight l, w)) (media_negotiate (l, w)) calls /\
    answers media_negotiate_mut (sort_by_weight mp_weight (sort_by_weight mp_weight l), w) calls = alternating (media_negotiate (l, w)) (media_negotiate (sort_by_weight mp_weight l, w)) calls).
  { clear calls. induction calls as [|av calls [I1 I2]]; [auto|]. cbn [answers alternating]. unfold media_negotiate_mut at 1 3, m_sort. cbn [fst snd].
    split; f_equal; [exact I2|apply N2|]. rewrite S3. exact I1. }
  destruct calls as [|av calls]; [reflexivity|]. cbn [answers alternating]. unfold media_negotiate_mut at 1, m_sort. cbn [fst snd].
  f_equal. apply E.
Qed.
Print Assumptions C86_media_alternates.
Theorem C86_media_repeatable_partial : forall l w available, Forall (fun p => good_weight (mp_weight p)) l ->
  NoDup (map (fun p => rank (mp_weight p)) l) ->
  answers media_negotiate_mut (l, w) [available; available] = [media_negotiate (l, w) available; media_negotiate (l, w) available].
Proof.
  intros l w av G D. cbn [answers media_negotiate_mut m_sort fst snd]. assert (E : media_negotiate (sort_by_weight mp_weight l, w) av = media_negotiate (l, w) av); [|unfold c_sort, m_sort; cbn [fst snd]; now rewrite E].
  unfold media_negotiate. cbn [fst snd]. now rewrite (sort_twice_distinct mp_weight l G D).
Qed.
Print Assumptions C86_media_repeatable_partial.
Theorem C86_media_refuted : exists h a available m1 m2, h_get h ACCEPT = Some [lit "text/html, application/json"] /\
  media_from_headers h = Ok (Some a) /\ mime_parse (lit "text/html") = Ok m1 /\ mime_parse (lit "application/json") = Ok m2 /\
  answers media_negotiate_mut a [available; available; available] = [Ok m2; Ok m1; Ok m2].
Proof.
  destruct (mime_parse (lit "text/html")) as [m1| |] eqn:E1; try (vm_compute in E1; discriminate E1).
  destruct (mime_parse (lit "application/json")) as [m2| |] eqn:E2; try (vm_compute in E2; discriminate E2).
  exists (apply_value no_headers ACCEPT (lit "text/html, application/json")). eexists. exists [m1; m2], m1, m2.
  inv E1. inv E2. split; [reflexivity|]. split; [vm_compute; reflexivity|]. split; [reflexivity|]. split; [reflexivity|]. vm_compute. reflexivity.
Qed.
Print Assumptions C86_media_refuted.
Example C86_example : answers negotiate_mut ([Proposal Gzip (milli 500); Proposal Zstd (milli 900); Proposal Brotli (milli 500)], false)
  [[Gzip; Brotli]; [Gzip; Brotli]; [Gzip; Zstd]] = [Ok Brotli; Ok Gzip; Ok Zstd].
Proof. vm_compute. reflexivity. Qed.
