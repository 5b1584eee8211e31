(** Property C89: walking through header collections, and trailers. *)
From Verif Require Import Base BaseFacts Headers HeadersFacts HeadersProps HeaderIter.
From Coq Require Import ZifyBool ZifyNat ZifyN Permutation.

(** ** Iterators *)
Lemma answers_spec {A} (next : cursor -> option A * cursor) (f : str * header_values -> A) :
  (forall e c, next (e :: c) = (Some (f e), c)) -> next [] = (None, []) ->
  forall k c, answers next k c = (map Some (map f (firstn k c)) ++ repeat None (k - length c), skipn k c).
Proof.
  intros H1 H2. induction k as [|k IH]; intros c; [reflexivity|]. cbn [answers]. destruct c as [|e c].
  - rewrite H2, IH. rewrite firstn_nil, skipn_nil. cbn. rewrite Nat.sub_0_r. reflexivity.
  - rewrite H1, IH. reflexivity.
Qed.

(** Whatever calls made the map and in whatever order it visits its entries: [iter] gives each entry once and then
    nothing, telling before each step how many are left; [names] gives the names in the same order; an entry is given
    exactly if it is stored. *)
Theorem C89_iteration : forall ops order k, Permutation (fst (run headers_new ops)) order ->
  (exists c, answers e_next k (h_iter order) = (map Some (firstn k order) ++ repeat None (k - length order), c) /\
     e_size_hint c = (N.of_nat (length order - k), Some (N.of_nat (length order - k)))) /\
  fst (answers n_next k (h_names order)) = map (option_map fst) (fst (answers e_next k (h_iter order))) /\
  n_size_hint (snd (answers n_next k (h_names order))) = (0, None) /\
  (forall n vs, In (n, vs) order <-> h_get (fst (run headers_new ops)) n = Some vs) /\ NoDup (map fst order).
Proof.
  intros ops order k P. assert (D : NoDup (map fst (fst (run headers_new ops)))).
  { destruct (run_refines ops headers_new mm_empty) as [[D _] _]; [split; [constructor|reflexivity]|exact D]. }
  assert (D' : NoDup (map fst order)) by (eapply Permutation_NoDup; [apply Permutation_map, P|exact D]).
  assert (X := answers_spec e_next (fun e => e) ltac:(reflexivity) ltac:(reflexivity) k order). rewrite map_id in X.
  assert (Y := answers_spec n_next fst ltac:(intros [n vs] c; reflexivity) ltac:(reflexivity) k order).
  unfold h_iter, h_names. rewrite X, Y. cbn [fst snd]. split; [|split; [|split; [reflexivity|split; [|exact D']]]].
  - eexists. split; [reflexivity|]. unfold e_size_hint. rewrite skipn_length. reflexivity.
  - rewrite map_app, !map_map. f_equal. clear. induction (k - length order)%nat as [|m IH]; [reflexivity|]. cbn. f_equal. exact IH.
  - intros n vs. unfold h_get. rewrite (hm_get_perm _ order n P D). split; [apply hm_in_get, D'|apply hm_get_in].
Qed.

(** A loop over [iter_mut] that makes the changes [fs] one after the other: the i-th visited entry is changed by the i-th
    change, every other entry and the set of names stay. *)
Lemma m_next_spec fs : forall d r, let c := fold_left (fun c f => m_next f c) fs (d, r) in
  fst c ++ snd c = d ++ (map (fun p => (fst (snd p), (fst p) (fst (snd p)) (snd (snd p)))) (combine fs r) ++ skipn (length fs) r).
Proof.
  induction fs as [|f fs IH]; intros d r; cbn [fold_left combine map app length skipn]; [reflexivity|].
  unfold m_next at 2. cbn [snd fst]. destruct r as [|[n vs] r].
  - specialize (IH d []). cbn zeta in IH. cbn zeta. etransitivity; [apply IH|]. rewrite skipn_nil. destruct fs; reflexivity.
  - specialize (IH (d ++ [(n, f n vs)]) r). cbn zeta in IH. cbn zeta. etransitivity; [apply IH|]. rewrite <- app_assoc. reflexivity.
Qed.
Lemma update_eq fs order : h_update order fs =
  map (fun p => (fst (snd p), (fst p) (fst (snd p)) (snd (snd p)))) (combine fs order) ++ skipn (length fs) order.
Proof. exact (m_next_spec fs [] order). Qed.
Lemma update_names fs order : map fst (h_update order fs) = map fst order.
Proof.
  rewrite update_eq. rewrite map_app, map_map. cbn [fst].
  revert order. induction fs as [|f fs IH]; intros order; [reflexivity|]. destruct order as [|e order]; [reflexivity|]. cbn. f_equal. apply IH.
Qed.
Lemma update_nth fs order i n vs : nth_error order i = Some (n, vs) ->
  nth_error (h_update order fs) i = Some (n, match nth_error fs i with Some f => f n vs | None => vs end).
Proof.
  rewrite update_eq.
  revert order i. induction fs as [|f fs IH]; intros order i H; [destruct i; exact H|].
  destruct order as [|e order]; [destruct i; discriminate|]. destruct i as [|i]; cbn in H.
  - inv H. reflexivity.
  - cbn [combine map length skipn app nth_error]. apply IH, H.
Qed.
Theorem C89_iter_mut : forall ops order fs, Permutation (fst (run headers_new ops)) order ->
  (forall i n vs, nth_error order i = Some (n, vs) ->
     h_get (h_update order fs) n = Some (match nth_error fs i with Some f => f n vs | None => vs end)) /\
  (forall n, h_get (h_update order fs) n = None <-> h_get (fst (run headers_new ops)) n = None).
Proof.
  intros ops order fs P. destruct (C89_iteration ops order 0 P) as (_ & _ & _ & _ & D).
  assert (D0 : NoDup (map fst (fst (run headers_new ops)))) by (eapply Permutation_NoDup; [apply Permutation_sym, Permutation_map, P|exact D]).
  split.
  - intros i n vs H. apply hm_in_get; [rewrite update_names; exact D|]. eapply nth_error_In, update_nth, H.
  - intros n. unfold h_get. rewrite (hm_get_perm _ order n P D0), !hm_get_none, update_names. reflexivity.
Qed.

(** Copying all entries into a new map, in any order, gives the same map; appending them to another map adds to each of
    its headers. *)
Lemma append_spec entries : forall h n, NoDup (map fst entries) ->
  hm_get (append_entries h entries) n =
    match hm_get h n, hm_get entries n with
    | Some a, Some b => Some (a ++ b) | Some a, None => Some a | None, r => r end.
Proof.
  unfold append_entries. induction entries as [|[k vs] entries IH]; intros h n D; cbn [fold_left].
  - destruct (hm_get h n); reflexivity.
  - inv D. rewrite IH by assumption. cbn [fst snd hm_get].
    assert (E : forall m, hm_get (fst (h_append h k (TvValues vs))) m = if seqb k m then Some (match hm_get h k with Some a => a ++ vs | None => vs end) else hm_get h m).
    { intros m. unfold h_append, h_insert. cbn [to_header_values]. destruct (seqb_spec k m) as [->|N].
      - destruct (hm_get h m); cbn [fst values_append]; apply hm_get_insert_same.
      - destruct (hm_get h k); cbn [fst values_append]; apply hm_get_insert_other; congruence. }
    rewrite E. rewrite (seqb_sym n k). destruct (seqb_spec k n) as [->|N]; [|reflexivity].
    rewrite (proj2 (hm_get_none entries n)) by assumption. destruct (hm_get h n); reflexivity.
Qed.
Lemma copy_spec entries : forall h n, NoDup (map fst entries) ->
  hm_get (fold_left (fun h e => fst (h_insert h (fst e) (TvValues (snd e)))) entries h) n =
    match hm_get entries n with Some b => Some b | None => hm_get h n end.
Proof.
  induction entries as [|[k vs] entries IH]; intros h n D; cbn [fold_left]; [reflexivity|].
  inv D. rewrite IH by assumption. cbn [fst snd hm_get h_insert to_header_values]. rewrite (seqb_sym n k). destruct (seqb_spec k n) as [->|N].
  - rewrite (proj2 (hm_get_none entries n)) by assumption. apply hm_get_insert_same.
  - rewrite hm_get_insert_other by congruence. reflexivity.
Qed.
Theorem C89_copy : forall ops ops' order n, Permutation (fst (run headers_new ops)) order ->
  let h := fst (run headers_new ops) in let g := fst (run headers_new ops') in
  h_get (copy_entries order) n = h_get h n /\
  h_get (append_entries g order) n = match h_get g n, h_get h n with
                                     | Some a, Some b => Some (a ++ b) | Some a, None => Some a | None, r => r end.
Proof.
  intros ops ops' order n P h g. destruct (C89_iteration ops order 0 P) as (_ & _ & _ & _ & D).
  assert (D0 : NoDup (map fst h)) by (eapply Permutation_NoDup; [apply Permutation_sym, Permutation_map, P|exact D]).
  unfold h_get. rewrite (hm_get_perm h order n P D0). split.
  - unfold copy_entries. rewrite copy_spec by exact D. destruct (hm_get order n); reflexivity.
  - apply append_spec, D.
Qed.

(** ** The values of one header *)
Lemma from_iter_app l : forall out, fold_left (fun out (v : str) => out ++ [v]) l out = out ++ l.
Proof. induction l as [|v l IH]; intros out; cbn [fold_left]; [rewrite app_nil_r; reflexivity|]. rewrite IH, <- app_assoc. reflexivity. Qed.
Lemma firstn_skipn_add {A} (a m : nat) (l : list A) : firstn a l ++ firstn m (skipn a l) = firstn (a + m) l.
Proof. revert l. induction a as [|a IH]; intros [|x l]; cbn; [reflexivity|reflexivity|rewrite firstn_nil; reflexivity|]. f_equal. apply IH. Qed.
(** Collected values are the values in order; indexing and slicing panic exactly outside; the first value is the one that
    the header stands for, to read and to write; equality with a list of texts is equality. *)
Theorem C89_values : forall (l : list str) (v : str),
  (forall fuel, (length l < fuel)%nat -> collect fuel (iter_new_values (values_from_iter l)) = Some l) /\
  collect 2 (iter_new_values (values_from_value v)) = Some [v] /\
  (forall i, values_index (values_from_iter l) i = match nth_error l i with Some x => Ok x | None => Panic end) /\
  (forall a b (r : list str), values_slice l a b = Ok r <-> exists x y, l = x ++ r ++ y /\ length x = a /\ (a + length r = b)%nat) /\
  (forall a b, (values_slice l a b = Panic <-> (b < a \/ length l < b)%nat) /\ (forall e, values_slice l a b <> Err e)) /\
  (forall l', values_set_first l v = Ok l' <-> exists x r, l = x :: r /\ l' = v :: r) /\
  (values_set_first l v = Panic <-> l = []) /\
  (forall l', values_eq_list l l' = true <-> l = l') /\
  (values_eq_str l v = true <-> l = [v]).
Proof.
  intros l v. assert (F : values_from_iter l = l) by (unfold values_from_iter; rewrite from_iter_app; reflexivity). rewrite F.
  split; [intros fuel L; apply C17_header_values_in_order, L|].
  split; [apply C17_header_values_in_order; cbn; lia|].
  split; [intros i; unfold values_index; destruct (nth_error l i); reflexivity|].
  split.
  { intros a b r. unfold values_slice. destruct ((a <=? b)%nat && (b <=? length l)%nat) eqn:E.
    - split.
      + intros H. inv H. exists (firstn a l), (skipn b l). split; [|split].
        * rewrite (app_assoc (firstn a l)), (firstn_skipn_add a (b - a) l). replace (a + (b - a))%nat with b by lia. symmetry. apply firstn_skipn.
        * rewrite firstn_length. lia.
        * rewrite firstn_length, skipn_length. lia.
      + intros (x & y & -> & <- & <-). f_equal. rewrite skipn_app, skipn_all, Nat.sub_diag. cbn [skipn app].
        replace (length x + length r - length x)%nat with (length r) by lia. rewrite firstn_app, firstn_all, Nat.sub_diag. cbn [firstn]. apply app_nil_r.
    - split; [discriminate|]. intros (x & y & -> & <- & <-). rewrite !app_length in E. lia. }
  split.
  { intros a b. unfold values_slice. destruct ((a <=? b)%nat && (b <=? length l)%nat) eqn:E; (split; [split; [|]|]); intros; try discriminate; try reflexivity; lia. }
  split.
  { intros l'. destruct l as [|x l]; cbn [values_set_first]; split; try discriminate.
    - intros (x & r & H & _). discriminate.
    - intros H. inv H. eauto.
    - intros (y & r & H & ->). inv H. reflexivity. }
  split; [destruct l; cbn; split; congruence|].
  split.
  { clear F. induction l as [|x l IH]; intros [|y l']; cbn [values_eq_list]; split; try discriminate; try reflexivity.
    - intros H. apply andb_true_iff in H as [H1 H2]. apply seqb_eq in H1. apply IH in H2. congruence.
    - intros H. inv H. rewrite seqb_refl. apply IH. reflexivity. }
  destruct l as [|x [|y l]]; cbn [values_eq_str]; split; try discriminate.
  - intros H. apply seqb_eq in H. congruence.
  - intros H. inv H. apply seqb_refl.
Qed.

(** ** Printed values *)
Lemma is_ascii_cons c s : is_ascii (c :: s) = true <-> (c <? 128) = true /\ is_ascii s = true.
Proof. cbn. rewrite andb_true_iff. reflexivity. Qed.
Section Debug.
  Context (escape_other : N -> str).
  Notation esc := (escape_char escape_other).
  (** Reading one printed character back. *)
  Definition unhex (d : N) : N := if d <? 58 then d - 48 else d - 87.
  Definition unescape (s : str) : option (N * str) :=
    match s with
    | 92 :: 48 :: r => Some (0, r)
    | 92 :: 116 :: r => Some (9, r)
    | 92 :: 110 :: r => Some (10, r)
    | 92 :: 114 :: r => Some (13, r)
    | 92 :: 34 :: r => Some (34, r)
    | 92 :: 92 :: r => Some (92, r)
    | 92 :: 117 :: 123 :: a :: 125 :: r => Some (unhex a, r)
    | 92 :: 117 :: 123 :: a :: b :: 125 :: r => Some (unhex a * 16 + unhex b, r)
    | 34 :: r => None
    | c :: r => Some (c, r)
    | [] => None
    end.
  Lemma unescape_esc c r : (c <? 128) = true -> unescape (esc c ++ r) = Some (c, r).
  Proof.
    intros H. destruct c as [|p]; [reflexivity|].
    do 7 (destruct p as [p|p|]; [| |reflexivity]); exfalso; lia.
  Qed.
  Lemma body_inj v1 : forall v2 r1 r2, is_ascii v1 = true -> is_ascii v2 = true ->
    flat_map esc v1 ++ 34 :: r1 = flat_map esc v2 ++ 34 :: r2 -> v1 = v2 /\ r1 = r2.
  Proof.
    induction v1 as [|c v1 IH]; intros [|d v2] r1 r2 A1 A2 H; cbn [flat_map app] in H.
    - inv H. auto.
    - exfalso. apply is_ascii_cons in A2 as [A2 _]. rewrite <- app_assoc in H. apply (f_equal unescape) in H. rewrite unescape_esc in H by exact A2. discriminate.
    - exfalso. apply is_ascii_cons in A1 as [A1 _]. rewrite <- app_assoc in H. apply (f_equal unescape) in H. rewrite unescape_esc in H by exact A1. discriminate.
    - apply is_ascii_cons in A1 as [A1 B1]. apply is_ascii_cons in A2 as [A2 B2]. rewrite <- !app_assoc in H. apply (f_equal unescape) in H.
      rewrite !unescape_esc in H by assumption. injection H as -> H. apply IH in H as [-> ->]; [|assumption..]. auto.
  Qed.
  Lemma debug_inj v1 v2 r1 r2 : is_ascii v1 = true -> is_ascii v2 = true ->
    value_debug escape_other v1 ++ r1 = value_debug escape_other v2 ++ r2 -> v1 = v2 /\ r1 = r2.
  Proof. unfold value_debug. cbn [app]. rewrite <- !app_assoc. intros A1 A2 H. injection H as H. exact (body_inj v1 v2 r1 r2 A1 A2 H). Qed.
  Lemma join_cons (d x y : str) l : join d (x :: y :: l) = x ++ d ++ join d (y :: l).
  Proof. reflexivity. Qed.
  Lemma list_inj l1 : forall l2 c r1 r2, c <> 34 -> c <> 44 -> forallb is_ascii l1 = true -> forallb is_ascii l2 = true ->
    join (lit ", ") (map (value_debug escape_other) l1) ++ c :: r1 = join (lit ", ") (map (value_debug escape_other) l2) ++ c :: r2 ->
    l1 = l2 /\ r1 = r2.
  Proof.
    induction l1 as [|x l1 IH]; intros [|y l2] c r1 r2 C1 C2 A1 A2 H.
    - cbn in H. inv H. auto.
    - exfalso. destruct l2; cbn in H; inv H; congruence.
    - exfalso. destruct l1; cbn in H; inv H; congruence.
    - cbn [forallb] in A1, A2. apply andb_true_iff in A1 as [A1 B1]. apply andb_true_iff in A2 as [A2 B2].
      destruct l1 as [|x' l1], l2 as [|y' l2]; cbn [map] in H; rewrite ?join_cons in H.
      + cbn [join] in H. apply debug_inj in H as [-> H]; [|assumption..]. inv H. auto.
      + exfalso. cbn [join] in H. rewrite <- !app_assoc in H. apply debug_inj in H as [-> H]; [|assumption..]. cbn in H. inv H. apply C2. reflexivity.
      + exfalso. cbn [join] in H. rewrite <- !app_assoc in H. apply debug_inj in H as [-> H]; [|assumption..]. cbn in H. inv H. apply C2. reflexivity.
      + rewrite <- !app_assoc in H. apply debug_inj in H as [-> H]; [|assumption..]. apply app_inv_head in H.
        apply (IH (y' :: l2) c r1 r2 C1 C2 B1 B2) in H as [-> ->]. auto.
  Qed.

  (** ASCII values: different lists of values are printed differently, by [Display], by [Debug], and in the [Debug] of a
      whole map; the printed text of printable values without quotes and backslashes is the values in quotes. *)
  Theorem C89_printed : forall l1 l2, forallb is_ascii l1 = true -> forallb is_ascii l2 = true ->
    (values_display escape_other l1 = values_display escape_other l2 <-> l1 = l2) /\
    (values_debug escape_other l1 = values_debug escape_other l2 <-> l1 = l2) /\
    ((forall v c, In v l1 -> In c v -> 32 <= c <= 126 /\ c <> 34 /\ c <> 92) ->
      values_display escape_other l1 = lit "[" ++ join (lit ", ") (map (fun v => lit """" ++ v ++ lit """") l1) ++ lit "]").
  Proof.
    intros l1 l2 A1 A2.
    assert (D : values_display escape_other l1 = values_display escape_other l2 -> l1 = l2).
    { unfold values_display. intros H. injection H as H. apply (list_inj l1 l2 93 [] []) in H; [apply H|lia|lia|assumption..]. }
    split; [split; [exact D|congruence]|]. split.
    - split; [|congruence]. unfold values_debug. intros H.
      destruct l1 as [|x [|x' l1]], l2 as [|y [|y' l2]]; try (apply D; exact H); try discriminate H.
      cbn [forallb] in A1, A2. rewrite andb_true_r in A1, A2. f_equal.
      apply (f_equal (fun t => t ++ [])) in H. apply debug_inj in H; [apply H|assumption..].
    - intros P. unfold values_display. change (lit "[") with [91]. change (lit "]") with [93]. cbn [app].
      rewrite (map_ext_in (value_debug escape_other) (fun v => lit """" ++ v ++ lit """") l1); [reflexivity|]. intros v I. unfold value_debug.
      assert (E : flat_map esc v = v); [|rewrite E; reflexivity].
      specialize (P v). assert (P' : forall c, In c v -> 32 <= c <= 126 /\ c <> 34 /\ c <> 92) by (intros; apply P; assumption).
      clear - P'. induction v as [|c v IH]; [reflexivity|]. cbn [flat_map]. rewrite IH by (intros; apply P'; right; assumption).
      destruct (P' c (or_introl eq_refl)) as (R & Q1 & Q2). unfold escape_char.
      replace (c =? 0) with false by lia. replace (c =? 9) with false by lia. replace (c =? 10) with false by lia. replace (c =? 13) with false by lia.
      replace (c =? 34) with false by lia. replace (c =? 92) with false by lia. replace ((c <? 32) || (c =? 127)) with false by lia.
      replace (c <? 128) with true by lia. reflexivity.
  Qed.
  Lemma debug_head l : exists c t, values_debug escape_other l = c :: t /\ (c = 34 \/ c = 91).
  Proof. unfold values_debug, values_display, value_debug. destruct l as [|x [|y l]]; eauto. Qed.
  Lemma values_debug_inj l1 l2 r1 r2 : forallb is_ascii l1 = true -> forallb is_ascii l2 = true ->
    values_debug escape_other l1 ++ r1 = values_debug escape_other l2 ++ r2 -> l1 = l2 /\ r1 = r2.
  Proof.
    intros A1 A2. unfold values_debug.
    assert (D : values_display escape_other l1 ++ r1 = values_display escape_other l2 ++ r2 -> l1 = l2 /\ r1 = r2).
    { unfold values_display. cbn [app]. rewrite <- !app_assoc. intros H. injection H as H. apply list_inj in H; [exact H|lia|lia|assumption..]. }
    destruct l1 as [|x [|x' l1]], l2 as [|y [|y' l2]]; try exact D; try (intros H; discriminate H).
    intros H. cbn [forallb] in A1, A2. rewrite andb_true_r in A1, A2. apply debug_inj in H as [-> H]; auto.
  Qed.
  Theorem C89_map_printed : forall h1 h2, (forall n vs, In (n, vs) (h1 ++ h2) -> is_ascii n = true /\ forallb is_ascii vs = true) ->
    (headers_debug escape_other h1 = headers_debug escape_other h2 <-> h1 = h2).
  Proof.
    intros h1 h2 A. split; [|congruence]. unfold headers_debug. intros H. apply (f_equal (@tl N)) in H. cbn [tl] in H. revert h2 A H.
    induction h1 as [|[n vs] h1 IH]; intros [|[m ws] h2] A H.
    - reflexivity.
    - exfalso. destruct h2; cbn in H; inv H.
    - exfalso. destruct h1; cbn in H; inv H.
    - destruct (A n vs (or_introl eq_refl)) as [An Av].
      destruct (A m ws) as [Am Aw]; [apply in_or_app; right; left; reflexivity|].
      assert (A' : forall k l, In (k, l) (h1 ++ h2) -> is_ascii k = true /\ forallb is_ascii l = true).
      { intros k l I. apply A. apply in_app_or in I as [I|I]; [right; apply in_or_app; auto|]. apply in_or_app. right. right. exact I. }
      specialize (IH h2 A').
      destruct h1 as [|e1 h1], h2 as [|e2 h2]; cbn [map] in H; rewrite ?join_cons in H; cbn [join fst snd] in H; rewrite <- ?app_assoc in H;
        (apply debug_inj in H as [-> H]; [|assumption..]); apply app_inv_head in H;
        (apply values_debug_inj in H as [-> H]; [|assumption..]).
      + reflexivity.
      + exfalso. discriminate H.
      + exfalso. discriminate H.
      + apply app_inv_head in H. rewrite IH; [reflexivity|]. cbn [map join fst snd]. rewrite <- ?app_assoc. exact H.
  Qed.
  (** Printable text without quotes and backslashes is printed as it is: names and single values in quotes, several values in brackets. *)
  Definition plain (v : str) : Prop := forall c, In c v -> 32 <= c <= 126 /\ c <> 34 /\ c <> 92.
  Lemma value_debug_plain v : plain v -> value_debug escape_other v = lit """" ++ v ++ lit """".
  Proof.
    intros P. unfold value_debug. assert (E : flat_map esc v = v); [|rewrite E; reflexivity].
    induction v as [|c v IH]; [reflexivity|]. cbn [flat_map]. rewrite IH by (intros x I; apply P; right; assumption).
    destruct (P c (or_introl eq_refl)) as (R & Q1 & Q2). unfold escape_char.
    replace (c =? 0) with false by lia. replace (c =? 9) with false by lia. replace (c =? 10) with false by lia. replace (c =? 13) with false by lia.
    replace (c =? 34) with false by lia. replace (c =? 92) with false by lia. replace ((c <? 32) || (c =? 127)) with false by lia.
    replace (c <? 128) with true by lia. reflexivity.
  Qed.
  Theorem C89_map_text : forall h, (forall n vs, In (n, vs) h -> plain n /\ Forall plain vs) ->
    headers_debug escape_other h =
    lit "{" ++ join (lit ", ") (map (fun e => lit """" ++ fst e ++ lit """: " ++
      match snd e with
      | [v] => lit """" ++ v ++ lit """"
      | vs => lit "[" ++ join (lit ", ") (map (fun v => lit """" ++ v ++ lit """") vs) ++ lit "]"
      end) h) ++ lit "}".
  Proof.
    intros h P. unfold headers_debug. change (lit "{") with [123]. change (lit "}") with [125]. cbn [app]. do 3 f_equal.
    apply map_ext_in. intros [n vs] I. destruct (P n vs I) as [Pn Pv]. cbn [fst snd]. rewrite value_debug_plain by exact Pn.
    rewrite <- !app_assoc. do 2 f_equal. change (lit """: ") with (lit """" ++ lit ": "). rewrite <- !app_assoc. do 2 f_equal.
    assert (D : values_display escape_other vs = lit "[" ++ join (lit ", ") (map (fun v => lit """" ++ v ++ lit """") vs) ++ lit "]").
    { unfold values_display. change (lit "[") with [91]. change (lit "]") with [93]. cbn [app]. do 3 f_equal. apply map_ext_in.
      intros v J. apply value_debug_plain. rewrite Forall_forall in Pv. apply Pv, J. }
    unfold values_debug. destruct vs as [|v [|w vs]]; [exact D| |exact D]. inversion Pv; subst. apply value_debug_plain. assumption.
  Qed.
End Debug.

(** ** Pairs of texts as headers *)
(** A pair sets the header of that name to that one value, in lower case; it panics exactly if one of the texts is not
    ASCII, and then changes nothing; where a name is asked the second text does not count, where a value is asked the first. *)
Theorem C89_pair : forall h n v,
  (is_ascii n = true -> is_ascii v = true ->
     snd (pair_apply h (n, v)) = Ok tt /\ (forall k, h_get (fst (pair_apply h (n, v))) k = if seqb k (to_lower n) then Some [v] else h_get h k) /\
     forall n' v', pair_insert h (n, v') (n', v) = (fst (pair_apply h (n, v)), Ok (h_get h (to_lower n)))) /\
  (is_ascii n = false \/ is_ascii v = false -> pair_apply h (n, v) = (h, Panic) /\ forall n' v', pair_insert h (n, v') (n', v) = (h, Panic)) /\
  pair_name (n, v) = (if is_ascii n then Ok (to_lower n) else Panic) /\ pair_value (n, v) = (if is_ascii v then Ok v else Panic).
Proof.
  intros h n v. unfold pair_apply, pair_insert, pair_name, pair_value, value_from_bytes. cbn [fst snd].
  destruct (name_into_cases n) as [[An ->]|[An ->]]; rewrite An.
  - destruct (is_ascii v) eqn:Av.
    + split; [|split; [intros [H|H]; discriminate H|split; reflexivity]]. intros _ _. cbn [h_insert to_header_values fst snd]. split; [reflexivity|]. split; [|reflexivity].
      intros k. unfold h_get. destruct (seqb_spec k (to_lower n)) as [->|N]; [apply hm_get_insert_same|apply hm_get_insert_other; exact N].
    + split; [discriminate|]. repeat split; reflexivity.
  - split; [discriminate|]. split; [split; reflexivity|]. split; [reflexivity|]. destruct (is_ascii v); reflexivity.
Qed.

(** ** Trailers *)
(** The same store of multimaps: each step changes one of them as C13 says, a clone starts as its original. *)
Definition mm_do (ms : list multimap) (o : t_op) : list multimap :=
  match o with
  | TOn i o => match nth_error ms i with Some m => firstn i ms ++ fst (mm_step m o) :: skipn (S i) ms | None => ms end
  | TClone i => match nth_error ms i with Some m => ms ++ [m] | None => ms end
  end.
Lemma t_step_headers t o : t_step t o = (mkTrailers (fst (step (t_headers t) o)), snd (step (t_headers t) o)).
Proof.
  destruct t as [h]. destruct o as [s v|s v|s|s|s f]; cbn [t_step step t_headers]; destruct (name_into s) as [n| |]; try reflexivity.
  - destruct (h_insert h n v); reflexivity.
  - destruct (h_append h n v); reflexivity.
Qed.
Lemma replace_forall2 {A B} (R : A -> B -> Prop) l m i a b c : Forall2 R l m -> R a b -> nth_error m i = Some c ->
  Forall2 R (replace_at l i a) (firstn i m ++ b :: skipn (S i) m).
Proof. intros F H. revert i. induction F as [|x y l m X F IH]; intros [|i] E; try discriminate E; [constructor; assumption|]. constructor; [exact X|exact (IH i E)]. Qed.
Lemma nth_forall2 {A B} (R : A -> B -> Prop) l m i : Forall2 R l m ->
  match nth_error l i, nth_error m i with Some a, Some b => R a b | None, None => True | _, _ => False end.
Proof. intros F. revert i. induction F as [|x y l m X F IH]; intros [|i]; cbn; auto. apply IH. Qed.

(** Any history of calls on any number of trailers and their clones: what each call returns and what each of them holds
    afterwards is what the multimap says; indexing reads it; a clone is independent of its original. *)
Theorem C89_trailers : forall ops,
  let ts := fold_left t_do ops [t_new] in let ms := fold_left mm_do ops [mm_empty] in
  length ts = length ms /\
  forall i t m, nth_error ts i = Some t -> nth_error ms i = Some m ->
    (forall n, h_get (t_headers t) n = m n) /\ (forall o, snd (t_step t o) = snd (mm_step m o)) /\
    (forall s, t_index t s = match (if is_ascii s then m (to_lower s) else None) with Some vs => Ok vs | None => Panic end).
Proof.
  intros ops ts ms.
  assert (F : Forall2 (fun t m => refines (t_headers t) m) ts ms).
  { subst ts ms. assert (F0 : Forall2 (fun t m => refines (t_headers t) m) [t_new] [mm_empty]) by (repeat constructor).
    revert F0. generalize [t_new], [mm_empty]. induction ops as [|o ops IH]; intros ts ms F0; [exact F0|]. cbn [fold_left]. apply IH. clear IH.
    destruct o as [i o|i]; cbn [t_do mm_do]; assert (X := nth_forall2 _ ts ms i F0); destruct (nth_error ts i) as [t|], (nth_error ms i) as [m|] eqn:EM; try contradiction; auto.
    - apply (replace_forall2 _ _ _ _ _ _ m F0); [|exact EM]. rewrite t_step_headers. cbn [fst t_headers]. apply step_refines, X.
    - apply Forall2_app; [exact F0|]. constructor; [exact X|constructor]. }
  split; [clear - F; induction F; cbn; congruence|]. intros i t m H1 H2. assert (X := nth_forall2 _ ts ms i F). rewrite H1, H2 in X.
  split; [intros n; apply X|]. split.
  - intros o. rewrite t_step_headers. cbn [snd]. apply step_refines, X.
  - intros s. unfold t_index, h_index, name_from_str. destruct (is_ascii s); [|reflexivity]. cbn [bind]. rewrite (proj2 X). destruct (m (to_lower s)); reflexivity.
Qed.

Print Assumptions C89_iteration.
Print Assumptions C89_iter_mut.
Print Assumptions C89_copy.
Print Assumptions C89_values.
Print Assumptions C89_printed.
Print Assumptions C89_map_printed.
Print Assumptions C89_map_text.
Print Assumptions C89_pair.
Print Assumptions C89_trailers.

Definition ex_ops : list op := [OpInsert (lit "B") (TvText (lit "2")); OpAppend (lit "a") (TvText (lit "1")); OpAppend (lit "A") (TvText (lit "3"))].
Example C89_example :
  let h := fst (run headers_new ex_ops) in
  Permutation h [(lit "a", [lit "1"; lit "3"]); (lit "b", [lit "2"])] /\
  answers n_next 3 (h_names h) = ([Some (lit "b"); Some (lit "a"); None], []) /\
  h_update h [fun _ vs => vs; fun n vs => n :: vs] = [(lit "b", [lit "2"]); (lit "a", [lit "a"; lit "1"; lit "3"])] /\
  h_get (append_entries h h) (lit "a") = Some [lit "1"; lit "3"; lit "1"; lit "3"] /\
  headers_debug (fun _ => []) h = lit "{""b"": ""2"", ""a"": [""1"", ""3""]}" /\
  values_display (fun _ => []) [[7; 34; 97]] = lit "[""\u{7}\""a""]" /\
  values_slice [lit "1"; lit "2"; lit "3"] 1 3 = Ok [lit "2"; lit "3"] /\
  pair_apply [] (lit "X-Y", lit "z") = ([(lit "x-y", [lit "z"])], Ok tt) /\
  map t_headers (fold_left t_do [TOn 0 (OpInsert (lit "A") (TvText (lit "1"))); TClone 0; TOn 1 (OpAppend (lit "a") (TvText (lit "2")))] [t_new])
    = [[(lit "a", [lit "1"])]; [(lit "a", [lit "1"; lit "2"])]].
Proof. split; [vm_compute; apply perm_swap|vm_compute; repeat split; reflexivity]. Qed.
