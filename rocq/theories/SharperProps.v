(** Exact forms of some earlier claims: C11, C17, C22, C23, C27, C86. *)
From Coq Require Import ZifyBool ZifyNat ZifyN Lia.
From Verif Require Import Base BaseFacts StatusCode EnumProps Headers HeadersFacts HeadersProps Mime MimeFacts MimeProps Utf8 Body BodyFacts BodyProps Float Negotiate NegotiateFacts NegotiateProps Lists ListsProps.
Open Scope N_scope.

(** ** C11: a number is read as a status exactly when it differs from the status' code by a multiple of 65536. *)
Theorem C11_deserialize_iff : forall v c, status_deserialize v = Some c <-> exists k, (v = status_serialize c + 65536 * k)%Z.
Proof.
  intros v c. assert (B : (0 <= status_serialize c < 65536)%Z) by (destruct c; vm_compute; split; first [discriminate|reflexivity]).
  split.
  - intros H. exists (v / 65536)%Z. assert (M := Z.mod_pos_bound v 65536 ltac:(lia)).
    assert (H' : status_deserialize (v mod 65536) = Some c) by (unfold status_deserialize in *; rewrite Z.mod_mod by lia; exact H).
    apply C11_deserialize_16bit_partial in H' as (_ & ->); [|exact M]. rewrite Z.add_comm. apply Z.div_mod. lia.
  - intros (k & ->). assert (R := C11_serde_round_trip c). unfold status_deserialize in *. rewrite Z.mul_comm, Z_mod_plus_full. exact R.
Qed.
Example C11_deserialize_example : status_deserialize (200 - 3 * 65536) = Some S_Ok /\ status_deserialize 201%Z = Some S_Created /\ status_deserialize 65535%Z = None.
Proof. vm_compute. repeat split. Qed.
Print Assumptions C11_deserialize_iff.

(** ** C17: what the size hint of a walk over all values is: the number of header names not yet begun, however many values they have. *)
Lemma next_entry_cut : forall l,
  (exists e v vs l', l = e ++ (v :: vs) :: l' /\ concat e = [] /\ next_entry l = (Some v, mkIter (Some l') (Some (v :: vs)) 1)) \/
  (concat l = [] /\ next_entry l = (None, mkIter (Some []) None 0)).
Proof.
  induction l as [|[|v vs] l IH]; cbn [next_entry nth_error concat app].
  - right. split; reflexivity.
  - destruct IH as [(e & v & vs & l' & -> & E & N)|(E & N)]; [left|right; split; assumption]. exists ([] :: e), v, vs, l'. split; [reflexivity|]. split; [exact E|exact N].
  - left. exists [], v, vs, l. split; [reflexivity|]. split; reflexivity.
Qed.
Definition walk (h : headers) (k : nat) (it : values_iter) : Prop := exists a b, map snd h = a ++ b /\ it_inner it = Some b /\
  ((it_slot it = None /\ ((a = [] /\ k = 0%nat) \/ (b = [] /\ (length (concat a) < k)%nat))) \/
   exists a' x, a = a' ++ [x] /\ it_slot it = Some x /\ (1 <= it_cursor it <= length x)%nat /\ (k = length (concat a') + it_cursor it)%nat).
Lemma walk_entry : forall h a b, map snd h = a ++ b -> walk h (S (length (concat a))) (snd (next_entry b)).
Proof.
  intros h a b E. destruct (next_entry_cut b) as [(e & v & vs & l' & -> & Ee & ->)|(Eb & ->)]; cbn [snd].
  - exists (a ++ e ++ [v :: vs]), l'. split; [rewrite E, <- !app_assoc; reflexivity|]. split; [reflexivity|]. right. exists (a ++ e), (v :: vs).
    split; [now rewrite <- app_assoc|]. split; [reflexivity|]. cbn [it_cursor length]. split; [lia|]. rewrite concat_app, Ee, app_nil_r. lia.
  - exists (a ++ b), []. split; [now rewrite app_nil_r|]. split; [reflexivity|]. left. split; [reflexivity|]. right. split; [reflexivity|]. rewrite concat_app, Eb, app_nil_r. lia.
Qed.
Lemma walk_next : forall h k it, walk h k it -> walk h (S k) (snd (next it)).
Proof.
  intros h k [i s c] (a & b & E & I & H). cbn [it_inner it_slot it_cursor] in *. subst i.
  destruct H as [(-> & [(-> & ->)|(-> & L)])|(a' & x & -> & -> & B & ->)]; unfold next; cbn [it_slot it_inner it_cursor advance].
  - exact (walk_entry h [] b E).
  - cbn [next_entry snd]. exists a, []. split; [exact E|]. split; [reflexivity|]. left. split; [reflexivity|]. right. split; [reflexivity|]. lia.
  - destruct (nth_error x c) as [v|] eqn:V; cbn [snd].
    + exists (a' ++ [x]), b. split; [exact E|]. split; [reflexivity|]. right. exists a', x. split; [reflexivity|]. split; [reflexivity|]. cbn [it_cursor].
      assert (c < length x)%nat by (apply nth_error_Some; congruence). lia.
    + apply nth_error_None in V. replace (length (concat a') + c)%nat with (length (concat (a' ++ [x]))); [apply walk_entry; exact E|].
      rewrite concat_app, app_length. cbn [concat]. rewrite app_nil_r. lia.
Qed.
(** After [k] calls to [next] the headers [b] not yet begun are those after the shortest run [a] of headers with [k] values among them (all of them are begun when there
    are fewer than [k] values). *)
Theorem C17_size_hint_iff : forall h k, exists a b, map snd h = a ++ b /\
  size_hint (after k (headers_values h)) = (N.of_nat (length b), Some (N.of_nat (length b))) /\
  (k <= length (concat a) \/ b = [])%nat /\ (forall a' x, a = a' ++ [x] -> (length (concat a') < k)%nat).
Proof.
  intros h k. assert (W : walk h k (after k (headers_values h))).
  { induction k as [|k IH]; [exists [], (map snd h); cbn; tauto|]. exact (walk_next _ _ _ IH). }
  destruct W as (a & b & E & I & H). exists a, b. split; [exact E|]. split; [unfold size_hint; now rewrite I|].
  assert (T : forall (a' : list header_values) (x : header_values), length (concat (a' ++ [x])) = (length (concat a') + length x)%nat) by (intros; rewrite concat_app, app_length; cbn [concat]; now rewrite app_nil_r).
  destruct H as [(_ & [(-> & ->)|(-> & L)])|(a' & x & -> & _ & B & K)].
  - split; [left; cbn; lia|]. intros a' x Q. destruct a'; discriminate Q.
  - split; [now right|]. intros a' x ->. rewrite T in L. lia.
  - rewrite T. split; [left; lia|]. intros a2 x2 Q. apply app_inj_tail in Q as (<- & _). lia.
Qed.
(** Before the first call: the number of header names; right exactly when there are as many values as names. *)
Corollary C17_size_hint_right_iff : forall h l, (forall fuel, (length (concat (map snd h)) < fuel)%nat -> collect fuel (headers_values h) = Some l) ->
  (size_hint (headers_values h) = (N.of_nat (length l), Some (N.of_nat (length l))) <-> length (concat (map snd h)) = length h).
Proof.
  intros h l C. assert (L : l = concat (map snd h)). { specialize (C (S (length (concat (map snd h)))) ltac:(lia)). rewrite collect_spec in C; [injection C as <-; reflexivity|]. unfold remaining, headers_values, iter_new. cbn [it_slot it_inner app]. apply Nat.lt_succ_diag_r. }
  unfold size_hint. cbn [it_inner headers_values iter_new]. rewrite map_length. subst l. split; [intros Q; injection Q as Q; apply Nat2N.inj in Q; symmetry; exact Q|intros Q; now rewrite Q].
Qed.
Example C17_size_hint_example : let h := [(lit "a", [lit "1"; lit "2"]); (lit "e", []); (lit "b", [lit "3"])] in
  map (fun k => fst (size_hint (after k (headers_values h)))) [0; 1; 2; 3; 4]%nat = [3; 2; 2; 0; 0].
Proof. vm_compute. reflexivity. Qed.
Print Assumptions C17_size_hint_iff.
Print Assumptions C17_size_hint_right_iff.

(** ** C22: the match against any parsed range: the range without the charset it has by being UTF-8. *)
Theorem C22_subset_eq_iff : forall s t m r, mime_parse s = Ok m -> mime_parse t = Ok r ->
  (is_utf8 r = false -> (subset_eq m r = true <-> matches m r)) /\
  (is_utf8 r = true -> forall v r', remove_param r (lit "charset") = Ok (v, r') -> v = Some (lit "utf-8") /\ (subset_eq m r = true <-> matches m r')).
Proof.
  intros s t m r Pm Pr. split; [exact (C22_subset_eq_is_matching_partial s t m r Pm Pr)|]. intros U v r' R.
  unfold remove_param in R. change (param_name (lit "charset")) with (Ok (lit "charset")) in R. cbn [bind] in R. rewrite U, seqb_refl in R. cbn [andb] in R. injection R as <- <-.
  split; [reflexivity|]. apply parsed_good in Pr. destruct Pr as [D _]. rewrite subset_eq_spec. unfold matches. cbn [basetype subtype].
  assert (A : forall n v, get_param (mkMime (essence r) (basetype r) (subtype r) false (params r)) n = Some v <-> In (n, v) (params r)).
  { intros n v. unfold get_param. cbn [is_utf8 params]. rewrite andb_false_r. apply find_param_in, D. }
  split; intros (H1 & H2 & H3); (split; [exact H1|split; [exact H2|]]); intros n v I; apply H3, A, I.
Qed.
Example C22_subset_eq_example : exists m r r', mime_parse (lit "text/html;a=1") = Ok m /\ mime_parse (lit "text/html;charset=utf-8;a=1") = Ok r /\
  is_utf8 r = true /\ remove_param r (lit "charset") = Ok (Some (lit "utf-8"), r') /\ subset_eq m r = true.
Proof. do 3 eexists. vm_compute. repeat split. Qed.
Print Assumptions C22_subset_eq_iff.

(** ** C27: reading a body as a string panics exactly when its declared length is more than a string may hold. *)
Theorem C27_into_string_panics_iff : forall b content caps r, holds b content -> into_string caps b = Some r ->
  (r = Panic <-> exists l, body_len b = Some l /\ 2 ^ 63 - 1 < l).
Proof.
  intros b c caps r H E. split.
  - intros ->. unfold into_string in E. destruct (body_len b) as [l|].
    + destruct (N.ltb_spec isize_max l) as [L|L]; [exists l; split; [reflexivity|exact L]|].
      destruct (read_to_end caps b []) as [x|] eqn:R; [|discriminate]. apply holds_rest in H as [W <-]. apply read_to_end_spec in R; [|exact W].
      destruct R as [->|[-> _]]; cbn in E; [|discriminate]. destruct (utf8_decode _); discriminate.
    + change (isize_max <? 0) with false in E. destruct (read_to_end caps b []) as [x|] eqn:R; [|discriminate]. apply holds_rest in H as [W <-]. apply read_to_end_spec in R; [|exact W].
      destruct R as [->|[-> _]]; cbn in E; [|discriminate]. destruct (utf8_decode _); discriminate.
  - intros (l & L & B). unfold into_string in E. rewrite L in E. assert (K : isize_max <? l = true) by (unfold isize_max; lia). rewrite K in E. congruence.
Qed.
Example C27_into_string_example : into_string [9; 9]%nat (from_reader [EData 78 [111]] (Some (2 ^ 63))) = Some Panic /\
  into_string [9; 9]%nat (from_reader [EData 78 [111]] (Some (2 ^ 63 - 1))) = Some (Ok (lit "No")).
Proof. vm_compute. split; reflexivity. Qed.
Print Assumptions C27_into_string_panics_iff.

(** ** C23: the header value of a parsed type is ASCII exactly when the values of its parameters are. *)
Theorem C23_ascii_iff : forall s m, mime_parse s = Ok m ->
  (is_ascii (mime_header_value m) = true <-> forall n v, In (n, v) (params m) -> is_ascii v = true).
Proof.
  intros s m P. destruct (mime_parse_good s) as [(m0 & E & G)|E]; [|congruence]. assert (m0 = m) by congruence. subst m0.
  assert (TA : forall t, forallb is_token_cp t = true -> is_ascii t = true) by (intros t T; exact (tokens_impl (fun c => c <? 128) _ (fun c H => proj2 (N.ltb_lt _ _) (proj1 (token_cases c H))) T)).
  split.
  - intros A n v I. unfold mime_header_value, mime_format in A. rewrite !is_ascii_app in A. apply andb_true_iff in A as [_ A]. apply andb_true_iff in A as [_ A].
    induction (params m) as [|[k w] ps IH]; [destruct I|]. cbn [flat_map fst snd] in A. rewrite is_ascii_app in A. apply andb_true_iff in A as [A1 A2].
    destruct I as [I|I]; [|now apply IH]. assert (k = n /\ w = v) as [-> ->] by (split; congruence). clear IH A2 I.
    unfold format_param in A1. destruct (forallb is_token_cp v && _) eqn:T.
    + apply andb_true_iff in T as [T _]. now apply TA.
    + rewrite !is_ascii_app in A1. apply andb_true_iff in A1 as [_ A1]. apply andb_true_iff in A1 as [_ A1]. apply andb_true_iff in A1 as [_ A1]. apply andb_true_iff in A1 as [A1 _].
      clear T. induction v as [|c v IH]; [reflexivity|]. unfold escape_value in A1. cbn [flat_map] in A1. rewrite is_ascii_app in A1. apply andb_true_iff in A1 as [B1 B2].
      unfold is_ascii in *. cbn [forallb]. rewrite (IH B2), andb_true_r. destruct ((c =? 34) || (c =? 92)); cbn [forallb] in B1; lia.
  - intros A. apply ascii_format.
    + destruct G as (_ & B & _ & _ & S & _ & -> & _). rewrite !is_ascii_app, (TA _ B), (TA _ S). reflexivity.
    + intros n v I. split; [|exact (A n v I)]. apply TA. destruct (parsed_good s m P) as [_ GP]. apply (GP (n, v) I).
Qed.
Example C23_ascii_example : exists m n, mime_parse (lit "a/b;c=d;e=" ++ [255]) = Ok m /\ mime_parse (lit "a/b;c=d;e=""~""") = Ok n /\
  is_ascii (mime_header_value m) = false /\ In (lit "e", [255]) (params m) /\ is_ascii (mime_header_value n) = true.
Proof. do 2 eexists. split; [vm_compute; reflexivity|]. split; [vm_compute; reflexivity|]. vm_compute. auto. Qed.
Print Assumptions C23_ascii_iff.

(** ** C86: the second answer of one Accept value: of the equally heavy ranges the one declared first decides. *)
Theorem C86_media_second_answer : forall l w available1 available2 m, Forall (fun p => good_weight (mp_weight p)) l ->
  nth_error (answers media_negotiate_mut (l, w) [available1; available2]) 1 = Some (Ok m) ->
  (exists i p, nth_error l i = Some p /\ first_match available2 (mp_type p) m /\
     forall j p' m', nth_error l j = Some p' -> In m' available2 -> subset_eq m' (mp_type p') = true ->
       rank (mp_weight p') < rank (mp_weight p) \/ rank (mp_weight p') = rank (mp_weight p) /\ (i <= j)%nat) \/
  (w = true /\ hd_error available2 = Some m /\ forall p m', In p l -> In m' available2 -> subset_eq m' (mp_type p) = false).
Proof.
  intros l w av1 av2 m G H. cbn [answers media_negotiate_mut nth_error fst snd] in H. unfold m_sort in H. cbn [fst snd] in H.
  assert (H' : media_negotiate (sort_by_weight mp_weight l, w) av2 = Ok m) by congruence. clear H. unfold media_negotiate in H'. cbn [fst snd] in H'. rewrite find_media_spec in H'.
  destruct (find (fun p => existsb _ av2) _) as [p|] eqn:F.
  - apply first_in_sort_twice in F as (i & I & Px & B); [|exact G]. left. exists i, p. split; [exact I|].
    destruct (find (fun x => subset_eq x (mp_type p)) av2) as [m'|] eqn:Q.
    + assert (m' = m) as -> by congruence. split; [now apply find_first|]. intros j p' m' J A S. apply B; [exact J|]. apply existsb_exists. eauto.
    + exfalso. apply existsb_exists in Px as (m' & A & S). rewrite (find_none _ _ Q m' A) in S. discriminate S.
  - destruct w, av2 as [|m0 av]; try discriminate H'. assert (m0 = m) as -> by congruence. right. split; [reflexivity|]. split; [reflexivity|].
    intros p m' I A. assert (I' : In p (sort_by_weight mp_weight l)) by now apply (proj2 (in_sort mp_weight l p)).
    apply find_sort_none with (x := p) in F; [|exact I']. destruct (subset_eq m' (mp_type p)) eqn:E; [|reflexivity].
    rewrite (proj2 (existsb_exists _ _) (ex_intro _ m' (conj A E))) in F. discriminate F.
Qed.
(** So two equal questions get two equal answers exactly when the first and the last of the heaviest ranges that match anything
    lead to the same type. *)
Definition decides (l : list media_proposal) (available : list mime) (before : nat -> nat -> Prop) (m : mime) : Prop :=
  exists i p, nth_error l i = Some p /\ first_match available (mp_type p) m /\
    forall j p' m', nth_error l j = Some p' -> In m' available -> subset_eq m' (mp_type p') = true ->
      rank (mp_weight p') < rank (mp_weight p) \/ rank (mp_weight p') = rank (mp_weight p) /\ before i j.
Lemma first_match_one : forall av r m m', first_match av r m -> first_match av r m' -> m = m'.
Proof.
  intros av r m m' (a & b & -> & S & B) (a' & b' & E & S' & B'). revert a' E B'. induction a as [|x a IH]; intros [|y a'] E B'.
  - cbn [app] in E. congruence.
  - assert (y = m) by (cbn [app] in E; congruence). subst y. rewrite (B' m (or_introl eq_refl)) in S. discriminate S.
  - assert (x = m') by (cbn [app] in E; congruence). subst x. rewrite (B m' (or_introl eq_refl)) in S'. discriminate S'.
  - apply IH with (a' := a'); [intros z I; apply B; now right|cbn [app] in E; congruence|intros z I; apply B'; now right].
Qed.
Lemma decides_one : forall l av (before : nat -> nat -> Prop) m m', (forall i j, before i j -> before j i -> i = j) -> decides l av before m -> decides l av before m' -> m = m'.
Proof.
  intros l av before m m' AS (i & p & I & F & B) (j & p' & J & F' & B'). assert (F0 := F). assert (F0' := F').
  destruct F as (a & b & E & S & _), F' as (a' & b' & E' & S' & _).
  assert (M : In m av) by (rewrite E; apply in_elt). assert (M' : In m' av) by (rewrite E'; apply in_elt).
  specialize (B j p' m' J M' S'). specialize (B' i p m I M S). assert (i = j) as -> by (apply AS; destruct B as [B|[Q B]], B' as [B'|[Q' B']]; first [assumption|lia]).
  assert (p = p') as -> by congruence. exact (first_match_one _ _ _ _ F0 F0').
Qed.
Theorem C86_media_answers : forall l w available m1 m2, Forall (fun p => good_weight (mp_weight p)) l ->
  decides l available (fun i j => j <= i)%nat m1 -> decides l available (fun i j => i <= j)%nat m2 ->
  answers media_negotiate_mut (l, w) [available; available] = [Ok m1; Ok m2].
Proof.
  intros l w av m1 m2 G D1 D2.
  assert (SOME : exists p m, In p l /\ In m av /\ subset_eq m (mp_type p) = true).
  { destruct D1 as (i & p & I & (a & b & E & S & _) & _). exists p, m1. split; [exact (nth_error_In _ _ I)|]. split; [rewrite E; apply in_elt|exact S]. }
  destruct SOME as (p0 & n0 & I0 & A0 & S0).
  assert (K : forall l', (forall p, In p l <-> In p l') -> exists m, media_negotiate (l', w) av = Ok m).
  { intros l' P. destruct (media_negotiate (l', w) av) as [m|e|] eqn:E; [now exists m| |].
    - apply C51_not_acceptable in E as (_ & N & _). rewrite (N p0 n0 (proj1 (P p0) I0) A0) in S0. discriminate S0.
    - unfold media_negotiate in E. destruct (find_media _ _); [discriminate E|]. destruct (snd (l', w)), av; discriminate E. }
  destruct (K l ltac:(tauto)) as (x & X). destruct (K (sort_by_weight mp_weight l) ltac:(intros p; symmetry; apply in_sort)) as (y & Y).
  assert (Q : answers media_negotiate_mut (l, w) [av; av] = [Ok x; Ok y]).
  { cbn [answers media_negotiate_mut fst snd]. unfold m_sort. cbn [fst snd]. now rewrite X, Y. }
  rewrite Q. f_equal; [|f_equal]; f_equal.
  - apply C51_best in X as [X|(_ & _ & N)]; [|rewrite (N p0 n0 I0 A0) in S0; discriminate S0|exact G].
    refine (decides_one l av _ x m1 _ _ D1); [intros i j L1 L2; apply Nat.le_antisymm; assumption|].
    destruct X as (i & p & I & F & B). exists i, p. split; [exact I|]. split; [exact F|]. intros j p' m' J A S. specialize (B j p' m' J A S). unfold no_better in B. exact B.
  - assert (Z : nth_error (answers media_negotiate_mut (l, w) [av; av]) 1 = Some (Ok y)) by (rewrite Q; reflexivity).
    apply C86_media_second_answer in Z as [Z|(_ & _ & N)]; [|rewrite (N p0 n0 I0 A0) in S0; discriminate S0|exact G].
    refine (decides_one l av _ y m2 _ Z D2). intros i j L1 L2. apply Nat.le_antisymm; assumption.
Qed.
Example C86_media_answers_example : exists l m1 m2, media_from_headers [(lit "accept", [lit "text/html, text/*;q=0.5, image/png, a/b"])] = Ok (Some (l, false)) /\
  m1 = mime_of (lit "image/png") /\ m2 = mime_of (lit "text/html") /\
  Forall (fun p => good_weight (mp_weight p)) l /\ decides l [m2; m1] (fun i j => j <= i)%nat m1 /\ decides l [m2; m1] (fun i j => i <= j)%nat m2 /\
  answers media_negotiate_mut (l, false) [[m2; m1]; [m2; m1]] = [Ok m1; Ok m2].
Proof.
  exists [MediaProposal (mime_of (lit "text/html")) (milli 1000); MediaProposal (mime_of (lit "text/*")) (milli 500);
          MediaProposal (mime_of (lit "image/png")) (milli 1000); MediaProposal (mime_of (lit "a/b")) (milli 1000)], (mime_of (lit "image/png")), (mime_of (lit "text/html")).
  split; [vm_compute; reflexivity|]. split; [reflexivity|]. split; [reflexivity|].
  split; [apply Forall_forall; intros p I; repeat (destruct I as [<-|I]; [eexists; split; [vm_compute; reflexivity|vm_compute; discriminate]|]); destruct I|].
  assert (T : forall (b : nat -> nat -> Prop) k, (k = 2%nat \/ k = 0%nat) -> b k k -> b k (2 - k)%nat -> forall j p' m',
     nth_error [MediaProposal (mime_of (lit "text/html")) (milli 1000); MediaProposal (mime_of (lit "text/*")) (milli 500);
          MediaProposal (mime_of (lit "image/png")) (milli 1000); MediaProposal (mime_of (lit "a/b")) (milli 1000)] j = Some p' ->
     In m' [mime_of (lit "text/html"); mime_of (lit "image/png")] -> subset_eq m' (mp_type p') = true ->
     rank (mp_weight p') < rank (milli 1000) \/ rank (mp_weight p') = rank (milli 1000) /\ b k j).
  { intros b k K B1 B2 j p' m' J A S. destruct j as [|[|[|[|j]]]]; cbn [nth_error] in J; try (destruct j; discriminate J);
      (match type of J with Some ?x = _ => assert (p' = x) as -> by congruence end); cbn [mp_weight mp_type] in *.
    - right. split; [reflexivity|]. destruct K as [-> | ->]; assumption.
    - left. vm_compute. reflexivity.
    - right. split; [reflexivity|]. destruct K as [-> | ->]; assumption.
    - exfalso. destruct A as [<-|[<-|[]]]; vm_compute in S; discriminate S. }
  split; [|split; [|vm_compute; reflexivity]].
  - exists 2%nat. eexists. split; [reflexivity|]. split; [exists [mime_of (lit "text/html")], []; split; [reflexivity|]; split; [vm_compute; reflexivity|]; intros x [<-|[]]; vm_compute; reflexivity|].
    apply (T (fun i j => j <= i)%nat 2%nat); [auto| |]; cbn; lia.
  - exists 0%nat. eexists. split; [reflexivity|]. split; [exists [], [mime_of (lit "image/png")]; split; [reflexivity|]; split; [vm_compute; reflexivity|]; intros x []|].
    apply (T (fun i j => i <= j)%nat 0%nat); [auto| |]; cbn; lia.
Qed.
Print Assumptions C86_media_second_answer.
Print Assumptions C86_media_answers.
