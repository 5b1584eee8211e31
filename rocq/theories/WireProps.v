(** C108: a client proposes codings or media types in a header, the server reads the header, chooses and names its choice in a header, and
    the client reads that; compared with a choice made among the proposals themselves. *)
From Coq Require Import ZifyBool ZifyNat ZifyN Lia Permutation.
From Verif Require Import Base BaseFacts Headers HeadersFacts Typed TypedFacts Mime MimeFacts Float FloatFacts Negotiate NegotiateFacts NegotiateProps Other OtherProps.

(** ** Arranging rounded proposals *)
Section Arrange.
  Context {T : Type} (weight : T -> option float) (f : T -> T).
  (** Any two proposals compare alike before and after. *)
  Definition alike (l : list (N * T)) : Prop := forall a b, In a l -> In b l -> item_cmp weight (fst a, f (snd a)) (fst b, f (snd b)) = item_cmp weight a b.
  Let g (a : N * T) : N * T := (fst a, f (snd a)).
  Lemma insert_alike : forall a l, alike (a :: l) -> insert_item weight (g a) (map g l) = map g (insert_item weight a l).
  Proof.
    intros a l. induction l as [|b l IH]; intros A; [reflexivity|]. cbn [map insert_item]. unfold g at 1 2. cbn [fst snd].
    rewrite (A a b) by (cbn; auto). destruct (item_cmp weight a b); try reflexivity. cbn [map]. f_equal. apply IH. intros x y X Y. apply A; cbn in *; tauto.
  Qed.
  Lemma sort_alike : forall l, alike l -> sort_items weight (map g l) = map g (sort_items weight l).
  Proof.
    induction l as [|a l IH]; intros A; [reflexivity|]. cbn [map sort_items]. rewrite IH by (intros x y X Y; apply A; cbn; auto). apply insert_alike.
    assert (K : forall x, In x (a :: sort_items weight l) -> In x (a :: l)) by (intros x [<-|X]; [now left|right; exact (Permutation_in _ (sort_perm weight l) X)]).
    intros x y X Y. apply A; now apply K.
  Qed.
  Lemma enumerate_map : forall l i, enumerate i (map f l) = map g (enumerate i l).
  Proof. induction l as [|x l IH]; intros i; [reflexivity|]. cbn [map enumerate]. now rewrite IH. Qed.
  Lemma arranged : forall l, alike (enumerate 0 l) -> sort_by_weight weight (map f l) = map f (sort_by_weight weight l).
  Proof. intros l A. unfold sort_by_weight. rewrite enumerate_map, sort_alike by exact A. rewrite !map_map. reflexivity. Qed.
End Arrange.

(** ** Rounding to thousandths *)
Lemma rhe_mono : forall a a' b, 0 < b -> a <= a' -> rhe a b <= rhe a' b.
Proof.
  intros a a' b B L. destruct (N.le_gt_cases (rhe a b) (rhe a' b)) as [H|H]; [exact H|].
  destruct (rhe_bounds a b B) as [A _]. destruct (rhe_bounds a' b B) as [_ A'].
  assert (X : 2 * b * rhe a' b + 2 * b <= 2 * b * rhe a b) by nia. assert (a = a') as <- by lia. lia.
Qed.
Lemma thousandths_mono : forall v v', v <= v' -> thousandths f32 v <= thousandths f32 v'.
Proof. intros v v' L. unfold thousandths. apply rhe_mono; [apply pow2_pos|]. now apply N.mul_le_mono_r. Qed.
(** A weight after printing and reading. *)
Lemma milli_fin : forall k, k <= 1000 -> exists u, milli k = Some (Fin false u) /\ u <= 2 ^ 149 /\ thousandths f32 u = k.
Proof.
  intros k K. destruct (round_unit k 1000 eq_refl K) as (u & R & L). exists u. unfold milli. rewrite R. split; [reflexivity|]. split; [exact L|]. now apply thousandths_round.
Qed.
Lemma milli_rank : forall k k', k <= 1000 -> k' <= 1000 -> N.compare (rank (milli k)) (rank (milli k')) = N.compare k k'.
Proof.
  assert (S : forall k k', k <= 1000 -> k' <= 1000 -> k < k' -> rank (milli k) < rank (milli k')).
  { intros k k' K K' L. destruct (milli_fin k K) as (u & -> & _ & U). destruct (milli_fin k' K') as (u' & -> & _ & U'). cbn [rank].
    destruct (N.le_gt_cases u' u) as [H|H]; [apply thousandths_mono in H; lia|lia]. }
  intros k k' K K'. destruct (N.compare_spec k k') as [->|E|E]; [apply N.compare_refl|apply N.compare_lt_iff; auto|apply N.compare_gt_iff; auto].
Qed.
Lemma show_milli_inj : forall k k', k <= 1000 -> k' <= 1000 -> show_milli k = show_milli k' -> k = k'.
Proof.
  intros k k' K K' E. assert (P := parse_milli f32 k). assert (P' := parse_milli f32 k'). rewrite E in P. rewrite P in P' by lia.
  destruct (milli_fin k K) as (u & M & _ & U). destruct (milli_fin k' K') as (u' & M' & _ & U'). unfold milli in M, M'. specialize (P' ltac:(lia)). congruence.
Qed.

Section Rounded.
  Context {T : Type} (weight : T -> option float) (f : T -> T) (l : list T).
  Context (good : Forall (fun p => good_weight (weight p)) l) (rounds : forall p, In p l -> weight (f p) = to_milli (weight p)).
  (** Of two proposals the one that weighs more is later or its weight is written differently. *)
  Definition kept_apart : Prop := forall i j p q x y, (i < j)%nat -> nth_error l i = Some p -> nth_error l j = Some q ->
    weight p = Some x -> weight q = Some y -> fcmp y x = Some Lt -> show3 f32 x <> show3 f32 y.
  Lemma rounded_alike : kept_apart -> alike weight f (enumerate 0 l).
  Proof.
    intros KA [i p] [j q] A B. cbn [fst snd]. apply in_enumerate in A as [_ A]. apply in_enumerate in B as [_ B]. rewrite N.sub_0_r in A, B.
    assert (Ip := nth_error_In _ _ A). assert (Iq := nth_error_In _ _ B). assert (G := good). rewrite Forall_forall in G. assert (Gp := G p Ip). assert (Gq := G q Iq).
    unfold item_cmp. cbn [fst snd]. rewrite !(rounds _ Ip), !(rounds _ Iq).
    assert (TG : forall w, good_weight w -> good_weight (to_milli w)).
    { intros [x|] W; [|exact I]. destruct W as (v & -> & L). cbn [to_milli]. destruct (milli_fin _ (thousandths_le v L)) as (u & -> & U & _). exists u. auto. }
    rewrite !sort_cmp_rank by auto.
    destruct (weight p) as [x|] eqn:Wp, (weight q) as [y|] eqn:Wq; cbn [to_milli].
    - destruct Gp as (v & -> & Lv), Gq as (v' & -> & Lv'). cbn [to_milli]. assert (Kv := thousandths_le v Lv). assert (Kv' := thousandths_le v' Lv').
      rewrite (milli_rank _ _ Kv' Kv). cbn [rank].
      assert (P := KA (N.to_nat i) (N.to_nat j) p q). assert (Q := KA (N.to_nat j) (N.to_nat i) q p).
      destruct (N.compare_spec (v' + 1) (v + 1)) as [E|E|E].
      + assert (v' = v) as -> by lia. now rewrite N.compare_refl.
      + assert (M := thousandths_mono v' v ltac:(lia)). destruct (N.compare_spec (thousandths f32 v') (thousandths f32 v)) as [F|F|F]; [|reflexivity|lia].
        destruct (N.compare_spec j i) as [J|J|J]; [|reflexivity|].
        * exfalso. subst j. rewrite A in B. assert (p = q) as <- by congruence. rewrite Wp in Wq. assert (v = v') by congruence. lia.
        * exfalso. apply (P (Fin false v) (Fin false v')); auto; [lia| |cbn [show3 app]; now rewrite F]. cbn [fcmp]. f_equal. apply N.compare_lt_iff. lia.
      + assert (M := thousandths_mono v v' ltac:(lia)). destruct (N.compare_spec (thousandths f32 v') (thousandths f32 v)) as [F|F|F]; [|lia|reflexivity].
        destruct (N.compare_spec j i) as [J|J|J]; [| |reflexivity].
        * exfalso. subst j. rewrite A in B. assert (p = q) as <- by congruence. rewrite Wp in Wq. assert (v = v') by congruence. lia.
        * exfalso. apply (Q (Fin false v') (Fin false v)); auto; [lia| |cbn [show3 app]; now rewrite F]. cbn [fcmp]. f_equal. apply N.compare_lt_iff. lia.
    - destruct Gp as (v & -> & Lv). cbn [to_milli]. destruct (milli_fin _ (thousandths_le v Lv)) as (u & -> & _). cbn [rank]. destruct (N.compare_spec 0 (u + 1)), (N.compare_spec 0 (v + 1)); try lia. reflexivity.
    - destruct Gq as (v & -> & Lv). cbn [to_milli]. destruct (milli_fin _ (thousandths_le v Lv)) as (u & -> & _). cbn [rank]. destruct (N.compare_spec (u + 1) 0), (N.compare_spec (v + 1) 0); try lia. reflexivity.
    - reflexivity.
  Qed.
End Rounded.

(** ** Codings *)
(** The client applies [AcceptEncoding] or [TE] to its request; the server reads it, calls [negotiate] and applies what it got to its
    response; the client reads that. *)
Definition exchange (k : family) (request response : headers) (a : list proposal * bool) (available : list coding) : outcome (option coding) :=
  let* o := accept_from_headers k (accept_apply k request a) in
  match o with
  | None => Ok None
  | Some a' => let* c := negotiate a' available in encoding_from_headers k (encoding_apply k response c)
  end.
Definition rounded (p : proposal) : proposal := Proposal (p_coding p) (to_milli (p_weight p)).
Definition sound (k : family) (l : list proposal) (available : list coding) : Prop :=
  Forall (fun p => in_family k (p_coding p) = true /\ good_weight (p_weight p)) l /\ Forall (fun c => in_family k c = true) available.
Lemma negotiate_member : forall a av c, negotiate a av = Ok c -> In c av.
Proof.
  intros [l w] av c H. unfold negotiate in H. cbn [fst snd] in H. destruct (find _ _) as [p|] eqn:F.
  - apply find_some in F as [_ F]. apply available_has_in in F. congruence.
  - destruct w, av as [|c' av]; try discriminate H. left. congruence.
Qed.
Lemma exchanged : forall k hq hr l w av, sound k l av -> exchange k hq hr (l, w) av = let* c := negotiate (map rounded l, w) av in Ok (Some c).
Proof.
  intros k hq hr l w av [S A]. unfold exchange. rewrite (C53_round_trip k hq l w S). cbn [bind]. fold rounded.
  destruct (negotiate _ av) as [c|e|] eqn:N; cbn [bind]; try reflexivity. apply C54_round_trip. rewrite Forall_forall in A. apply A. exact (negotiate_member _ _ _ N).
Qed.
Lemma find_map_comm : forall A (P : A -> bool) (f : A -> A) l, (forall a, P (f a) = P a) -> find P (map f l) = option_map f (find P l).
Proof. intros A P f l H. induction l as [|a l IH]; [reflexivity|]. cbn [map find]. rewrite H. destruct (P a); [reflexivity|exact IH]. Qed.

(** The client reads what it would have chosen itself, unless a heavier proposal precedes a lighter one that is written alike. *)
Theorem C108_codings : forall k request response l star available, sound k l available -> kept_apart p_weight l ->
  exchange k request response (l, star) available = let* c := negotiate (l, star) available in Ok (Some c).
Proof.
  intros k hq hr l w av S KA. rewrite (exchanged _ _ _ _ _ _ S). f_equal. unfold negotiate. cbn [fst snd]. destruct S as [S _].
  rewrite (arranged p_weight rounded l).
  - rewrite find_map_comm by reflexivity. destruct (find _ _); reflexivity.
  - apply rounded_alike; [|reflexivity|exact KA]. eapply Forall_impl; [|exact S]. cbn. tauto.
Qed.
(** It is refused exactly when it would have been without the headers. *)
Theorem C108_refused : forall k request response l star available e, sound k l available ->
  (exchange k request response (l, star) available = Err e <-> negotiate (l, star) available = Err e).
Proof.
  intros k hq hr l w av e S. rewrite (exchanged _ _ _ _ _ _ S). rewrite C49_not_acceptable.
  assert (X : (let* c := negotiate (map rounded l, w) av in Ok (Some c)) = Err e <-> negotiate (map rounded l, w) av = Err e) by (destruct (negotiate _ av); cbn [bind]; split; intros H; congruence).
  rewrite X, C49_not_acceptable. split; intros (E & H & R); (split; [exact E|split; [|exact R]]); intros p I.
  - exact (H (rounded p) (in_map rounded _ _ I)).
  - apply in_map_iff in I as (q & <- & I). exact (H q I).
Qed.
(** Otherwise the coding is one of those proposed, and no proposal that could have been chosen was worth a thousandth more; or none of
    the proposals could be chosen and the first available coding is taken. *)
Definition nearly (x y : option float) : Prop := forall v, y = Some (Fin false v) -> exists u, x = Some (Fin false u) /\ 1000 * v < 1000 * u + 2 ^ 149.
Lemma rounded_nearly : forall x y, good_weight x -> good_weight y -> rank (to_milli y) <= rank (to_milli x) -> nearly x y.
Proof.
  intros x y X Y R v ->. destruct Y as (v' & E & Lv). assert (v' = v) as -> by congruence. clear E. cbn [to_milli] in R.
  destruct x as [x|].
  - destruct X as (u & -> & Lu). exists u. split; [reflexivity|]. cbn [to_milli] in R. assert (Ku := thousandths_le u Lu). assert (Kv := thousandths_le v Lv).
    rewrite <- N.compare_le_iff in R. rewrite (milli_rank _ _ Kv Ku) in R. rewrite N.compare_le_iff in R. unfold thousandths in R. cbn [unit f32_format] in R.
    assert (Bu := rhe_bounds (u * 1000) (2 ^ 149) (pow2_pos 149)). assert (Bv := rhe_bounds (v * 1000) (2 ^ 149) (pow2_pos 149)).
    assert (M : (2 ^ 149) mod 1000 <> 0) by (vm_compute; discriminate). revert R Bu Bv M. generalize (2 ^ 149) as o. intros o R [Bu _] [_ Bv] M.
    assert (1000 * v <= 1000 * u + o) by nia. destruct (N.eq_dec (1000 * v) (1000 * u + o)) as [E|E]; [|lia]. exfalso. apply M.
    replace o with ((v - u) * 1000) by lia. apply N.mod_mul. discriminate.
  - exfalso. cbn [to_milli] in R. destruct (milli_fin _ (thousandths_le v Lv)) as (u & E & _). rewrite E in R. cbn [rank] in R. lia.
Qed.
Theorem C108_chosen : forall k request response l star available c, sound k l available -> exchange k request response (l, star) available = Ok (Some c) ->
  In c available /\
  ((exists x, In (Proposal c x) l /\ forall p, In p l -> In (p_coding p) available -> nearly x (p_weight p)) \/
   (star = true /\ hd_error available = Some c /\ forall p, In p l -> ~ In (p_coding p) available)).
Proof.
  intros k hq hr l w av c S E. rewrite (exchanged _ _ _ _ _ _ S) in E. destruct (negotiate (map rounded l, w) av) as [c'|e|] eqn:N; cbn [bind] in E; try discriminate E.
  assert (c' = c) as -> by congruence. destruct S as [S _]. rewrite Forall_forall in S.
  assert (TG : forall p, In p l -> good_weight (to_milli (p_weight p))).
  { intros p I. destruct (S p I) as [_ W]. destruct (p_weight p) as [x|]; [|exact Logic.I]. destruct W as (v & -> & L). cbn [to_milli]. destruct (milli_fin _ (thousandths_le v L)) as (u & -> & U & _). exists u. auto. }
  destruct (C49_best (map rounded l) w av c) as [A B]; [|exact N|].
  { apply Forall_forall. intros p I. apply in_map_iff in I as (q & <- & I). exact (TG q I). }
  split; [exact A|]. destruct B as [(i & x & Hi & B)|(W & H & B)].
  - left. rewrite nth_error_map in Hi. destruct (nth_error l i) as [[c0 x0]|] eqn:Ei; [|discriminate Hi]. cbn [option_map] in Hi.
    assert (HR : rounded (Proposal c0 x0) = Proposal c x) by congruence. unfold rounded in HR. cbn [p_coding p_weight] in HR. injection HR as -> <-. exists x0. assert (I0 := nth_error_In _ _ Ei). split; [exact I0|].
    intros p I C. apply In_nth_error in I as (j & J). specialize (B j (rounded p)). rewrite nth_error_map, J in B. specialize (B eq_refl C).
    apply rounded_nearly; [exact (proj2 (S _ I0))|exact (proj2 (S _ (nth_error_In _ _ J)))|]. unfold no_better in B. cbn [rounded p_weight] in B. lia.
  - right. split; [exact W|]. split; [exact H|]. intros p I. exact (B (rounded p) (in_map rounded _ _ I)).
Qed.
(** Nothing weaker would do: when each coding is proposed once and the client always reads what it would have chosen, the weights are
    kept apart. *)
Theorem C108_codings_iff : forall k request response l star, Forall (fun p => in_family k (p_coding p) = true /\ good_weight (p_weight p)) l -> NoDup (map p_coding l) ->
  ((forall available, Forall (fun c => in_family k c = true) available ->
      exchange k request response (l, star) available = let* c := negotiate (l, star) available in Ok (Some c)) <-> kept_apart p_weight l).
Proof.
  intros k hq hr l w S D. split; [|intros KA av A; apply C108_codings; [split; assumption|exact KA]].
  intros H i j p q x y L Ip Iq Wp Wq C E. assert (S' := S). rewrite Forall_forall in S'.
  destruct (S' p (nth_error_In _ _ Ip)) as [Fp Gp]. destruct (S' q (nth_error_In _ _ Iq)) as [Fq Gq].
  assert (A : Forall (fun c => in_family k c = true) [p_coding p; p_coding q]) by auto. specialize (H _ A). rewrite exchanged in H by (split; assumption).
  assert (IDX : forall n m a b, nth_error l n = Some a -> nth_error l m = Some b -> p_coding a = p_coding b -> n = m).
  { intros n m a b N M X. apply (proj1 (NoDup_nth_error (map p_coding l)) D); [rewrite map_length; apply nth_error_Some; congruence|]. rewrite !nth_error_map, N, M. cbn [option_map]. now rewrite X. }
  assert (PICK : forall (g : proposal -> proposal) c, (forall a, p_coding (g a) = p_coding a) -> Forall (fun a => good_weight (p_weight a)) (map g l) -> negotiate (map g l, w) [p_coding p; p_coding q] = Ok c ->
     (c = p_coding p /\ no_better j (p_weight (g q)) i (p_weight (g p))) \/ (c = p_coding q /\ no_better i (p_weight (g p)) j (p_weight (g q)))).
  { intros g c HC HG N. destruct (C49_best (map g l) w [p_coding p; p_coding q] c HG N) as [I [(n & z & Hn & B)|(_ & _ & B)]].
    - rewrite nth_error_map in Hn. destruct (nth_error l n) as [a|] eqn:En; [|discriminate Hn]. cbn [option_map] in Hn. assert (Ga : g a = Proposal c z) by congruence.
      assert (Ca : p_coding a = c) by (rewrite <- HC, Ga; reflexivity). assert (Z : z = p_weight (g a)) by now rewrite Ga.
      destruct I as [I|[I|[]]].
      + left. split; [now symmetry|]. assert (n = i) as -> by (apply (IDX _ _ a p); congruence). assert (a = p) as -> by congruence. rewrite <- Z.
        apply B; [rewrite nth_error_map, Iq; reflexivity|rewrite HC; cbn; auto].
      + right. split; [now symmetry|]. assert (n = j) as -> by (apply (IDX _ _ a q); congruence). assert (a = q) as -> by congruence. rewrite <- Z.
        apply B; [rewrite nth_error_map, Ip; reflexivity|rewrite HC; cbn; auto].
    - exfalso. apply (B (g p)); [apply in_map; exact (nth_error_In _ _ Ip)|rewrite HC; now left]. }
  assert (SOME : forall l', In (p_coding p) (map p_coding l') -> exists c, negotiate (l', w) [p_coding p; p_coding q] = Ok c).
  { intros l' I. destruct (negotiate (l', w) _) as [c|e|] eqn:N; [eauto| |now apply C49_no_panic in N].
    apply C49_not_acceptable in N as (_ & N & _). apply in_map_iff in I as (a & Ea & I). exfalso. apply (N a I). rewrite Ea. now left. }
  rewrite Wp in Gp. rewrite Wq in Gq. destruct Gp as (v & -> & Lv), Gq as (v' & -> & Lv'). cbn [fcmp] in C. assert (Hlt : v' < v) by (apply N.compare_lt_iff; congruence).
  cbn [show3 app] in E. apply show_milli_inj in E; [|now apply thousandths_le|now apply thousandths_le].
  destruct (SOME l) as (c & N); [apply in_map; exact (nth_error_In _ _ Ip)|].
  destruct (SOME (map rounded l)) as (c' & N'); [rewrite map_map; exact (in_map p_coding _ _ (nth_error_In _ _ Ip))|].
  rewrite N, N' in H. cbn [bind] in H. assert (c' = c) as -> by congruence.
  assert (X := PICK (fun a => a) c (fun a => eq_refl)). rewrite map_id in X. specialize (X ltac:(eapply Forall_impl; [|exact S]; cbn; tauto) N).
  assert (Y := PICK rounded c (fun a => eq_refl)).
  assert (GR : Forall (fun a => good_weight (p_weight a)) (map rounded l)).
  { apply Forall_forall. intros a I. apply in_map_iff in I as (b & <- & I). destruct (S' b I) as [_ W]. cbn [rounded p_weight]. destruct (p_weight b) as [z|]; [|exact Logic.I]. destruct W as (u & -> & U). cbn [to_milli].
    destruct (milli_fin _ (thousandths_le u U)) as (u' & -> & U' & _). exists u'. auto. }
  specialize (Y GR N'). unfold no_better in X, Y. cbn [rounded p_weight] in Y. rewrite Wp, Wq in X, Y. cbn [to_milli rank] in X, Y. rewrite E in Y.
  assert (NE : p_coding p <> p_coding q) by (intros Z; assert (i = j) by exact (IDX _ _ _ _ Ip Iq Z); lia).
  destruct X as [[X1 X2]|[X1 X2]]; [|lia]. destruct Y as [[Y1 Y2]|[Y1 Y2]]; [lia|congruence].
Qed.
(** Weights of at most three decimals are always kept apart. *)
Theorem C108_three_decimals : forall T (weight : T -> option float) l, (forall p, In p l -> weight p = None \/ exists m, m <= 1000 /\ weight p = milli m) -> kept_apart weight l.
Proof.
  intros T weight l H i j p q x y L Ip Iq Wp Wq C E.
  destruct (H p (nth_error_In _ _ Ip)) as [Z|(m & M & Z)]; [congruence|]. destruct (H q (nth_error_In _ _ Iq)) as [Z'|(m' & M' & Z')]; [congruence|].
  destruct (milli_fin m M) as (u & A & _ & U). destruct (milli_fin m' M') as (u' & A' & _ & U'). assert (x = Fin false u) as -> by congruence. assert (y = Fin false u') as -> by congruence.
  cbn [show3 app] in E. rewrite U, U' in E. apply show_milli_inj in E; [|assumption|assumption]. subst m'. assert (u = u') as -> by congruence. cbn [fcmp] in C. rewrite N.compare_refl in C. discriminate C.
Qed.

(** ** Media types *)
(** The same with Accept and Content-Type. *)
Definition exchange_media (request response : headers) (a : list media_proposal * bool) (available : list mime) : outcome (option mime) :=
  let* o := media_from_headers (media_apply request a) in
  match o with
  | None => Ok None
  | Some a' => let* m := media_negotiate a' available in ctype_from_headers (ctype_apply response m)
  end.
(** Proposals as [MediaTypeProposal::new] makes them, with types that C71 shows to be written and read back; the available types were read
    from some text. *)
Definition sound_media (l : list media_proposal) (available : list mime) : Prop :=
  Forall (fun p => sendable (mp_type p) /\ mp_weight p <> None /\ good_weight (mp_weight p)) l /\ Forall (fun m => exists s, mime_parse s = Ok m) available.
Definition rounded_media (p : media_proposal) : media_proposal := MediaProposal (mp_type p) (full_weight (mp_weight p)).
Lemma find_media_member : forall av ps m, find_media av ps = Some m -> In m av.
Proof. intros av ps m. induction ps as [|p ps IH]; [discriminate|]. cbn [find_media]. destruct (find _ av) as [x|] eqn:F; [|exact IH]. intros E. apply find_some in F as [F _]. congruence. Qed.
Lemma media_member : forall a av m, media_negotiate a av = Ok m -> In m av.
Proof.
  intros [l w] av m H. unfold media_negotiate in H. cbn [fst snd] in H. destruct (find_media av _) as [x|] eqn:F.
  - apply find_media_member in F. congruence.
  - destruct w, av as [|c' av]; try discriminate H. left. congruence.
Qed.
Lemma exchanged_media : forall hq hr l w av, sound_media l av -> exchange_media hq hr (l, w) av = let* m := media_negotiate (map rounded_media l, w) av in Ok (Some m).
Proof.
  intros hq hr l w av [S A]. unfold exchange_media. rewrite (C71_round_trip_partial hq l w) by (eapply Forall_impl; [|exact S]; cbn; tauto). cbn [bind]. fold rounded_media.
  destruct (media_negotiate _ av) as [m|e|] eqn:N; cbn [bind]; try reflexivity. rewrite Forall_forall in A. destruct (A m (media_member _ _ _ N)) as (s & P). exact (C56_round_trip hr s m P).
Qed.
Lemma find_media_types : forall av f ps, (forall p, mp_type (f p) = mp_type p) -> find_media av (map f ps) = find_media av ps.
Proof. intros av f ps H. induction ps as [|p ps IH]; [reflexivity|]. cbn [map find_media]. rewrite H, IH. reflexivity. Qed.
Lemma sound_weights : forall l av p, sound_media l av -> In p l -> exists v, mp_weight p = Some (Fin false v) /\ v <= 2 ^ 149.
Proof. intros l av p [S _] I. rewrite Forall_forall in S. destruct (S p I) as (_ & N & G). destruct (mp_weight p) as [x|]; [|congruence]. destruct G as (v & -> & L). eauto. Qed.
Lemma rounded_full : forall l av p, sound_media l av -> In p l -> mp_weight (rounded_media p) = to_milli (mp_weight p).
Proof. intros l av p S I. cbn [rounded_media mp_weight]. destruct (sound_weights l av p S I) as (v & -> & _). reflexivity. Qed.
Theorem C108_media : forall request response l star available, sound_media l available -> kept_apart mp_weight l ->
  exchange_media request response (l, star) available = let* m := media_negotiate (l, star) available in Ok (Some m).
Proof.
  intros hq hr l w av S KA. rewrite (exchanged_media _ _ _ _ _ S). f_equal. unfold media_negotiate. cbn [fst snd].
  rewrite (arranged mp_weight rounded_media l); [now rewrite find_media_types|].
  apply rounded_alike; [|intros p I; exact (rounded_full l av p S I)|exact KA]. eapply Forall_impl; [|exact (proj1 S)]. cbn. tauto.
Qed.
Theorem C108_media_refused : forall request response l star available e, sound_media l available ->
  (exchange_media request response (l, star) available = Err e <-> media_negotiate (l, star) available = Err e).
Proof.
  intros hq hr l w av e S. rewrite (exchanged_media _ _ _ _ _ S). rewrite C51_not_acceptable.
  assert (X : (let* c := media_negotiate (map rounded_media l, w) av in Ok (Some c)) = Err e <-> media_negotiate (map rounded_media l, w) av = Err e) by (destruct (media_negotiate _ av); cbn [bind]; split; intros H; congruence).
  rewrite X, C51_not_acceptable. split; intros (E & H & R); (split; [exact E|split; [|exact R]]); intros p m I.
  - exact (H (rounded_media p) m (in_map rounded_media _ _ I)).
  - apply in_map_iff in I as (q & <- & I). exact (H q m I).
Qed.
Theorem C108_media_chosen : forall request response l star available m, sound_media l available -> exchange_media request response (l, star) available = Ok (Some m) ->
  (exists p, In p l /\ first_match available (mp_type p) m /\
     forall p' m', In p' l -> In m' available -> subset_eq m' (mp_type p') = true -> nearly (mp_weight p) (mp_weight p')) \/
  (star = true /\ hd_error available = Some m /\ forall p m', In p l -> In m' available -> subset_eq m' (mp_type p) = false).
Proof.
  intros hq hr l w av m S E. rewrite (exchanged_media _ _ _ _ _ S) in E. destruct (media_negotiate (map rounded_media l, w) av) as [m'|e|] eqn:N; cbn [bind] in E; try discriminate E.
  assert (m' = m) as -> by congruence. assert (G := sound_weights l av).
  assert (GR : Forall (fun p => good_weight (mp_weight p)) (map rounded_media l)).
  { apply Forall_forall. intros p I. apply in_map_iff in I as (q & <- & I). rewrite (rounded_full l av q S I). destruct (G q S I) as (v & -> & L). cbn [to_milli].
    destruct (milli_fin _ (thousandths_le v L)) as (u & -> & U & _). exists u. auto. }
  destruct (C51_best (map rounded_media l) w av m GR N) as [(i & x & Hi & F & B)|(W & H & B)].
  - left. rewrite nth_error_map in Hi. destruct (nth_error l i) as [p|] eqn:Ei; [|discriminate Hi]. cbn [option_map] in Hi. assert (x = rounded_media p) as -> by congruence.
    assert (Ip := nth_error_In _ _ Ei). exists p. split; [exact Ip|]. split; [exact F|]. intros p' n I A M. assert (I' := I). apply In_nth_error in I as (j & J).
    specialize (B j (rounded_media p') n). rewrite nth_error_map, J in B. specialize (B eq_refl A M). unfold no_better in B. rewrite (rounded_full l av p' S I'), (rounded_full l av p S Ip) in B.
    destruct S as [S _]. rewrite Forall_forall in S. apply rounded_nearly; [apply (S p Ip)|apply (S p' I')|lia].
  - right. split; [exact W|]. split; [exact H|]. intros p n I. exact (B (rounded_media p) n (in_map rounded_media _ _ I)).
Qed.
Print Assumptions C108_codings.
Print Assumptions C108_refused.
Print Assumptions C108_chosen.
Print Assumptions C108_codings_iff.
Print Assumptions C108_three_decimals.
Print Assumptions C108_media.
Print Assumptions C108_media_refused.
Print Assumptions C108_media_chosen.

(** Below a thousandth the preference of the client is lost: gzip with weight 0.9001 before br with 0.9. *)
Definition close : list proposal := [Proposal Gzip (parse_float f32 (lit "0.9001")); Proposal Brotli (parse_float f32 (lit "0.9"))].
Lemma close_sound : sound Content close [Gzip; Brotli].
Proof.
  assert (G : forall w, weight_ok w = true -> good_weight w) by (intros w; apply weight_ok_spec).
  split; [|repeat constructor]. constructor; [|constructor; [|constructor]]; (split; [reflexivity|apply G; vm_compute; reflexivity]).
Qed.
Theorem C108_close_refuted : exists l available, sound Content l available /\ negotiate (l, false) available = Ok Gzip /\ exchange Content [] [] (l, false) available = Ok (Some Brotli).
Proof. exists close, [Gzip; Brotli]. split; [exact close_sound|]. split; vm_compute; reflexivity. Qed.
Print Assumptions C108_close_refuted.
(** Two proposals of different weights, the heavier one first; the choice survives. *)
Definition apart : list proposal := [Proposal Gzip (milli 900); Proposal Brotli (milli 899); Proposal Zstd None].
Example C108_example : sound Content apart [Brotli; Gzip] /\ kept_apart p_weight apart /\ NoDup (map p_coding apart) /\
  h_get (accept_apply Content [] (apart, true)) (lit "accept-encoding") = Some [lit "gzip;q=0.900, br;q=0.899, zstd, *"] /\
  exchange Content [] [] (apart, true) [Brotli; Gzip] = Ok (Some Gzip).
Proof.
  split.
  { split; [|repeat constructor]. assert (G : forall k, k <= 1000 -> good_weight (milli k)) by (intros k K; destruct (milli_fin k K) as (u & -> & U & _); exists u; auto).
    constructor; [split; [reflexivity|apply G; lia]|]. constructor; [split; [reflexivity|apply G; lia]|]. constructor; [split; [reflexivity|exact I]|constructor]. }
  split; [apply C108_three_decimals; intros p [<-|[<-|[<-|[]]]]; [right; exists 900|right; exists 899|left]; try reflexivity; (split; [lia|reflexivity])|].
  split; [|split; vm_compute; reflexivity].
  repeat constructor; cbn [map apart p_coding In]; intros H; repeat (destruct H as [H|H]; [discriminate H|]); exact H.
Qed.
Definition html_or_json : list media_proposal := [MediaProposal MIME_JSON (milli 500); MediaProposal (mime_of (lit "text/*")) (milli 1000)].
Example C108_media_example : sound_media html_or_json [MIME_JSON; mime_of (lit "text/html")] /\ kept_apart mp_weight html_or_json /\
  exchange_media [] [] (html_or_json, false) [MIME_JSON; mime_of (lit "text/html")] = Ok (Some (mime_of (lit "text/html"))).
Proof.
  assert (G : forall k, k <= 1000 -> milli k <> None /\ good_weight (milli k)) by (intros k K; destruct (milli_fin k K) as (u & -> & U & _); split; [discriminate|exists u; auto]).
  assert (GM : forall s m, mime_parse (lit s) = Ok m -> good_mime m) by (intros s m P; destruct (mime_parse_good (lit s)) as [(m' & E & Q)|E]; congruence).
  split; [|split].
  - split.
    + constructor; [|constructor; [|constructor]]; (split; [|apply G; cbn [mp_weight]; lia]); cbn [mp_type].
      * split; [apply (GM "application/json"%string); vm_compute; reflexivity|]. split; [intros []|intros n v []].
      * split; [apply (GM "text/*"%string); vm_compute; reflexivity|]. split; [intros []|intros n v []].
    + constructor; [exists (lit "application/json"); vm_compute; reflexivity|]. constructor; [exists (lit "text/html"); vm_compute; reflexivity|constructor].
  - apply C108_three_decimals. intros p [<-|[<-|[]]]; right; [exists 500|exists 1000]; (split; [lia|reflexivity]).
  - vm_compute. reflexivity.
Qed.
