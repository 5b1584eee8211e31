(** C48-C54, C70, C71: weights and content negotiation. *)
From Verif Require Import Base BaseFacts Headers HeadersFacts Typed TypedFacts Mime MimeFacts Float FloatFacts Negotiate NegotiateFacts.
From Coq Require Import ZifyBool ZifyNat ZifyN Permutation Sorted.

Definition no_headers : headers := headers_new.
(** k/1000 as an f32. *)
Definition milli (k : N) : option float := Some (round_ratio f32 false k 1000).

(** ** C48 *)
(** The result is the proposals rearranged; each one is heavier than all that follow, or as heavy and declared
    later ([rank] puts "no weight" below every weight). *)
Theorem C48_sorted : forall (T : Type) (weight : T -> option float) (l : list T),
  Forall (fun x => good_weight (weight x)) l ->
  exists places : list nat,
    Permutation places (seq 0 (length l)) /\
    map Some (sort_by_weight weight l) = map (nth_error l) places /\
    forall a b i j x y, (a < b)%nat -> nth_error places a = Some i -> nth_error places b = Some j ->
      nth_error l i = Some x -> nth_error l j = Some y ->
      rank (weight y) < rank (weight x) \/ rank (weight y) = rank (weight x) /\ (j < i)%nat.
Proof.
  intros T weight l G. destruct (sort_spec weight l G) as [P S]. set (s := sort_items weight (enumerate 0 l)) in *.
  assert (IN : forall i x, In (i, x) s -> nth_error l (N.to_nat i) = Some x).
  { intros i x I. apply (Permutation_in _ P) in I. apply in_enumerate in I as [_ I]. now rewrite N.sub_0_r in I. }
  exists (map (fun a => N.to_nat (fst a)) s). split; [|split].
  - apply (Permutation_map (fun a => N.to_nat (fst a))) in P. eapply Permutation_trans; [exact P|].
    replace (map (fun a : N * T => N.to_nat (fst a)) (enumerate 0 l)) with (seq 0 (length l)); [apply Permutation_refl|].
    change 0%nat with (N.to_nat 0) at 1. generalize 0 as i. clear. induction l as [|x l IH]; intros i; [reflexivity|].
    cbn [length seq enumerate map fst]. f_equal. rewrite <- IH. f_equal. lia.
  - unfold sort_by_weight. fold s. rewrite !map_map. apply map_ext_in. intros [i x] I. cbn [fst snd]. symmetry. now apply IN.
  - clearbody s. clear P. induction S as [|[i0 x0] s S IH F]; intros a b i j x y L A B X Y.
    + destruct a; discriminate.
    + destruct b as [|b]; [lia|]. cbn [map nth_error] in B. destruct a as [|a].
      * cbn [map nth_error fst] in A. injection A as A.
        apply nth_error_In, in_map_iff in B as ([j0 y0] & B & IB). cbn [fst] in B. subst j.
        rewrite Forall_forall in F. specialize (F _ IB). unfold before in F. cbn [fst snd] in F.
        assert (E := IN i0 x0 (or_introl eq_refl)). rewrite A in E.
        rewrite (IN j0 y0 (or_intror IB)) in Y. rewrite X in E. inv E. inv Y. lia.
      * cbn [map nth_error] in A. apply (IH (fun i x I => IN i x (or_intror I)) a b i j x y); try assumption. lia.
Qed.
Print Assumptions C48_sorted.

(** Whatever algorithm arranges the numbered proposals so that no neighbours compare as [Greater], the result is
    the same. *)
Theorem C48_algorithm : forall (T : Type) (weight : T -> option float) (l : list T) (other : list (N * T)),
  Forall (fun x => good_weight (weight x)) l ->
  Permutation other (enumerate 0 l) -> Sorted (fun a b => item_cmp weight a b <> Gt) other ->
  map snd other = sort_by_weight weight l.
Proof.
  intros T weight l other G P S. destruct (sort_spec weight l G) as [P' S']. unfold sort_by_weight. f_equal.
  apply (sorted_unique weight); [|exact S'|].
  2: { eapply Permutation_trans; [exact P|]. now apply Permutation_sym. }
  assert (GI : good_items weight other).
  { apply Forall_forall. intros a I. apply (Permutation_in _ P) in I.
    assert (X := enumerate_good weight l 0 G). unfold good_items in X. rewrite Forall_forall in X. now apply X. }
  assert (D : NoDup (map fst other)).
  { eapply Permutation_NoDup; [apply Permutation_map, Permutation_sym, P|exact (proj1 (enumerate_nodup l 0))]. }
  clear P P' S' G. apply Sorted_StronglySorted; [intros a b c; apply before_trans|].
  induction S as [|a other S IH H]; constructor.
  - inv GI. inv D. now apply IH.
  - destruct H as [|b other H]; constructor. inv GI. inv H3. inv D.
    destruct (item_cmp_lt weight a b H2 H4) as [L E]. destruct (item_cmp weight a b) eqn:C; [|now apply L|congruence].
    elim H3. cbn [map In]. left. symmetry. now apply E.
Qed.
Print Assumptions C48_algorithm.
Example C48_example :
  sort_by_weight snd [(1, milli 500); (2, None); (3, milli 1000); (4, milli 500); (5, milli 0); (6, None)]
  = [(3, milli 1000); (4, milli 500); (1, milli 500); (5, milli 0); (6, None); (2, None)].
Proof. vm_compute. reflexivity. Qed.

(** ** C49 *)
Lemma available_has_in : forall av c, available_has av c = true <-> In c av.
Proof.
  intros av c. unfold available_has. rewrite existsb_exists. split.
  - intros (x & I & E). now destruct c, x.
  - intros I. exists c. split; [exact I|]. now destruct c.
Qed.

Theorem C49_best : forall l wildcard available c, Forall (fun p => good_weight (p_weight p)) l ->
  negotiate (l, wildcard) available = Ok c ->
  In c available /\
  ((exists i w, nth_error l i = Some (Proposal c w) /\
      forall j p, nth_error l j = Some p -> In (p_coding p) available -> no_better j (p_weight p) i w) \/
   (wildcard = true /\ hd_error available = Some c /\ forall p, In p l -> ~ In (p_coding p) available)).
Proof.
  intros l wildcard available c G H. unfold negotiate in H. cbn [fst snd] in H.
  destruct (find _ _) as [p|] eqn:F.
  - inv H. apply first_in_sort in F as (i & I & Px & B); [|exact G]. apply available_has_in in Px. split; [exact Px|].
    left. exists i, (p_weight p). split; [now destruct p|]. intros j y J Y. apply B; [exact J|]. now apply available_has_in.
  - destruct wildcard, available as [|c' av]; try discriminate. inv H. split; [now left|]. right. split; [reflexivity|].
    split; [reflexivity|]. intros p I C. apply find_sort_none with (x := p) in F; [|exact I].
    apply available_has_in in C. rewrite C in F. discriminate.
Qed.
Print Assumptions C49_best.
Theorem C49_not_acceptable : forall l wildcard available e,
  negotiate (l, wildcard) available = Err e <->
  e = 406 /\ (forall p, In p l -> ~ In (p_coding p) available) /\ (wildcard = false \/ available = []).
Proof.
  intros l wildcard available e. unfold negotiate. cbn [fst snd]. destruct (find _ _) as [p|] eqn:F.
  - split; [discriminate|]. intros (_ & H & _). apply find_some in F as [I Px]. apply (proj1 (in_sort _ _ _)) in I. exfalso.
    apply (H _ I). now apply available_has_in.
  - assert (X : forall p, In p l -> ~ In (p_coding p) available).
    { intros p I C. apply find_sort_none with (x := p) in F; [|exact I]. apply available_has_in in C. rewrite C in F. discriminate. }
    destruct wildcard, available as [|c' av]; split; intros H; try discriminate.
    + inv H. auto.
    + now destruct H as (-> & _).
    + now destruct H as (_ & _ & [|]).
    + inv H. auto.
    + now destruct H as (-> & _).
    + inv H. auto.
    + now destruct H as (-> & _).
Qed.
Print Assumptions C49_not_acceptable.
Theorem C49_no_panic : forall a available, negotiate a available <> Panic.
Proof. intros [l w] av. unfold negotiate. destruct (find _ _); [discriminate|]. now destruct (snd (l, w)), av. Qed.
Print Assumptions C49_no_panic.
Example C49_example :
  negotiate ([Proposal Gzip (milli 800); Proposal Zstd (milli 900); Proposal Brotli (milli 800)], false) [Gzip; Brotli] = Ok Brotli
  /\ negotiate ([Proposal Zstd (milli 900)], true) [Gzip; Brotli] = Ok Gzip
  /\ negotiate ([Proposal Zstd (milli 900)], false) [Gzip; Brotli] = Err 406.
Proof. vm_compute. auto. Qed.

(** ** C50 *)
(** Quality as RFC 7231 5.3.1 reads a proposal. *)
Definition quality (w : option float) : N := match w with None => 2 ^ 149 | Some (Fin _ v) => v | Some _ => 0 end.

Theorem C50_zero_weight_refuted : exists k h available c,
  h_get h (accept_name k) = Some [lit "gzip;q=0, br;q=0"] /\
  (let* a := accept_from_headers k h in let* a := ok_or 500 a in negotiate a available) = Ok c.
Proof.
  exists Content, (apply_value no_headers (accept_name Content) (lit "gzip;q=0, br;q=0")), [Gzip; Brotli], Brotli.
  vm_compute. auto.
Qed.
Print Assumptions C50_zero_weight_refuted.
Theorem C50_missing_weight_refuted : exists k h available,
  h_get h (accept_name k) = Some [lit "gzip, br;q=0.1"] /\
  (let* a := accept_from_headers k h in let* a := ok_or 500 a in negotiate a available) = Ok Brotli /\
  (exists a, accept_from_headers k h = Ok (Some ([Proposal Gzip None; Proposal Brotli a], false)) /\ quality a < quality None) /\
  In Gzip available.
Proof.
  exists Content, (apply_value no_headers (accept_name Content) (lit "gzip, br;q=0.1")), [Brotli; Gzip].
  split; [reflexivity|]. split; [vm_compute; reflexivity|]. split; [exists (milli 100); split; vm_compute; reflexivity|now right; left].
Qed.
Print Assumptions C50_missing_weight_refuted.
Theorem C50_media_zero_weight_refuted : exists h m,
  h_get h ACCEPT = Some [lit "text/html;q=0"] /\
  (let* a := media_from_headers h in let* a := ok_or 500 a in media_negotiate a [m]) = Ok m.
Proof.
  destruct (mime_parse (lit "text/html")) as [m|e|] eqn:E; try (vm_compute in E; discriminate).
  exists (apply_value no_headers ACCEPT (lit "text/html;q=0")), m. inv E. vm_compute. auto.
Qed.
Print Assumptions C50_media_zero_weight_refuted.
(** When every proposal carries a weight above 0 the choice is the one the RFC asks for. *)
Theorem C50_partial : forall l wildcard available c,
  Forall (fun p => exists v, p_weight p = Some (Fin false v) /\ 0 < v <= 2 ^ 149) l ->
  (exists p, In p l /\ In (p_coding p) available) ->
  negotiate (l, wildcard) available = Ok c ->
  exists w, In (Proposal c w) l /\ 0 < quality w /\
    forall p, In p l -> In (p_coding p) available -> quality (p_weight p) <= quality w.
Proof.
  intros l wildcard available c F (p0 & I0 & A0) H.
  apply C49_best in H as [_ [(i & w & I & B)|(_ & _ & X)]].
  - assert (IN := nth_error_In _ _ I). exists w. split; [exact IN|]. rewrite Forall_forall in F.
    destruct (F _ IN) as (v & E & V). cbn [p_weight] in E. subst w. split; [cbn [quality]; lia|].
    intros p Ip Ap. destruct (In_nth_error _ _ Ip) as (j & J). specialize (B j p J Ap).
    destruct (F _ Ip) as (v' & E' & V'). rewrite E' in *. unfold no_better in B. cbn [rank quality] in *. lia.
  - elim (X p0 I0 A0).
  - eapply Forall_impl; [|exact F]. intros p (v & E & V). cbv beta. rewrite E. exists v. split; [reflexivity|lia].
Qed.
Print Assumptions C50_partial.
Example C50_example : negotiate ([Proposal Gzip (milli 1); Proposal Zstd (milli 900)], false) [Gzip; Zstd] = Ok Zstd.
Proof. vm_compute. reflexivity. Qed.

(** ** C51 *)
Lemma find_media_spec : forall available ps, find_media available ps =
  match find (fun p => existsb (fun m => subset_eq m (mp_type p)) available) ps with
  | Some p => find (fun m => subset_eq m (mp_type p)) available
  | None => None
  end.
Proof.
  intros available ps. induction ps as [|p ps IH]; [reflexivity|]. cbn [find_media find].
  assert (X : existsb (fun m => subset_eq m (mp_type p)) available = match find (fun m => subset_eq m (mp_type p)) available with Some _ => true | None => false end).
  { clear. induction available as [|m l IH]; [reflexivity|]. cbn [existsb find]. destruct (subset_eq m (mp_type p)); [reflexivity|exact IH]. }
  rewrite X. destruct (find (fun m => subset_eq m (mp_type p)) available) eqn:E; [congruence|exact IH].
Qed.

(** [available.find(matching)]: the first available type the proposal covers. *)
Definition first_match (available : list mime) (range m : mime) : Prop :=
  exists pre post, available = pre ++ m :: post /\ subset_eq m range = true /\ forall x, In x pre -> subset_eq x range = false.
Lemma find_first : forall available range m, find (fun x => subset_eq x range) available = Some m -> first_match available range m.
Proof.
  intros available range m. induction available as [|x l IH]; [discriminate|]. cbn [find]. destruct (subset_eq x range) eqn:E; intros H.
  - inv H. exists [], l. split; [reflexivity|]. split; [exact E|]. intros y [].
  - destruct (IH H) as (pre & post & -> & S & P). exists (x :: pre), post. split; [reflexivity|]. split; [exact S|].
    intros y [<-|I]; [exact E|now apply P].
Qed.

Theorem C51_best : forall l wildcard available m, Forall (fun p => good_weight (mp_weight p)) l ->
  media_negotiate (l, wildcard) available = Ok m ->
  (exists i p, nth_error l i = Some p /\ first_match available (mp_type p) m /\
      forall j p' m', nth_error l j = Some p' -> In m' available -> subset_eq m' (mp_type p') = true ->
        no_better j (mp_weight p') i (mp_weight p)) \/
  (wildcard = true /\ hd_error available = Some m /\
     forall p m', In p l -> In m' available -> subset_eq m' (mp_type p) = false).
Proof.
  intros l wildcard available m G H. unfold media_negotiate in H. cbn [fst snd] in H. rewrite find_media_spec in H.
  destruct (find (fun p => existsb _ available) _) as [p|] eqn:F.
  - apply first_in_sort in F as (i & I & Px & B); [|exact G].
    destruct (find (fun x => subset_eq x (mp_type p)) available) as [m'|] eqn:Q.
    + inv H. left. exists i, p. split; [exact I|]. split; [now apply find_first|].
      intros j p' m' J IN S. apply B; [exact J|]. apply existsb_exists. eauto.
    + exfalso. apply existsb_exists in Px as (m' & IN & S). rewrite (find_none _ _ Q m' IN) in S. discriminate.
  - destruct wildcard, available as [|m0 av]; try discriminate. inv H. right. split; [reflexivity|]. split; [reflexivity|].
    intros p m' I IN. apply find_sort_none with (x := p) in F; [|exact I].
    destruct (subset_eq m' (mp_type p)) eqn:E; [|reflexivity]. exfalso.
    assert (X : existsb (fun m0 => subset_eq m0 (mp_type p)) (m :: av) = true) by (apply existsb_exists; eauto).
    rewrite X in F. discriminate.
Qed.
Print Assumptions C51_best.
Theorem C51_not_acceptable : forall l wildcard available e,
  media_negotiate (l, wildcard) available = Err e <->
  e = 406 /\ (forall p m, In p l -> In m available -> subset_eq m (mp_type p) = false) /\ (wildcard = false \/ available = []).
Proof.
  intros l wildcard available e. unfold media_negotiate. cbn [fst snd]. rewrite find_media_spec.
  destruct (find (fun p => existsb _ available) _) as [p|] eqn:F.
  - apply find_some in F as [I Px]. apply (proj1 (in_sort _ _ _)) in I. apply existsb_exists in Px as (m & IN & S).
    destruct (find (fun x => subset_eq x (mp_type p)) available) as [m'|] eqn:Q.
    + split; [discriminate|]. intros (_ & H & _). rewrite (H p m I IN) in S. discriminate.
    + rewrite (find_none _ _ Q m IN) in S. discriminate.
  - assert (X : forall p m, In p l -> In m available -> subset_eq m (mp_type p) = false).
    { intros p m I IN. apply find_sort_none with (x := p) in F; [|exact I].
      destruct (subset_eq m (mp_type p)) eqn:E; [|reflexivity].
      assert (Y : existsb (fun m0 => subset_eq m0 (mp_type p)) available = true) by (apply existsb_exists; eauto).
      rewrite Y in F. discriminate. }
    destruct wildcard, available as [|c' av]; split; intros H; try discriminate.
    + inv H. auto.
    + now destruct H as (-> & _).
    + now destruct H as (_ & _ & [|]).
    + inv H. auto.
    + now destruct H as (-> & _).
    + inv H. auto.
    + now destruct H as (-> & _).
Qed.
Print Assumptions C51_not_acceptable.
Definition mime_of (s : str) : mime := match mime_parse s with Ok m => m | _ => MIME_PLAIN end.
Example C51_example :
  let a := (let* a := media_from_headers (apply_value no_headers ACCEPT (lit "text/html, application/json;q=0.5, */*;q=0.1, text/plain;q=1"))
            in ok_or 500 a) in
  (let* a := a in media_negotiate a [mime_of (lit "application/json"); mime_of (lit "text/html")]) = Ok (mime_of (lit "text/html"))
  /\ (let* a := a in media_negotiate a [mime_of (lit "image/png")]) = Ok (mime_of (lit "image/png"))
  /\ (let* a := a in media_negotiate (tl (fst a), snd a) []) = Err 406.
Proof. vm_compute. auto. Qed.

(** ** C52 *)
(** The constructors accept exactly the weights from 0 to 1 with positive sign (so not -0, NaN or infinity). *)
Theorem C52_new : forall c x,
  (exists v, x = Fin false v /\ v <= 2 ^ 149 /\ proposal_new c (Some x) = Ok (Proposal c (Some x))) \/
  ((forall v, x = Fin false v -> 2 ^ 149 < v) /\ proposal_new c (Some x) = Err 500).
Proof.
  intros c x. unfold proposal_new. destruct (weight_ok (Some x)) eqn:W.
  - left. apply weight_ok_spec in W as (v & E & L). exists v. auto.
  - right. split; [|reflexivity]. intros v ->. destruct (N.lt_ge_cases (2 ^ 149) v) as [L|L]; [exact L|]. exfalso.
    assert (X : weight_ok (Some (Fin false v)) = true) by (apply weight_ok_spec; now exists v). congruence.
Qed.
Print Assumptions C52_new.
Theorem C52_media_new : forall m x,
  (exists v, x = Fin false v /\ v <= 2 ^ 149 /\ media_new m (Some x) = Ok (MediaProposal m (Some x))) \/
  ((forall v, x = Fin false v -> 2 ^ 149 < v) /\ media_new m (Some x) = Err 500).
Proof.
  intros m x. unfold media_new. destruct (weight_ok (Some x)) eqn:W.
  - left. apply weight_ok_spec in W as (v & E & L). exists v. auto.
  - right. split; [|reflexivity]. intros v ->. destruct (N.lt_ge_cases (2 ^ 149) v) as [L|L]; [exact L|]. exfalso.
    assert (X : weight_ok (Some (Fin false v)) = true) by (apply weight_ok_spec; now exists v). congruence.
Qed.
Print Assumptions C52_media_new.

Lemma skipping_all : forall (A : Type) (parse : str -> outcome (option A)) (P : A -> Prop) ps l w,
  (forall t x, parse t = Ok (Some x) -> P x) -> read_skipping parse ps = Ok (l, w) -> Forall P l.
Proof.
  intros A parse P ps l w H. revert l w. induction ps as [|p ps IH]; intros l w; cbn [read_skipping].
  - intros X. inv X. constructor.
  - destruct (seqb (trim p) []); [apply IH|]. destruct (seqb (trim p) (lit "*")).
    + destruct (read_skipping parse ps) as [[es w']| |]; try discriminate. intros X. inv X. now apply (IH _ _ eq_refl).
    + destruct (parse (trim p)) as [e| |] eqn:E; try discriminate. cbn [bind].
      destruct (read_skipping parse ps) as [[es w']| |]; try discriminate. intros X. inv X.
      specialize (IH _ _ eq_refl). destruct e as [e|]; [|exact IH]. constructor; [now apply (H (trim p))|exact IH].
Qed.
Lemma proposal_new_good : forall c w p, proposal_new c w = Ok p -> good_weight (p_weight p).
Proof. intros c w p. unfold proposal_new. destruct (weight_ok w) eqn:W; [|discriminate]. intros X. inv X. now apply weight_ok_spec. Qed.
Lemma proposal_from_str_good : forall k t p, proposal_from_str k t = Ok (Some p) -> good_weight (p_weight p).
Proof.
  intros k t p. unfold proposal_from_str. destruct (split c_semi t) as [|c rest]; [discriminate|].
  destruct (coding_from_str k c); [|discriminate]. destruct (match rest with [] => _ | _ => _ end) as [w| |]; try discriminate.
  cbn [bind]. destruct (proposal_new c0 w) as [q| |] eqn:E; try discriminate. intros X. inv X. now apply proposal_new_good in E.
Qed.
Lemma media_from_str_good : forall t p, media_from_str t = Ok p -> good_weight (mp_weight p).
Proof.
  intros t p. unfold media_from_str. destruct (mime_parse t) as [m| |]; try discriminate. cbn [bind].
  destruct (remove_param m (lit "q")) as [[q m']| |]; try discriminate. cbn [bind].
  destruct (match q with None => _ | _ => _ end) as [w| |]; try discriminate. cbn [bind]. unfold media_new.
  destruct (weight_ok w) eqn:W; [|discriminate]. intros X. inv X. cbn [mp_weight].
  destruct w; [now apply weight_ok_spec|]. exists (2 ^ 149). split; [reflexivity|lia].
Qed.
(** Whatever the text, the weights of what was read are in range. *)
Theorem C52_parsed : forall k h l w, accept_from_headers k h = Ok (Some (l, w)) -> Forall (fun p => good_weight (p_weight p)) l.
Proof.
  intros k h l w. unfold accept_from_headers, with_all. destruct (h_get h (accept_name k)); [|discriminate].
  destruct (read_proposals k (comma_parts h0)) as [[l' w']| |] eqn:E; try discriminate. intros X. inv X.
  eapply skipping_all; [|exact E]. apply proposal_from_str_good.
Qed.
Print Assumptions C52_parsed.
Theorem C52_media_parsed : forall h l w, media_from_headers h = Ok (Some (l, w)) ->
  Forall (fun p => mp_weight p <> None /\ good_weight (mp_weight p)) l.
Proof.
  intros h l w. unfold media_from_headers, with_all. destruct (h_get h ACCEPT); [|discriminate].
  destruct (read_media (comma_parts h0)) as [[l' w']| |] eqn:E; try discriminate. intros X. inv X.
  eapply skipping_all; [|exact E]. intros t x. cbv beta. destruct (media_from_str t) as [p| |] eqn:F; try discriminate.
  intros X. inv X. split; [|now apply media_from_str_good in F]. revert F. unfold media_from_str.
  destruct (mime_parse t) as [m| |]; try discriminate. cbn [bind].
  destruct (remove_param m (lit "q")) as [[q m']| |]; try discriminate. cbn [bind].
  destruct (match q with None => _ | _ => _ end) as [[w'|]| |]; try discriminate; cbn [bind]; unfold media_new;
    destruct (weight_ok _); try discriminate; intros X; inv X; discriminate.
Qed.
Print Assumptions C52_media_parsed.
(** k/1000 is an accepted weight, is printed as the decimal fraction with three digits, and is read back as the
    same float. *)
Theorem C52_three_decimals : forall k, k <= 1000 -> exists x,
  milli k = Some x /\ good_weight (Some x) /\
  show3 f32 x = [48 + k / 1000; 46; 48 + k / 100 mod 10; 48 + k / 10 mod 10; 48 + k mod 10] /\
  parse_weight (lit "q=" ++ show3 f32 x) = Ok x /\ parse_float f32 (show3 f32 x) = Some x.
Proof.
  intros k K. destruct (round_unit k 1000 eq_refl K) as (v & R & L). exists (Fin false v).
  assert (S : show3 f32 (Fin false v) = show_milli k) by (cbn [show3 app]; now rewrite (thousandths_round k v K R)).
  split; [unfold milli; now rewrite R|]. split; [exists v; auto|]. rewrite S, <- show_milli_digits by lia.
  split; [reflexivity|]. assert (P := parse_milli f32 k ltac:(lia)). rewrite R in P. split; [|exact P].
  unfold parse_weight. change (lit "q=" ++ show_milli k) with ([113] ++ 61 :: show_milli k).
  rewrite split_app by reflexivity. rewrite show_milli_digits in * by lia.
  rewrite split_no_char.
  - rewrite P. reflexivity.
  - cbn [no_char forallb negb]. lia.
Qed.
Print Assumptions C52_three_decimals.
Example C52_example :
  proposal_new Gzip (Some (NaN false)) = Err 500 /\ proposal_new Gzip (Some (Fin true 0)) = Err 500 /\
  parse_weight (lit "q=1.001") = Ok (Fin false (2 ^ 149 + 8389 * 2 ^ 126)) /\
  (let* x := parse_weight (lit "q=1.001") in proposal_new Gzip (Some x)) = Err 500 /\
  (let* x := parse_weight (lit "q=0.5") in proposal_new Gzip (Some x)) = Ok (Proposal Gzip (milli 500)).
Proof. vm_compute. auto. Qed.

(** ** C53 *)
(** The weight to three decimals. *)
Definition to_milli (w : option float) : option float :=
  match w with Some (Fin _ v) => milli (thousandths f32 v) | _ => None end.
Lemma thousandths_le : forall v, v <= 2 ^ 149 -> thousandths f32 v <= 1000.
Proof.
  intros v L. unfold thousandths. cbn [unit f32_format]. apply rhe_le; [apply pow2_pos|].
  revert L. generalize (2 ^ 149). intros. lia.
Qed.
Lemma to_milli_id : forall k, k <= 1000 -> to_milli (milli k) = milli k.
Proof.
  intros k K. destruct (round_unit k 1000 eq_refl K) as (v & R & L). unfold milli at 1. rewrite R. cbn [to_milli].
  now rewrite (thousandths_round k v K R).
Qed.
Lemma coding_show_read : forall k c, in_family k c = true -> coding_from_str k (coding_show c) = Some c.
Proof. intros [] [] H; try discriminate H; vm_compute; reflexivity. Qed.
Lemma coding_show_plain : forall c, no_char 59 (coding_show c) = true /\ clean (coding_show c) = true /\ coding_show c <> [] /\ coding_show c <> lit "*".
Proof. intros []; vm_compute; repeat apply conj; try reflexivity; discriminate. Qed.
Lemma weight_text : forall k, k <= 1000 ->
  no_char 44 (show_milli k) = true /\ no_char 59 (show_milli k) = true /\ no_char 61 (show_milli k) = true /\
  forallb Mime.is_token_cp (show_milli k) = true /\
  exists r d, show_milli k = r ++ [48 + d] /\ d < 10 /\ r <> [].
Proof.
  intros k K. rewrite show_milli_digits by lia. cbn [no_char forallb].
  assert (T : forall d, d < 10 -> Mime.is_token_cp (48 + d) = true).
  { intros d D. unfold Mime.is_token_cp, is_digit. apply orb_true_iff. right. lia. }
  assert (D : k / 1000 < 10 /\ k / 100 mod 10 < 10 /\ k / 10 mod 10 < 10 /\ k mod 10 < 10) by lia.
  destruct D as (D1 & D2 & D3 & D4). rewrite !T by assumption.
  split; [lia|]. split; [lia|]. split; [lia|]. split; [reflexivity|].
  exists [48 + k / 1000; 46; 48 + k / 100 mod 10; 48 + k / 10 mod 10], (k mod 10). split; [reflexivity|]. split; [exact D4|discriminate].
Qed.
Lemma clean_weighted : forall a k, clean a = true -> a <> [] -> k <= 1000 -> clean (a ++ lit ";q=" ++ show_milli k) = true.
Proof.
  intros a k C N K. destruct (weight_text k K) as (W1 & _ & _ & _ & r & d & E & D & Nr).
  unfold clean in *. apply andb_true_iff in C as [C1 C2]. apply andb_true_iff. split.
  - rewrite !no_char_app, C1, W1. reflexivity.
  - unfold no_edge in *. apply andb_true_iff in C2 as [C2 _]. apply andb_true_iff. split.
    + destruct a as [|x a]; [congruence|exact C2].
    + rewrite E. rewrite !app_assoc, rev_app_distr. cbn [rev app]. unfold is_ws. lia.
Qed.
Lemma app_not : forall (a b : str), a <> [] -> a ++ b <> [].
Proof. intros [|x a] b H; [congruence|discriminate]. Qed.

Lemma proposal_read_back : forall k p, in_family k (p_coding p) = true -> good_weight (p_weight p) ->
  clean (proposal_value p) = true /\ proposal_value p <> [] /\ proposal_value p <> lit "*" /\
  proposal_from_str k (proposal_value p) = Ok (Some (Proposal (p_coding p) (to_milli (p_weight p)))).
Proof.
  intros k [c w] F G. cbn [p_coding p_weight] in *. destruct (coding_show_plain c) as (P1 & P2 & P3 & P4).
  unfold proposal_value. cbn [p_coding p_weight]. destruct w as [x|].
  - destruct G as (v & -> & L). cbn [show3 app]. apply thousandths_le in L. cbn [to_milli].
    set (m := thousandths f32 v) in *. clearbody m.
    split; [now apply clean_weighted|]. split; [now apply app_not|]. split; [destruct c; discriminate|].
    unfold proposal_from_str. change (lit ";q=" ++ show_milli m) with (59 :: lit "q=" ++ show_milli m).
    rewrite split_app by exact P1. destruct (C52_three_decimals m L) as (x & E & Gx & S & Pw & _).
    assert (X : show3 f32 x = show_milli m) by (rewrite S; symmetry; apply show_milli_digits; lia).
    rewrite split_no_char.
    + rewrite (coding_show_read k c F). rewrite <- X, Pw. cbn [bind]. unfold proposal_new. apply weight_ok_spec in Gx. rewrite Gx.
      rewrite E. reflexivity.
    + destruct (weight_text m L) as (_ & W & _). rewrite no_char_app, W. reflexivity.
  - rewrite app_nil_r. split; [exact P2|]. split; [exact P3|]. split; [exact P4|]. unfold proposal_from_str.
    rewrite split_no_char by exact P1. rewrite (coding_show_read k c F). reflexivity.
Qed.

Theorem C53_round_trip : forall k h l wildcard,
  Forall (fun p => in_family k (p_coding p) = true /\ good_weight (p_weight p)) l ->
  accept_from_headers k (accept_apply k h (l, wildcard))
  = Ok (Some (map (fun p => Proposal (p_coding p) (to_milli (p_weight p))) l, wildcard)).
Proof.
  intros k h l wildcard H. unfold accept_from_headers, accept_apply. rewrite with_all_apply. unfold accept_value. cbn [fst snd].
  unfold read_proposals. rewrite (skipping_shown (proposal_from_str k) proposal proposal_value (fun p => Proposal (p_coding p) (to_milli (p_weight p)))).
  - reflexivity.
  - eapply Forall_impl; [|exact H]. intros p [F G]. now apply proposal_read_back.
Qed.
Print Assumptions C53_round_trip.
(** Weights that have three decimals (or none at all) come back unchanged. *)
Theorem C53_exact : forall k h l wildcard,
  Forall (fun p => in_family k (p_coding p) = true /\ (p_weight p = None \/ exists m, m <= 1000 /\ p_weight p = milli m)) l ->
  accept_from_headers k (accept_apply k h (l, wildcard)) = Ok (Some (l, wildcard)).
Proof.
  intros k h l wildcard H. rewrite C53_round_trip.
  - do 3 f_equal. induction H as [|[c w] l [_ W] H IH]; [reflexivity|]. cbn [map]. f_equal; [|exact IH].
    cbn [p_coding p_weight] in *. f_equal. destruct W as [-> | (m & M & ->)]; [reflexivity|now apply to_milli_id].
  - eapply Forall_impl; [|exact H]. intros p [F W]. split; [exact F|]. destruct W as [-> | (m & M & ->)]; [exact I|].
    destruct (round_unit m 1000 eq_refl M) as (v & R & L). unfold milli. rewrite R. exists v. auto.
Qed.
Print Assumptions C53_exact.
Example C53_example : exists h,
  h = accept_apply Transfer no_headers ([Proposal Chunked None; Proposal Gzip (milli 250); Proposal Brotli (Some (Fin false 7))], true) /\
  h_get h (lit "te") = Some [lit "chunked, gzip;q=0.250, br;q=0.000, *"] /\
  accept_from_headers Transfer h = Ok (Some ([Proposal Chunked None; Proposal Gzip (milli 250); Proposal Brotli (milli 0)], true)).
Proof. eexists. split; [reflexivity|]. vm_compute. auto. Qed.

(** ** C54 *)
(** The names each family knows. *)
Definition known (k : family) (v : str) : Prop := exists c, in_family k c = true /\ trim v = coding_show c.
Lemma coding_from_str_spec : forall k s c, coding_from_str k s = Some c <-> in_family k c = true /\ trim s = coding_show c.
Proof.
  intros k s c. unfold coding_from_str. generalize (trim s) as t. intros t.
  destruct k; cbn [andb];
  repeat (match goal with |- context [seqb t ?x] => destruct (seqb_spec t x) as [->|?] end; [split; [intros X; inv X; split; reflexivity|intros [F E]; destruct c; try discriminate F; try (vm_compute in E; discriminate E); reflexivity]|]);
  (split; [discriminate|]); intros [F E]; destruct c; cbn [coding_show] in E; congruence || discriminate F.
Qed.
Lemma last_coding_snoc : forall k vs v, last_coding k (vs ++ [v]) = match coding_from_str k v with Some c => Some c | None => last_coding k vs end.
Proof. intros. unfold last_coding. rewrite fold_left_app. reflexivity. Qed.
(** Reading panics exactly when the header is there but none of its values is a known coding on its own. *)
Theorem C54_panic_partial : forall k h,
  encoding_from_headers k h = Panic <-> exists vs, h_get h (encoding_name k) = Some vs /\ forall v, In v vs -> ~ known k v.
Proof.
  intros k h. unfold encoding_from_headers, with_all. destruct (h_get h (encoding_name k)) as [vs|]; [|split; [discriminate|intros (? & X & _); discriminate]].
  assert (X : last_coding k vs = None <-> forall v, In v vs -> ~ known k v).
  { induction vs as [|v vs IH] using rev_ind; [split; [intros _ v []|reflexivity]|]. rewrite last_coding_snoc.
    destruct (coding_from_str k v) as [c|] eqn:E.
    - split; [discriminate|]. intros H. exfalso. apply coding_from_str_spec in E. apply (H v); [apply in_or_app; right; now left|]. now exists c.
    - rewrite IH. split.
      + intros H u I. apply in_app_or in I as [I|[<-|[]]]; [now apply H|]. intros (c & C). apply coding_from_str_spec in C. congruence.
      + intros H u I. apply H, in_or_app. now left. }
  split.
  - intros P. exists vs. split; [reflexivity|]. apply X. destruct (last_coding k vs); [discriminate|reflexivity].
  - intros (vs' & E & H). inv E. apply X in H. rewrite H. reflexivity.
Qed.
Print Assumptions C54_panic_partial.
(** The result is the last known coding; there is never an error. *)
Theorem C54_value_partial : forall k h r,
  encoding_from_headers k h = Ok r ->
  match r with
  | None => h_get h (encoding_name k) = None
  | Some c => exists pre v post, h_get h (encoding_name k) = Some (pre ++ v :: post) /\ in_family k c = true /\ trim v = coding_show c /\
                forall u, In u post -> ~ known k u
  end.
Proof.
  intros k h r. unfold encoding_from_headers, with_all. destruct (h_get h (encoding_name k)) as [vs|]; [|intros X; now inv X].
  destruct (last_coding k vs) as [c|] eqn:E; cbn [unwrap bind]; [|discriminate]. intros X. inv X. revert E.
  induction vs as [|v vs IH] using rev_ind; [discriminate|]. rewrite last_coding_snoc.
  destruct (coding_from_str k v) as [c'|] eqn:F; intros E.
  - inv E. apply coding_from_str_spec in F as [F1 F2]. exists vs, v, []. repeat apply conj; try assumption; [reflexivity|]. intros u [].
  - destruct (IH E) as (pre & u & post & G & F1 & F2 & N). inv G. exists pre, u, (post ++ [v]).
    rewrite <- app_assoc. repeat apply conj; try assumption; [reflexivity|]. intros w I. apply in_app_or in I as [I|[<-|[]]]; [now apply N|].
    intros (c' & C). apply coding_from_str_spec in C. congruence.
Qed.
Print Assumptions C54_value_partial.
Theorem C54_no_error : forall k h e, encoding_from_headers k h <> Err e.
Proof.
  intros k h e. unfold encoding_from_headers, with_all. destruct (h_get h (encoding_name k)); [|discriminate].
  now destruct (last_coding k h0).
Qed.
Print Assumptions C54_no_error.
Theorem C54_round_trip : forall k h c, in_family k c = true -> encoding_from_headers k (encoding_apply k h c) = Ok (Some c).
Proof.
  intros k h c F. unfold encoding_from_headers, encoding_apply. rewrite with_all_apply. unfold last_coding. cbn [fold_left].
  now rewrite (coding_show_read k c F).
Qed.
Print Assumptions C54_round_trip.
(** False of the code: an unknown coding and a list of two known ones both panic. *)
Theorem C54_panics_refuted : exists k1 k2 h1 h2,
  h_get h1 (encoding_name k1) = Some [lit "compress"] /\ encoding_from_headers k1 h1 = Panic /\
  h_get h2 (encoding_name k2) = Some [lit "gzip, chunked"] /\ encoding_from_headers k2 h2 = Panic.
Proof.
  exists Content, Transfer, (apply_value no_headers (encoding_name Content) (lit "compress")),
    (apply_value no_headers (encoding_name Transfer) (lit "gzip, chunked")). vm_compute. auto.
Qed.
Print Assumptions C54_panics_refuted.
Example C54_example : encoding_from_headers Content [(lit "content-encoding", [lit "gzip"; lit " br "; lit "x"])] = Ok (Some Brotli).
Proof. vm_compute. reflexivity. Qed.

(** ** C70 *)
(** RFC 7231 5.3.1: qvalue = ( "0" [ "." 0*3DIGIT ] ) / ( "1" [ "." 0*3("0") ] ); here with any number of digits. *)
Definition qvalue (s : str) : Prop :=
  exists a r, s = a :: r /\ (a = 48 \/ a = 49) /\
    (r = [] \/ exists ds, r = 46 :: ds /\ forallb (if a =? 48 then is_digit else N.eqb 48) ds = true).
Lemma qvalue_parse : forall s, qvalue s -> no_char 61 s = true /\ exists v, parse_float f32 s = Some (Fin false v) /\ v <= 2 ^ 149.
Proof.
  intros s (a & r & -> & A & R). assert (AD : is_digit a = true) by (destruct A; subst; reflexivity).
  destruct R as [-> | (ds & -> & D)].
  - rewrite parse_unit by auto. split; [destruct A; subst; reflexivity|].
    destruct (round_unit (a - 48) 1) as (v & -> & L); [reflexivity|destruct A; subst; cbn; lia|]. exists v. auto.
  - assert (D' : forallb is_digit ds = true).
    { destruct A; subst; [exact D|]. change (49 =? 48) with false in D. cbv iota in D. eapply forallb_impl; [|exact D].
      intros c C. apply N.eqb_eq in C. now subst. }
    assert (NC : no_char 61 ds = true).
    { unfold no_char. eapply forallb_impl; [|exact D']. intros c C. cbv beta. unfold is_digit in C. lia. }
    split. { change (a :: 46 :: ds) with ([a; 46] ++ ds). rewrite no_char_app, NC. destruct A; subst; reflexivity. }
    destruct ds as [|d ds].
    + rewrite parse_unit by auto. destruct (round_unit (a - 48) 1) as (v & -> & L); [reflexivity|destruct A; subst; cbn; lia|]. exists v. auto.
    + set (l := d :: ds) in *. rewrite parse_fraction by (auto; subst l; discriminate).
      destruct (round_unit (dec_val (a :: l)) (10 ^ N.of_nat (length l))) as (v & -> & L).
      * apply N.neq_0_lt_0, N.pow_nonzero. discriminate.
      * unfold dec_val. cbn [fold_left]. destruct A; subst a.
        -- assert (X := dec_val_acc l 0 D'). change (0 * 10 + (48 - 48)) with 0. lia.
        -- change (49 =? 48) with false in D. cbv iota in D. rewrite (dec_val_zeros l) by exact D.
           change (0 * 10 + (49 - 48)) with 1. lia.
      * exists v. auto.
Qed.
(** A proposal of the RFC without white space around the semicolon: a name, or a name and a weight. *)
Definition rfc_piece (t : str) : Prop :=
  exists name, no_char 59 name = true /\ (t = name \/ exists q, qvalue q /\ t = name ++ lit ";q=" ++ q).
Theorem C70_accepted_partial : forall k h vs, h_get h (accept_name k) = Some vs ->
  (forall v t, In v vs -> In t (split 44 v) -> rfc_piece (trim t)) ->
  exists l w, accept_from_headers k h = Ok (Some (l, w)).
Proof.
  intros k h vs G H0. assert (H : forall t, In t (comma_parts vs) -> rfc_piece (trim t)).
  { intros t I. unfold comma_parts in I. apply in_flat_map in I as (v & Iv & I). apply (in_map trim) in I. rewrite pieces_trim in I.
    apply in_map_iff in I as (t' & <- & I). exact (H0 v t' Iv I). }
  clear H0. unfold accept_from_headers, with_all. rewrite G.
  assert (X : exists l w, read_proposals k (comma_parts vs) = Ok (l, w)).
  { revert H. generalize (comma_parts vs) as ps. induction ps as [|p ps IH]; intros H; [now exists [], false|].
    destruct (IH (fun t I => H t (or_intror I))) as (l & w & E). unfold read_proposals in *. cbn [read_skipping]. rewrite E. cbn [bind].
    destruct (seqb (trim p) []); [eauto|]. destruct (seqb (trim p) (lit "*")); [eauto|].
    assert (Y : exists o, proposal_from_str k (trim p) = Ok o).
    { destruct (H p (or_introl eq_refl)) as (name & N & [-> | (q & Q & ->)]); unfold proposal_from_str.
      - rewrite split_no_char by exact N. destruct (coding_from_str k name); cbn; eauto.
      - change (lit ";q=" ++ q) with (59 :: lit "q=" ++ q). rewrite split_app by exact N.
        destruct (coding_from_str k name) as [c|]; [|eauto]. destruct (qvalue_parse q Q) as (E61 & v & P & L).
        assert (S : no_char 59 (lit "q=" ++ q) = true).
        { rewrite no_char_app. apply andb_true_iff. split; [reflexivity|]. destruct Q as (a & r & -> & A & R).
          unfold no_char. cbn [forallb]. apply andb_true_iff. split; [destruct A; subst; reflexivity|].
          destruct R as [-> | (ds & -> & D)]; [reflexivity|]. cbn [forallb]. apply andb_true_iff. split; [reflexivity|].
          eapply forallb_impl; [|exact D]. intros x. cbv beta. destruct (a =? 48); unfold is_digit; lia. }
        rewrite split_no_char by exact S. unfold parse_weight. change (lit "q=" ++ q) with ([113] ++ 61 :: q).
        rewrite split_app by reflexivity. rewrite split_no_char by exact E61. change (seqb [113] (lit "q")) with true. cbv iota.
        rewrite P. cbn [ok_or bind]. unfold proposal_new.
        assert (W : weight_ok (Some (Fin false v)) = true) by (apply weight_ok_spec; now exists v). rewrite W. cbn. eauto. }
    destruct Y as (o & ->). cbn [bind]. eauto. }
  destruct X as (l & w & ->). cbn. eauto.
Qed.
Print Assumptions C70_accepted_partial.
(** False of the code: optional white space before the weight, an upper case Q, and an extension parameter of TE
    are refused; the weight of a wildcard hides it. *)
Theorem C70_refuted : exists k h1 h2 h3,
  h_get h1 (accept_name k) = Some [lit "gzip; q=0.5"] /\ accept_from_headers k h1 = Err 400 /\
  h_get h2 (accept_name k) = Some [lit "gzip;Q=0.5"] /\ accept_from_headers k h2 = Err 400 /\
  h_get h3 (accept_name k) = Some [lit "*;q=0.5"] /\ accept_from_headers k h3 = Ok (Some ([], false)).
Proof.
  exists Content, (apply_value no_headers (accept_name Content) (lit "gzip; q=0.5")),
    (apply_value no_headers (accept_name Content) (lit "gzip;Q=0.5")), (apply_value no_headers (accept_name Content) (lit "*;q=0.5")).
  vm_compute. auto 10.
Qed.
Print Assumptions C70_refuted.
Example C70_example : accept_from_headers Content [(lit "accept-encoding", [lit "gzip;q=1.0 , deflate;q=0.5,,compress;q=0"; lit "br"])]
  = Ok (Some ([Proposal Gzip (milli 1000); Proposal Deflate (milli 500); Proposal Brotli None], false)).
Proof. vm_compute. reflexivity. Qed.

(** ** C71 *)
Lemma q_token : forall k, k <= 1000 -> good_param (lit "q", show_milli k).
Proof.
  intros k K. destruct (weight_text k K) as (_ & _ & _ & T & _). unfold good_param. cbn [fst snd].
  repeat apply conj; try reflexivity.
  - apply (tokens_impl is_qs_cp (show_milli k)); [|exact T]. intros c C. apply token_cases in C. tauto.
  - discriminate.
Qed.
Lemma show_milli_nonempty : forall k, show_milli k <> [].
Proof. intros k. unfold show_milli. destruct (show_dec (k / 1000)); discriminate. Qed.
Lemma remove_last : forall ps n v, ~ In n (map fst ps) ->
  find_param (ps ++ [(n, v)]) n = Some v /\ remove_first (ps ++ [(n, v)]) n = ps.
Proof.
  induction ps as [|[a b] ps IH]; intros n v N; cbn [app find_param remove_first map In fst] in *.
  - rewrite seqb_refl. auto.
  - destruct (seqb_spec a n) as [->|D]; [tauto|]. destruct (IH n v) as [F R]; [tauto|]. rewrite F, R. auto.
Qed.
Lemma remove_absent : forall ps n, ~ In n (map fst ps) -> find_param ps n = None /\ remove_first ps n = ps.
Proof.
  induction ps as [|[a b] ps IH]; intros n N; cbn [find_param remove_first map In fst] in *; [auto|].
  destruct (seqb_spec a n) as [->|D]; [tauto|]. destruct (IH n) as [F R]; [tauto|]. rewrite F, R. auto.
Qed.
Lemma mime_format_clean : forall m, good_mime m -> (forall n v, In (n, v) (params m) -> no_char 44 v = true) ->
  no_char 44 (mime_format m) = true /\ exists c r, mime_format m = c :: r /\ is_ws c = false /\ c <> 42 \/
    mime_format m = c :: r /\ c = 42 /\ exists d r', r = d :: r'.
Proof.
  intros m (B1 & B2 & B3 & S1 & S2 & S3 & E & _ & G) C.
  assert (TK : forall s, forallb is_token_cp s = true -> no_char 44 s = true).
  { intros s H. unfold no_char. apply (tokens_impl (fun c => negb (c =? 44)) s); [|exact H]. intros c T. apply token_cases in T. lia. }
  split.
  - unfold mime_format. rewrite E, !no_char_app, (TK _ B2), (TK _ S2). change (no_char 44 [47]) with true. cbn [andb].
    apply andb_true_iff. split; [destruct (is_utf8 m); reflexivity|].
    clear - G C TK. induction (params m) as [|[n v] ps IH]; [reflexivity|].
    cbn [flat_map fst snd]. rewrite no_char_app, IH; [|intros p I; apply G; now right|intros n' v' I; apply (C n'); now right].
    rewrite andb_true_r. destruct (G (n, v) (or_introl eq_refl)) as (_ & T & _). cbn [fst] in T.
    assert (V := C n v (or_introl eq_refl)). unfold format_param.
    destruct (forallb is_token_cp v && _).
    + rewrite !no_char_app, (TK _ T), V. reflexivity.
    + rewrite !no_char_app, (TK _ T). change (no_char 44 [59]) with true. change (no_char 44 [61; 34]) with true. cbn [andb].
      apply andb_true_iff. split; [|reflexivity]. clear - V. induction v as [|c v IH]; [reflexivity|]. unfold no_char in V. cbn [forallb] in V. apply andb_true_iff in V as [Vc V].
      unfold escape_value. cbn [flat_map]. rewrite no_char_app. apply andb_true_iff. split; [|now apply IH].
      destruct ((c =? 34) || (c =? 92)); unfold no_char; cbn [forallb]; rewrite Vc; reflexivity.
  - unfold mime_format. rewrite E. destruct (basetype m) as [|c b]; [discriminate B1|]. cbn [forallb] in B2.
    apply andb_true_iff in B2 as [Tc _]. apply token_cases in Tc. destruct Tc as (_ & _ & _ & _ & _ & _ & _ & _ & _ & W).
    exists c. eexists. destruct (N.eq_dec c 42) as [->|D].
    + right. split; [reflexivity|]. split; [reflexivity|]. destruct b; cbn [app]; eauto.
    + left. split; [reflexivity|]. auto.
Qed.

(** The text ends in a character that is not white space. *)
Definition ends_dark (s : str) : Prop := exists r c, s = r ++ [c] /\ is_ws c = false.
Lemma ends_dark_app : forall a b, ends_dark b -> ends_dark (a ++ b).
Proof. intros a b (r & c & -> & W). exists (a ++ r), c. rewrite app_assoc. auto. Qed.
Lemma ends_dark_tokens : forall s, s <> [] -> forallb is_token_cp s = true -> ends_dark s.
Proof.
  intros s N T. destruct (exists_last N) as (r & c & ->). exists r, c. split; [reflexivity|].
  rewrite forallb_app in T. apply andb_true_iff in T as [_ T]. cbn [forallb] in T. apply andb_true_iff in T as [T _].
  apply token_cases in T. tauto.
Qed.
Lemma mime_format_ends : forall m, good_mime m -> ends_dark (mime_format m).
Proof.
  intros m (B1 & B2 & B3 & S1 & S2 & S3 & E & _ & G). unfold mime_format. rewrite app_assoc.
  assert (X : ends_dark (essence m ++ (if is_utf8 m then lit ";charset=utf-8" else []))).
  { destruct (is_utf8 m); [apply ends_dark_app; exists (lit ";charset=utf-"), 56; auto|]. rewrite app_nil_r, E.
    apply ends_dark_app, ends_dark_app, ends_dark_tokens; [|exact S2]. destruct (subtype m); [discriminate S1|discriminate]. }
  revert X. generalize (essence m ++ (if is_utf8 m then lit ";charset=utf-8" else [])) as s.
  induction (params m) as [|[n v] ps IH]; intros s X; [cbn [flat_map]; now rewrite app_nil_r|].
  cbn [flat_map fst snd]. rewrite app_assoc. apply IH; [intros p I; apply G; now right|]. apply ends_dark_app. unfold format_param.
  destruct (forallb is_token_cp v && _) eqn:T; repeat apply ends_dark_app.
  - apply andb_true_iff in T as [T N]. apply ends_dark_tokens; [|exact T]. destruct v; discriminate.
  - exists [], 34. auto.
Qed.

(** A media type that can be sent with a weight: no parameter called "q" of its own, no comma in a value. *)
Definition sendable (m : mime) : Prop :=
  good_mime m /\ ~ In (lit "q") (map fst (params m)) /\ forall n v, In (n, v) (params m) -> no_char 44 v = true.
Definition full_weight (w : option float) : option float := match w with None => Some (Fin false (2 ^ 149)) | Some _ => to_milli w end.

Lemma media_read_back : forall p, sendable (mp_type p) -> mp_weight p <> None -> good_weight (mp_weight p) ->
  clean (media_value p) = true /\ media_value p <> [] /\ media_value p <> lit "*" /\
  media_from_str (media_value p) = Ok (MediaProposal (mp_type p) (to_milli (mp_weight p))).
Proof.
  intros [m w] (G & NQ & NC) NW W. cbn [mp_type mp_weight] in *. destruct w as [x|]; [|congruence]. destruct W as (v & -> & L).
  unfold media_value. cbn [mp_type mp_weight show3 app to_milli]. apply thousandths_le in L. set (k := thousandths f32 v) in *. clearbody k.
  destruct (mime_format_clean m G NC) as (C & c & r & D).
  assert (D' : exists c r, mime_format m = c :: r /\ is_ws c = false).
  { destruct D as [(E & S & _)|(E & -> & _)]; [exists c, r|exists 42, r]; auto. }
  clear D. destruct D' as (c' & r' & E & S).
  assert (X : mime_format m ++ lit ";q=" ++ show_milli k
      = mime_format (mkMime (essence m) (basetype m) (subtype m) (is_utf8 m) (params m ++ [(lit "q", show_milli k)]))).
  { unfold mime_format. cbn [essence is_utf8 params]. rewrite flat_map_app, <- !app_assoc. do 3 f_equal. cbn [flat_map fst snd].
    rewrite app_nil_r. unfold format_param. destruct (weight_text k L) as (_ & _ & _ & -> & _). cbn [andb].
    destruct (show_milli k) eqn:Z; [now apply show_milli_nonempty in Z|]. reflexivity. }
  split; [|split; [|split]].
  - unfold clean. apply andb_true_iff. split.
    + rewrite !no_char_app, C. destruct (weight_text k L) as (-> & _). reflexivity.
    + unfold no_edge. apply andb_true_iff. split; [rewrite E; cbn [app]; now rewrite S|].
      destruct (weight_text k L) as (_ & _ & _ & _ & r0 & d & Er & Dd & Nr). rewrite Er, !app_assoc, rev_app_distr. cbn [rev app].
      unfold is_ws. lia.
  - rewrite E. discriminate.
  - rewrite E. intros Y. apply (f_equal (@length N)) in Y. rewrite !app_length in Y. cbn [length lit list_ascii_of_string map] in Y. lia.
  - unfold media_from_str. rewrite X, mime_round_trip.
    + cbn [bind]. unfold remove_param. cbn [essence basetype subtype is_utf8 params]. change (param_name (lit "q")) with (Ok (lit "q")). cbn [bind].
      change (seqb (lit "q") (lit "charset")) with false. cbn [andb]. destruct (remove_last (params m) (lit "q") (show_milli k) NQ) as [-> ->].
      cbn [bind]. destruct (C52_three_decimals k L) as (x & Ex & Gx & _ & _ & Px).
      rewrite (parse_milli f32 k) by lia. cbn [ok_or bind]. unfold media_new. unfold milli in *. injection Ex as <-.
      apply weight_ok_spec in Gx. rewrite Gx. now destruct m.
    + destruct G as (B1 & B2 & B3 & S1 & S2 & S3 & Ee & GD & G). unfold good_mime. cbn [essence basetype subtype is_utf8 params].
      repeat (split; [assumption|]). split.
      * rewrite map_app. cbn [map fst]. now apply nodup_snoc.
      * intros p I. apply in_app_or in I as [I|[<-|[]]]; [now apply G|now apply q_token].
Qed.
Lemma media_read_back_none : forall m, sendable m ->
  clean (mime_format m) = true /\ mime_format m <> [] /\ mime_format m <> lit "*" /\
  media_from_str (mime_format m) = Ok (MediaProposal m (Some (Fin false (2 ^ 149)))).
Proof.
  intros m (G & NQ & NC). destruct (mime_format_clean m G NC) as (C & c & r & D).
  assert (NE : no_edge is_ws (mime_format m) = true).
  { unfold no_edge. apply andb_true_iff. split.
    - destruct D as [(E & W & _)|(E & -> & _)]; rewrite E; [now rewrite W|reflexivity].
    - destruct (mime_format_ends m G) as (r0 & c0 & E & W). rewrite E, rev_app_distr. cbn [rev app]. now rewrite W. }
  split; [unfold clean; now rewrite C, NE|].
  split; [destruct D as [(E & _)|(E & _)]; rewrite E; discriminate|]. split.
  - destruct D as [(E & _ & D)|(E & -> & d & r' & ->)]; rewrite E; [|discriminate]. intros X. apply D. now injection X.
  - unfold media_from_str. rewrite mime_round_trip by exact G. cbn [bind]. unfold remove_param. change (param_name (lit "q")) with (Ok (lit "q")). cbn [bind].
    change (seqb (lit "q") (lit "charset")) with false. cbn [andb]. destruct (remove_absent (params m) (lit "q") NQ) as [-> ->]. cbn [bind].
    unfold media_new. cbn [weight_ok]. now destruct m.
Qed.

(** Reading back gives the same types in the same order, weights to three decimals, a missing weight as 1.  Left
    out (and false, see below): a comma inside a quoted parameter value and a parameter called "q". *)
Theorem C71_round_trip_partial : forall h l wildcard,
  Forall (fun p => sendable (mp_type p) /\ good_weight (mp_weight p)) l ->
  media_from_headers (media_apply h (l, wildcard))
  = Ok (Some (map (fun p => MediaProposal (mp_type p) (full_weight (mp_weight p))) l, wildcard)).
Proof.
  intros h l wildcard H. unfold media_from_headers, media_apply. rewrite with_all_apply. unfold media_list_value. cbn [fst snd].
  unfold read_media. rewrite (skipping_shown _ media_proposal media_value (fun p => MediaProposal (mp_type p) (full_weight (mp_weight p)))).
  - reflexivity.
  - eapply Forall_impl; [|exact H]. intros p (S & G). destruct p as [m [x|]]; cbn [mp_type mp_weight] in *.
    + destruct (media_read_back (MediaProposal m (Some x)) S ltac:(discriminate) G) as (R1 & R2 & R3 & R4).
      split; [exact R1|]. split; [exact R2|]. split; [exact R3|]. rewrite R4. reflexivity.
    + unfold media_value. cbn [mp_type mp_weight]. rewrite app_nil_r.
      destruct (media_read_back_none m S) as (R1 & R2 & R3 & R4).
      split; [exact R1|]. split; [exact R2|]. split; [exact R3|]. rewrite R4. reflexivity.
Qed.
Print Assumptions C71_round_trip_partial.
(** False of the code: a comma in a parameter value cuts the proposal; a type given without weight comes back
    with weight 1, although the two sort differently. *)
Theorem C71_refuted : exists m l,
  mime_parse (lit "a/b;x=""1,2""") = Ok m /\ media_new m (milli 1000) = Ok (MediaProposal m (milli 1000)) /\
  (exists m', media_from_headers (media_apply no_headers ([MediaProposal m None], false)) = Err 500 /\
    media_from_headers (media_apply no_headers ([MediaProposal m' None], false)) = Ok (Some ([MediaProposal m' (milli 1000)], false)) /\
    l = [MediaProposal m' None; MediaProposal (mime_of (lit "c/d")) (milli 500)]) /\
  media_negotiate (l, false) [mime_of (lit "a/b"); mime_of (lit "c/d")] = Ok (mime_of (lit "c/d")) /\
  (let* a := media_from_headers (media_apply no_headers (l, false)) in
   let* a := ok_or 500 a in media_negotiate a [mime_of (lit "a/b"); mime_of (lit "c/d")]) = Ok (mime_of (lit "a/b")).
Proof.
  exists (mime_of (lit "a/b;x=""1,2""")), [MediaProposal (mime_of (lit "a/b")) None; MediaProposal (mime_of (lit "c/d")) (milli 500)].
  split; [vm_compute; reflexivity|]. split; [vm_compute; reflexivity|]. split; [|vm_compute; auto].
  exists (mime_of (lit "a/b")). vm_compute. auto.
Qed.
Print Assumptions C71_refuted.
Example C71_example : h_get (media_apply no_headers ([MediaProposal (mime_of (lit "text/html;charset=utf-8;a=""b c""")) (milli 800)], true)) ACCEPT
  = Some [lit "text/html;charset=utf-8;a=""b c"";q=0.800, *"] /\
  sendable (mime_of (lit "text/html;charset=utf-8;a=""b c""")).
Proof.
  split; [vm_compute; reflexivity|]. split; [|split].
  - destruct (mime_parse_good (lit "text/html;charset=utf-8;a=""b c""")) as [(m & E & G)|E]; [|vm_compute in E; discriminate].
    unfold mime_of. rewrite E. exact G.
  - vm_compute. intros [|[]]. discriminate.
  - intros n v I. vm_compute in I. destruct I as [I|[]]. inv I. reflexivity.
Qed.
