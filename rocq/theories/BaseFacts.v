(** Facts about the string and number functions of [Base]. *)
From Verif Require Import Base.
From Coq Require Import ZifyBool ZifyNat ZifyN.
Ltac Zify.zify_post_hook ::= Z.div_mod_to_equations.
Arguments N.add : simpl never.
Arguments N.sub : simpl never.
Arguments N.mul : simpl never.
Arguments N.div : simpl never.
Arguments N.modulo : simpl never.
Arguments N.leb : simpl never.
Arguments N.ltb : simpl never.
Arguments N.eqb : simpl never.

Ltac inv H := inversion H; subst; clear H.

(** ** seqb *)
Lemma seqb_refl s : seqb s s = true.
Proof. induction s as [|c s IH]; [reflexivity|]. cbn [seqb]. rewrite N.eqb_refl, IH. reflexivity. Qed.

Lemma seqb_eq a b : seqb a b = true <-> a = b.
Proof.
  split; [|intros ->; apply seqb_refl].
  revert b. induction a as [|x a IH]; intros [|y b] H; cbn [seqb] in H; try discriminate; [reflexivity|].
  apply andb_true_iff in H as [H1 H2]. apply N.eqb_eq in H1. apply IH in H2. congruence.
Qed.

Lemma seqb_neq a b : seqb a b = false <-> a <> b.
Proof.
  destruct (seqb a b) eqn:E.
  - apply seqb_eq in E. split; [discriminate|congruence].
  - split; [|reflexivity]. intros _ H. apply seqb_eq in H. congruence.
Qed.

Lemma seqb_spec a b : reflect (a = b) (seqb a b).
Proof. apply iff_reflect. symmetry. apply seqb_eq. Qed.

Lemma seqb_sym a b : seqb a b = seqb b a.
Proof. destruct (seqb_spec a b) as [->|H]; [now rewrite seqb_refl|]. symmetry. apply seqb_neq. congruence. Qed.

Definition str_eq_dec (a b : str) : {a = b} + {a <> b} := list_eq_dec N.eq_dec a b.

(** ** case *)
Lemma lower_char_idem c : lower_char (lower_char c) = lower_char c.
Proof. unfold lower_char, is_upper. destruct ((65 <=? c) && (c <=? 90)) eqn:E; [|now rewrite E].
  destruct ((65 <=? c + 32) && (c + 32 <=? 90)) eqn:E2; [|reflexivity]. lia. Qed.

Lemma to_lower_idem s : to_lower (to_lower s) = to_lower s.
Proof. unfold to_lower. rewrite map_map. apply map_ext. apply lower_char_idem. Qed.

Lemma to_lower_app a b : to_lower (a ++ b) = to_lower a ++ to_lower b.
Proof. apply map_app. Qed.

Lemma to_lower_length s : length (to_lower s) = length s.
Proof. apply map_length. Qed.

Lemma lower_char_ascii c : (lower_char c <? 128) = (c <? 128).
Proof. unfold lower_char, is_upper. destruct ((65 <=? c) && (c <=? 90)) eqn:E; lia. Qed.

Lemma is_ascii_to_lower s : is_ascii (to_lower s) = is_ascii s.
Proof.
  unfold is_ascii, to_lower. induction s as [|c s IH]; [reflexivity|]. cbn [map forallb].
  rewrite lower_char_ascii, IH. reflexivity.
Qed.

Lemma is_ascii_app a b : is_ascii (a ++ b) = is_ascii a && is_ascii b.
Proof. apply forallb_app. Qed.

(** ** trimming *)
Lemma drop_while_none p s : (match s with [] => true | c :: _ => negb (p c) end) = true -> drop_while p s = s.
Proof. destruct s as [|c s]; [reflexivity|]. cbn. destruct (p c); [discriminate|reflexivity]. Qed.

Lemma drop_while_all p s : forallb p s = true -> drop_while p s = [].
Proof. induction s as [|c s IH]; [reflexivity|]. cbn. intros H. apply andb_true_iff in H as [-> H]. auto. Qed.

Lemma drop_while_app_all p a b : forallb p a = true -> drop_while p (a ++ b) = drop_while p b.
Proof. induction a as [|c a IH]; [reflexivity|]. cbn. intros H. apply andb_true_iff in H as [-> H]. auto. Qed.

Lemma drop_while_head p s c r : drop_while p s = c :: r -> p c = false.
Proof. induction s as [|x s IH]; cbn; [discriminate|]. destruct (p x) eqn:E; [exact IH|]. intros H; inv H. exact E. Qed.

Lemma drop_while_idem p s : drop_while p (drop_while p s) = drop_while p s.
Proof.
  apply drop_while_none. destruct (drop_while p s) as [|c r] eqn:E; [reflexivity|].
  apply drop_while_head in E. now rewrite E.
Qed.

Lemma drop_while_suffix p s : exists a, s = a ++ drop_while p s /\ forallb p a = true.
Proof.
  induction s as [|c s IH]; [exists []; auto|]. cbn. destruct (p c) eqn:E; [|exists []; auto].
  destruct IH as (a & Ha & Hp). exists (c :: a). cbn. rewrite E, Hp. split; [congruence|reflexivity].
Qed.

(** A string whose first and last characters do not satisfy [p]. *)
Definition no_edge (p : N -> bool) (s : str) : bool :=
  (match s with [] => true | c :: _ => negb (p c) end) &&
  (match rev s with [] => true | c :: _ => negb (p c) end).

Lemma trim_matches_id p s : no_edge p s = true -> trim_matches p s = s.
Proof.
  unfold no_edge, trim_matches, trim_end_matches, trim_start_matches. intros H.
  apply andb_true_iff in H as [H1 H2].
  rewrite (drop_while_none p s H1), (drop_while_none p (rev s) H2). apply rev_involutive.
Qed.

Lemma trim_end_matches_id p s : (match rev s with [] => true | c :: _ => negb (p c) end) = true -> trim_end_matches p s = s.
Proof. unfold trim_end_matches. intros H. rewrite (drop_while_none p (rev s) H). apply rev_involutive. Qed.

Lemma trim_end_app_all p a b : forallb p b = true -> trim_end_matches p (a ++ b) = trim_end_matches p a.
Proof.
  unfold trim_end_matches. intros H. rewrite rev_app_distr, drop_while_app_all; [reflexivity|].
  rewrite forallb_forall in *. intros x Hx. apply H. now apply in_rev.
Qed.

Lemma trim_end_prefix p s : exists b, s = trim_end_matches p s ++ b /\ forallb p b = true.
Proof.
  unfold trim_end_matches. destruct (drop_while_suffix p (rev s)) as (a & Ha & Hp).
  exists (rev a). split.
  - rewrite <- rev_app_distr, <- Ha. symmetry. apply rev_involutive.
  - rewrite forallb_forall in *. intros x Hx. apply Hp. now apply in_rev.
Qed.

Lemma trim_matches_no_edge p s : no_edge p (trim_matches p s) = true.
Proof.
  unfold no_edge, trim_matches. apply andb_true_iff. split.
  - destruct (trim_end_prefix p (trim_start_matches p s)) as (b & Hb & _).
    destruct (trim_end_matches p (trim_start_matches p s)) as [|c r] eqn:E; [reflexivity|].
    unfold trim_start_matches in Hb. cbn in Hb. apply drop_while_head in Hb. now rewrite Hb.
  - unfold trim_end_matches. rewrite rev_involutive.
    destruct (drop_while p (rev (trim_start_matches p s))) as [|c r] eqn:E; [reflexivity|].
    apply drop_while_head in E. now rewrite E.
Qed.

Lemma trim_matches_idem p s : trim_matches p (trim_matches p s) = trim_matches p s.
Proof. apply trim_matches_id, trim_matches_no_edge. Qed.

Lemma trim_matches_decomp p s : exists a b, s = a ++ trim_matches p s ++ b /\ forallb p a = true /\ forallb p b = true.
Proof.
  unfold trim_matches, trim_start_matches.
  destruct (drop_while_suffix p s) as (a & Ha & Hp).
  destruct (trim_end_prefix p (drop_while p s)) as (b & Hb & Hq).
  exists a, b. split; [|auto]. rewrite Ha at 1. f_equal. exact Hb.
Qed.

Lemma trim_matches_pad p a s b : forallb p a = true -> forallb p b = true -> trim_matches p (a ++ s ++ b) = trim_matches p s.
Proof.
  intros Ha Hb. unfold trim_matches, trim_start_matches. rewrite drop_while_app_all by exact Ha.
  destruct (forallb p s) eqn:E.
  - rewrite (drop_while_all p s E). rewrite drop_while_app_all by exact E. rewrite (drop_while_all p b Hb). reflexivity.
  - assert (H : drop_while p (s ++ b) = drop_while p s ++ b).
    { clear - E. induction s as [|c s IH]; cbn in *; [discriminate|]. destruct (p c); cbn in *; auto. }
    rewrite H. apply trim_end_app_all. exact Hb.
Qed.

Lemma trim_space_cons s : no_edge is_ws s = true -> trim (32 :: s) = s.
Proof.
  intros H. unfold trim. change (32 :: s) with ([32] ++ s). rewrite <- (app_nil_r s) at 1.
  rewrite trim_matches_pad by reflexivity. apply trim_matches_id, H.
Qed.

Lemma trim_id s : no_edge is_ws s = true -> trim s = s.
Proof. apply trim_matches_id. Qed.

Lemma no_edge_all p s : forallb (fun c => negb (p c)) s = true -> no_edge p s = true.
Proof.
  intros H. unfold no_edge. rewrite forallb_forall in H. apply andb_true_iff; split.
  - destruct s as [|c s]; [reflexivity|]. apply H. now left.
  - destruct (rev s) as [|c r] eqn:E; [reflexivity|]. apply H. apply in_rev. rewrite E. now left.
Qed.

Lemma forallb_impl {A} (p q : A -> bool) l : (forall x, p x = true -> q x = true) -> forallb p l = true -> forallb q l = true.
Proof. intros H Hl. rewrite forallb_forall in *. auto. Qed.

Lemma is_ascii_trim s : is_ascii s = true -> is_ascii (trim s) = true.
Proof.
  intros H. destruct (trim_matches_decomp is_ws s) as (a & b & Hs & _). unfold trim.
  rewrite Hs, !is_ascii_app in H. apply andb_true_iff in H as [_ H]. apply andb_true_iff in H as [H _]. exact H.
Qed.

(** ** split and join *)
Definition no_char (d : N) (s : str) : bool := forallb (fun c => negb (c =? d)) s.

Lemma split_nonempty d s : split d s <> [].
Proof. destruct s as [|c s]; cbn; [discriminate|]. destruct (c =? d); [discriminate|]. destruct (split d s); discriminate. Qed.

Lemma split_no_char d s : no_char d s = true -> split d s = [s].
Proof.
  induction s as [|c s IH]; [reflexivity|]. cbn. intros H. apply andb_true_iff in H as [H1 H2].
  destruct (c =? d); [discriminate|]. rewrite IH by exact H2. reflexivity.
Qed.

Lemma split_app d a b : no_char d a = true -> split d (a ++ d :: b) = a :: split d b.
Proof.
  induction a as [|c a IH]; cbn; intros H.
  - rewrite N.eqb_refl. reflexivity.
  - apply andb_true_iff in H as [H1 H2]. destruct (c =? d); [discriminate|]. rewrite IH by exact H2. reflexivity.
Qed.

Lemma split_pieces d s : Forall (fun p => no_char d p = true) (split d s).
Proof.
  induction s as [|c s IH]; cbn; [repeat constructor|]. destruct (c =? d) eqn:E.
  - constructor; [reflexivity|exact IH].
  - destruct (split d s) as [|p ps]; [repeat constructor; cbn; now rewrite E|]. inv IH.
    constructor; [|assumption]. cbn. now rewrite E.
Qed.

Lemma split_join_inv d s : join [d] (split d s) = s.
Proof.
  induction s as [|c s IH]; [reflexivity|]. cbn [split]. destruct (N.eqb_spec c d) as [->|Hne].
  - destruct (split d s) as [|p ps] eqn:E; [now apply split_nonempty in E|].
    cbn [join]. cbn. f_equal. exact IH.
  - destruct (split d s) as [|p ps] eqn:E; [now apply split_nonempty in E|].
    rewrite <- IH. destruct ps; reflexivity.
Qed.

Lemma split_join d l : l <> [] -> Forall (fun p => no_char d p = true) l -> split d (join [d] l) = l.
Proof.
  induction l as [|x l IH]; intros Hne H; [congruence|]. inv H.
  destruct l as [|y l]; [apply split_no_char; assumption|].
  change (join [d] (x :: y :: l)) with (x ++ d :: join [d] (y :: l)).
  rewrite split_app by assumption. f_equal. apply IH; [discriminate|assumption].
Qed.

(** The crate writes lists separated by [", "]. *)
Lemma split_join_space d x l : no_char d [32] = true ->
  Forall (fun p => no_char d p = true) (x :: l) ->
  split d (join [d; 32] (x :: l)) = x :: map (cons 32) l.
Proof.
  intros Hd. revert x. induction l as [|y l IH]; intros x H; inv H.
  - cbn [join map]. apply split_no_char; assumption.
  - change (join [d; 32] (x :: y :: l)) with (x ++ d :: (32 :: join [d; 32] (y :: l))).
    rewrite split_app by assumption. f_equal.
    inv H3. specialize (IH y ltac:(constructor; assumption)).
    cbn [split]. cbn in Hd. destruct (32 =? d); [discriminate|]. rewrite IH. reflexivity.
Qed.

Lemma split_once_none d s : split_once d s = None <-> no_char d s = true.
Proof.
  induction s as [|c s IH]; cbn; [tauto|]. destruct (c =? d) eqn:E; cbn.
  - split; discriminate.
  - destruct (split_once d s) as [[a b]|]; [|tauto]. split; [discriminate|]. intros H. apply IH in H. discriminate.
Qed.

Lemma split_once_app d a b : no_char d a = true -> split_once d (a ++ d :: b) = Some (a, b).
Proof.
  induction a as [|c a IH]; cbn; intros H; [now rewrite N.eqb_refl|].
  apply andb_true_iff in H as [H1 H2]. destruct (c =? d); [discriminate|]. now rewrite IH.
Qed.

Lemma split_once_some d s a b : split_once d s = Some (a, b) -> s = a ++ d :: b /\ no_char d a = true.
Proof.
  revert a b. induction s as [|c s IH]; intros a b; cbn; [discriminate|].
  destruct (N.eqb_spec c d) as [->|Hne].
  - intros H; inv H. auto.
  - destruct (split_once d s) as [[a' b']|] eqn:E; [|discriminate]. intros H; inv H.
    destruct (IH _ _ eq_refl) as [-> Hn]. split; [reflexivity|]. unfold no_char in *. cbn [forallb]. rewrite Hn.
    destruct (N.eqb_spec c d); [congruence|reflexivity].
Qed.

Lemma no_char_app d a b : no_char d (a ++ b) = no_char d a && no_char d b.
Proof. apply forallb_app. Qed.

Lemma no_char_forallb d p s : p d = false -> forallb p s = true -> no_char d s = true.
Proof.
  intros Hd H. unfold no_char. rewrite forallb_forall in *. intros x Hx. specialize (H x Hx).
  destruct (N.eqb_spec x d); [subst; congruence|reflexivity].
Qed.

Lemma strip_prefix_some p s r : strip_prefix p s = Some r <-> s = p ++ r.
Proof.
  revert s. induction p as [|x p IH]; intros s; cbn; [split; congruence|].
  destruct s as [|y s]; [split; discriminate|]. destruct (N.eqb_spec x y) as [->|Hne].
  - rewrite IH. split; congruence.
  - split; [discriminate|]. congruence.
Qed.

Lemma strip_prefix_app p r : strip_prefix p (p ++ r) = Some r.
Proof. now apply strip_prefix_some. Qed.

Lemma strip_suffix_some p s r : strip_suffix p s = Some r <-> s = r ++ p.
Proof.
  unfold strip_suffix. destruct (strip_prefix (rev p) (rev s)) as [q|] eqn:E.
  - apply strip_prefix_some in E. split.
    + intros H; inv H. rewrite <- (rev_involutive s), E, rev_app_distr, rev_involutive. reflexivity.
    + intros ->. rewrite rev_app_distr in E. apply app_inv_head in E. subst. now rewrite rev_involutive.
  - split; [discriminate|]. intros ->. rewrite rev_app_distr, strip_prefix_app in E. discriminate.
Qed.

Lemma strip_suffix_app p r : strip_suffix p (r ++ p) = Some r.
Proof. now apply strip_suffix_some. Qed.

(** ** numbers *)
Fixpoint horner (r acc : N) (ds : list N) : N :=
  match ds with [] => acc | d :: ds' => horner r (acc * r + d) ds' end.

Lemma horner_app r acc a b : horner r acc (a ++ b) = horner r (horner r acc a) b.
Proof. revert acc. induction a as [|d a IH]; intros acc; [reflexivity|]. cbn. apply IH. Qed.

Lemma digits_fuel_acc f r n acc : digits_fuel f r n acc = digits_fuel f r n [] ++ acc.
Proof.
  revert n acc. induction f as [|f IH]; intros n acc; [reflexivity|]. cbn [digits_fuel].
  destruct (n / r =? 0); [reflexivity|]. rewrite (IH _ (_ :: acc)), (IH _ [_]).
  rewrite <- app_assoc. reflexivity.
Qed.

Lemma size_nat_bound n : n < 2 ^ N.of_nat (N.size_nat n).
Proof.
  destruct n as [|p]; [reflexivity|]. cbn [N.size_nat].
  induction p as [p IH|p IH|]; cbn [Pos.size_nat].
  - rewrite Nat2N.inj_succ, N.pow_succ_r'. change (N.pos p~1) with (2 * N.pos p + 1). lia.
  - rewrite Nat2N.inj_succ, N.pow_succ_r'. change (N.pos p~0) with (2 * N.pos p). lia.
  - reflexivity.
Qed.

Lemma digits_fuel_spec f r n : 2 <= r -> n < r ^ N.of_nat f ->
  horner r 0 (digits_fuel f r n []) = n /\ Forall (fun d => d < r) (digits_fuel f r n []).
Proof.
  intros Hr. revert n. induction f as [|f IH]; intros n Hn.
  - change (n < 1) in Hn. cbn [digits_fuel horner]. split; [lia|constructor].
  - cbn [digits_fuel]. rewrite Nat2N.inj_succ, N.pow_succ_r' in Hn.
    assert (Hm : n mod r < r) by (apply N.mod_lt; lia).
    assert (Hdm : n = r * (n / r) + n mod r) by (apply N.div_mod; lia).
    destruct (N.eqb_spec (n / r) 0) as [E|E].
    + split; [|repeat constructor; exact Hm]. cbn [horner]. rewrite E in Hdm. lia.
    + rewrite digits_fuel_acc.
      assert (Hlt : n / r < r ^ N.of_nat f) by (apply N.div_lt_upper_bound; lia).
      destruct (IH (n / r) Hlt) as [H1 H2]. split.
      * rewrite horner_app, H1. cbn [horner]. lia.
      * apply Forall_app. split; [exact H2|]. repeat constructor. exact Hm.
Qed.

Lemma pow_le_base a b n : a <= b -> a ^ n <= b ^ n.
Proof. intros H. apply N.pow_le_mono_l, H. Qed.

Lemma digits_spec r n : 2 <= r -> horner r 0 (digits r n) = n /\ Forall (fun d => d < r) (digits r n).
Proof.
  intros Hr. unfold digits. apply digits_fuel_spec; [exact Hr|].
  pose proof (size_nat_bound n) as H1.
  assert (H2 : 2 ^ N.of_nat (N.size_nat n) <= r ^ N.of_nat (N.size_nat n)) by (apply pow_le_base; exact Hr).
  rewrite Nat2N.inj_succ, N.pow_succ_r'. nia.
Qed.

Lemma digits_nonempty r n : digits r n <> [].
Proof.
  unfold digits. cbn [digits_fuel]. destruct (n / r =? 0); [discriminate|].
  rewrite digits_fuel_acc. intros H. apply app_eq_nil in H as [_ H]. discriminate.
Qed.

Lemma char_digit_digit_char r d : d < r -> r <= 16 -> char_digit r (digit_char d) = Some d.
Proof.
  intros H H16. unfold char_digit, digit_char, is_digit.
  destruct (d <? 10) eqn:E.
  - replace ((48 <=? 48 + d) && (48 + d <=? 57)) with true by lia.
    replace (48 + d - 48) with d by lia. replace (d <? r) with true by lia. reflexivity.
  - replace ((48 <=? 87 + d) && (87 + d <=? 57)) with false by lia.
    replace ((97 <=? 87 + d) && (87 + d <=? 102)) with true by lia.
    replace (87 + d - 87) with d by lia. replace (d <? r) with true by lia. reflexivity.
Qed.

Lemma digits_val_digit_chars r ds acc : r <= 16 -> Forall (fun d => d < r) ds ->
  digits_val r acc (map digit_char ds) = Some (horner r acc ds).
Proof.
  intros Hr H. revert acc. induction H as [|d ds Hd H IH]; intros acc; [reflexivity|].
  cbn [map digits_val horner]. rewrite char_digit_digit_char by assumption. apply IH.
Qed.

Lemma digits_val_app r acc a b : digits_val r acc (a ++ b) =
  match digits_val r acc a with Some v => digits_val r v b | None => None end.
Proof.
  revert acc. induction a as [|c a IH]; intros acc; [reflexivity|]. cbn [digits_val app].
  destruct (char_digit r c); [apply IH|reflexivity].
Qed.

Lemma digit_char_not_plus d : d < 16 -> (digit_char d =? 43) = false.
Proof. unfold digit_char. destruct (d <? 10) eqn:E; lia. Qed.

Lemma parse_uint_digits r max ds : 2 <= r <= 16 -> ds <> [] -> Forall (fun d => d < r) ds ->
  parse_uint r max (map digit_char ds) = if horner r 0 ds <=? max then Some (horner r 0 ds) else None.
Proof.
  intros [H1 H2] Hne H. destruct ds as [|d ds]; [congruence|].
  unfold parse_uint. cbn [map]. rewrite digit_char_not_plus by (inv H; lia).
  change (digit_char d :: map digit_char ds) with (map digit_char (d :: ds)).
  rewrite digits_val_digit_chars by assumption. reflexivity.
Qed.

Theorem parse_show r max n : 2 <= r <= 16 -> n <= max -> parse_uint r max (show_radix r n) = Some n.
Proof.
  intros Hr Hn. unfold show_radix. destruct (digits_spec r n ltac:(lia)) as [H1 H2].
  rewrite parse_uint_digits; [|exact Hr|apply digits_nonempty|exact H2].
  rewrite H1. replace (n <=? max) with true by lia. reflexivity.
Qed.

Lemma parse_show_dec max n : n <= max -> parse_uint 10 max (show_dec n) = Some n.
Proof. apply parse_show. lia. Qed.

Lemma show_dec_digits n : forallb is_digit (show_dec n) = true.
Proof.
  unfold show_dec, show_radix. destruct (digits_spec 10 n ltac:(lia)) as [_ H].
  induction H as [|d ds Hd H IH]; [reflexivity|]. cbn [map forallb]. rewrite IH, andb_true_r.
  unfold digit_char, is_digit. destruct (d <? 10) eqn:E; lia.
Qed.

Lemma show_dec_nonempty n : show_dec n <> [].
Proof. unfold show_dec, show_radix. pose proof (digits_nonempty 10 n). destruct (digits 10 n); [congruence|discriminate]. Qed.

Lemma digit_not_ws c : is_digit c = true -> is_ws c = false.
Proof. unfold is_digit, is_ws. lia. Qed.

Lemma digit_ascii c : is_digit c = true -> (c <? 128) = true.
Proof. unfold is_digit. lia. Qed.

Lemma show_dec_no_edge n : no_edge is_ws (show_dec n) = true.
Proof.
  apply no_edge_all. eapply forallb_impl; [|apply show_dec_digits].
  intros c H. cbn. now rewrite digit_not_ws.
Qed.

Lemma show_dec_ascii n : is_ascii (show_dec n) = true.
Proof. eapply forallb_impl; [|apply show_dec_digits]. apply digit_ascii. Qed.

Lemma show_dec_no_char d n : is_digit d = false -> no_char d (show_dec n) = true.
Proof. intros H. eapply no_char_forallb; [exact H|apply show_dec_digits]. Qed.

Lemma to_lower_digits s : forallb is_digit s = true -> to_lower s = s.
Proof.
  induction s as [|c s IH]; [reflexivity|]. cbn [forallb]. intros H. apply andb_true_iff in H as [H1 H2].
  cbn [to_lower map]. fold (to_lower s). rewrite IH by exact H2. f_equal.
  unfold lower_char, is_upper, is_digit in *. destruct ((65 <=? c) && (c <=? 90)) eqn:E; lia.
Qed.

Lemma to_lower_show_dec n : to_lower (show_dec n) = show_dec n.
Proof. apply to_lower_digits, show_dec_digits. Qed.

Lemma parse_uint_bound r max s n : parse_uint r max s = Some n -> n <= max.
Proof.
  unfold parse_uint. intros H.
  destruct (match s with [] => s | c :: s' => if c =? 43 then s' else s end) as [|c0 l0]; [discriminate|].
  destruct (digits_val r 0 (c0 :: l0)) as [v|]; [|discriminate].
  destruct (v <=? max) eqn:E; [|discriminate]. inv H. lia.
Qed.

(** ** misc list facts *)
Lemma map_opt_length {A B} (f : A -> B) l : length (map f l) = length l.
Proof. apply map_length. Qed.

Lemma outcome_cases {A} (o : outcome A) : (exists a, o = Ok a) \/ (exists e, o = Err e) \/ o = Panic.
Proof. destruct o; eauto. Qed.

(** ** Finite sweeps *)
Fixpoint all_from (fuel : nat) (i : N) (p : N -> bool) : bool :=
  match fuel with O => true | S f => p i && all_from f (N.succ i) p end.
Definition all_below (n : N) (p : N -> bool) : bool := all_from (N.to_nat n) 0 p.

Lemma all_from_spec fuel i p : all_from fuel i p = true -> forall k, i <= k < i + N.of_nat fuel -> p k = true.
Proof.
  revert i. induction fuel as [|f IH]; intros i H k Hk; [lia|]. cbn in H.
  apply andb_true_iff in H as [H1 H2]. destruct (N.eq_dec k i) as [->|Hne]; [exact H1|].
  apply (IH (N.succ i) H2). lia.
Qed.

Lemma all_below_spec n p : all_below n p = true -> forall k, k < n -> p k = true.
Proof. intros H k Hk. apply (all_from_spec _ _ _ H). rewrite N2Nat.id. lia. Qed.
