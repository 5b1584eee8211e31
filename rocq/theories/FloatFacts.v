(** Rounding, parsing and printing of floats. *)
From Verif Require Import Base BaseFacts ParseUtilsFacts Float.
From Coq Require Import ZifyBool ZifyNat ZifyN.

Lemma pow2_pos : forall e, 0 < 2 ^ e.
Proof. intros e. apply N.neq_0_lt_0, N.pow_nonzero. discriminate. Qed.

(** ** rounding to integers *)
Lemma rhe_bounds : forall a b, 0 < b -> 2 * b * rhe a b <= 2 * a + b /\ 2 * a <= 2 * b * rhe a b + b.
Proof.
  intros a b B. unfold rhe. assert (D := N.div_mod a b ltac:(lia)). assert (R := N.mod_lt a b ltac:(lia)).
  set (q := a / b) in *. set (r := a mod b) in *. clearbody q r.
  destruct ((2 * r <? b) || (2 * r =? b) && N.even q) eqn:C; nia.
Qed.
Lemma rhe_near : forall a b k, 0 < b -> 2 * a < 2 * b * k + b -> 2 * b * k < 2 * a + b -> rhe a b = k.
Proof.
  intros a b k B L U. destruct (rhe_bounds a b B) as [H1 H2].
  destruct (N.lt_trichotomy (rhe a b) k) as [X|[X|X]]; [|exact X|]; nia.
Qed.
Lemma rhe_le : forall a b c, 0 < b -> a <= c * b -> rhe a b <= c.
Proof.
  intros a b c B H. destruct (N.le_gt_cases (rhe a b) c) as [X|X]; [exact X|exfalso].
  unfold rhe in X. assert (D := N.div_mod a b ltac:(lia)). assert (R := N.mod_lt a b ltac:(lia)).
  set (q := a / b) in *. set (r := a mod b) in *. clearbody q r.
  destruct ((2 * r <? b) || (2 * r =? b) && N.even q) eqn:C; [nia|].
  assert (q = c) by nia. subst. assert (r = 0) by nia. subst. lia.
Qed.
Lemma rhe_exact : forall k b, 0 < b -> rhe (k * b) b = k.
Proof. intros k b B. apply rhe_near; [exact B|nia|nia]. Qed.

(** ** rounding to floats *)
(** A ratio of at most 1 becomes a finite float of at most 1, off by at most half a unit of the last place of
    numbers below 1 (2^-prec). *)
Lemma round_small : forall f neg p q, 0 < q -> p <= q -> 0 < prec f -> prec f <= unit f -> 0 < emax f ->
  exists v, round_ratio f neg p q = Fin neg v /\ v <= one f /\
    (* |v/2^unit - p/q| <= 2^-prec *)
    q * v <= p * 2 ^ unit f + q * 2 ^ (unit f - prec f) /\ p * 2 ^ unit f <= q * v + q * 2 ^ (unit f - prec f).
Proof.
  intros f neg p q Q PQ P1 P2 E. unfold round_ratio, one.
  set (n := p * 2 ^ unit f). set (x := N.log2 (n / q) - (prec f - 1)). set (g := 2 ^ x).
  assert (G : 0 < g) by apply pow2_pos.
  assert (Hn : n <= q * 2 ^ unit f) by (unfold n; apply N.mul_le_mono_r, PQ).
  assert (Ht : n / q <= 2 ^ unit f).
  { apply N.div_le_upper_bound; [lia|exact Hn]. }
  assert (Hx : x <= unit f - (prec f - 1)).
  { unfold x. apply N.log2_le_mono in Ht. rewrite N.log2_pow2 in Ht by lia. lia. }
  assert (S : 2 ^ unit f = 2 ^ (unit f - x) * g).
  { unfold g. rewrite <- N.pow_add_r. f_equal. lia. }
  assert (R : rhe n (q * g) <= 2 ^ (unit f - x)).
  { apply rhe_le; [nia|]. rewrite S in Hn. nia. }
  assert (V : g * rhe n (q * g) <= 2 ^ unit f) by (rewrite S; nia).
  assert (T : 2 ^ unit f < 2 ^ (emax f + unit f)) by (apply N.pow_lt_mono_r; lia).
  exists (g * rhe n (q * g)). replace (g * rhe n (q * g) <? 2 ^ (emax f + unit f)) with true by lia.
  split; [reflexivity|]. split; [exact V|].
  assert (Gb : g <= 2 * 2 ^ (unit f - prec f)).
  { unfold g. replace (2 * 2 ^ (unit f - prec f)) with (2 ^ (N.succ (unit f - prec f))) by apply N.pow_succ_r'.
    apply N.pow_le_mono_r; lia. }
  destruct (rhe_bounds n (q * g) ltac:(nia)) as [B1 B2]. fold n.
  set (r := rhe n (q * g)) in *. set (h := 2 ^ (unit f - prec f)) in *. clearbody n r h g. clear -B1 B2 Gb.
  split; nia.
Qed.

(** ** the text of thousandths *)
Lemma show_milli_digits : forall k, k < 10000 ->
  show_milli k = [48 + k / 1000; 46; 48 + k / 100 mod 10; 48 + k / 10 mod 10; 48 + k mod 10].
Proof.
  intros k K. unfold show_milli. replace (show_dec (k / 1000)) with [48 + k / 1000]; [reflexivity|].
  assert (B : k / 1000 < 10) by lia. revert B. generalize (k / 1000) as j. intros j B.
  assert (A := all_below_spec 10 (fun j => seqb [48 + j] (show_dec j)) eq_refl j B). cbn beta in A. now apply seqb_eq in A.
Qed.
Lemma digit_run_cons : forall c s, is_digit c = true -> digit_run (c :: s) = (c :: fst (digit_run s), snd (digit_run s)).
Proof. intros c s H. unfold digit_run. cbn [take_while drop_while]. rewrite H. reflexivity. Qed.
Lemma digit_run_stop : forall c s, is_digit c = false -> digit_run (c :: s) = ([], c :: s).
Proof. intros c s H. unfold digit_run. cbn [take_while drop_while]. rewrite H. reflexivity. Qed.

Lemma parse_milli_gen : forall f a b c d, a < 10 -> b < 10 -> c < 10 -> d < 10 ->
  parse_float f [48 + a; 46; 48 + b; 48 + c; 48 + d] = Some (round_ratio f false (a * 1000 + b * 100 + c * 10 + d) 1000).
Proof.
  intros f a b c d A B C D.
  assert (DG : forall x, x < 10 -> is_digit (48 + x) = true) by (intros x X; unfold is_digit; lia).
  unfold parse_float.
  assert (E : take_sign [48 + a; 46; 48 + b; 48 + c; 48 + d] = (false, [48 + a; 46; 48 + b; 48 + c; 48 + d])).
  { unfold take_sign. replace (48 + a =? 45) with false by lia. replace (48 + a =? 43) with false by lia. reflexivity. }
  rewrite E. unfold parse_number. rewrite digit_run_cons by auto. rewrite digit_run_stop by reflexivity. cbn [fst snd]. change (46 =? 46) with true. cbv iota.
  rewrite !digit_run_cons by auto. cbn [digit_run take_while drop_while fst snd app parse_exp length].
  assert (V : dec_val [48 + a; 48 + b; 48 + c; 48 + d] = a * 1000 + b * 100 + c * 10 + d) by (unfold dec_val; cbn [fold_left]; lia).
  rewrite V. reflexivity.
Qed.
Lemma parse_milli : forall f k, k < 10000 -> parse_float f (show_milli k) = Some (round_ratio f false k 1000).
Proof.
  intros f k K. rewrite show_milli_digits by exact K. rewrite parse_milli_gen by lia.
  do 2 f_equal. lia.
Qed.
(** Printing the float nearest to k/1000 gives k thousandths back. *)
Lemma thousandths_round : forall k v, k <= 1000 -> round_ratio f32_format false k 1000 = Fin false v -> thousandths f32_format v = k.
Proof.
  intros k v K H.
  assert (C : 0 < prec f32_format /\ prec f32_format <= unit f32_format /\ 0 < emax f32_format) by (cbn [prec unit emax f32_format]; lia).
  destruct C as (C1 & C2 & C3).
  destruct (round_small f32_format false k 1000 ltac:(lia) K C1 C2 C3) as (v' & R & _ & B1 & B2). clear C1 C2 C3.
  rewrite H in R. injection R as <-. cbn [unit prec f32_format] in *. unfold thousandths. cbn [unit f32_format].
  change (149 - 24) with 125 in *.
  assert (P : 2 ^ 149 = 2 ^ 125 * 16777216) by (vm_compute; reflexivity). rewrite P in *.
  assert (P' := pow2_pos 125). set (h := 2 ^ 125) in *. clearbody h. apply rhe_near; nia.
Qed.

(** ** decimal fractions *)
Lemma digit_run_all : forall s, forallb is_digit s = true -> digit_run s = (s, []).
Proof.
  induction s as [|c s IH]; intros H; [reflexivity|]. cbn [forallb] in H. apply andb_true_iff in H as [Hc H].
  rewrite digit_run_cons by exact Hc. rewrite (IH H). reflexivity.
Qed.
Lemma dec_val_acc : forall s a, forallb is_digit s = true ->
  a * 10 ^ N.of_nat (length s) <= fold_left (fun a c => a * 10 + (c - 48)) s a < (a + 1) * 10 ^ N.of_nat (length s).
Proof.
  induction s as [|c s IH]; intros a H; [cbn; lia|]. cbn [forallb] in H. apply andb_true_iff in H as [Hc H].
  cbn [fold_left length]. rewrite Nat2N.inj_succ, N.pow_succ_r'. specialize (IH (a * 10 + (c - 48)) H).
  unfold is_digit in Hc. assert (P : 0 < 10 ^ N.of_nat (length s)) by (apply N.neq_0_lt_0, N.pow_nonzero; discriminate).
  set (p := 10 ^ N.of_nat (length s)) in *. clearbody p. nia.
Qed.
Lemma dec_val_zeros : forall s a, forallb (N.eqb 48) s = true ->
  fold_left (fun a c => a * 10 + (c - 48)) s a = a * 10 ^ N.of_nat (length s).
Proof.
  induction s as [|c s IH]; intros a H; [cbn; lia|]. cbn [forallb] in H. apply andb_true_iff in H as [Hc H]. apply N.eqb_eq in Hc. subst c.
  cbn [fold_left length]. rewrite IH by exact H. rewrite Nat2N.inj_succ, N.pow_succ_r'. rewrite N.sub_diag. lia.
Qed.
(** One digit, a point, and any number of digits. *)
Lemma parse_fraction : forall f a ds, is_digit a = true -> forallb is_digit ds = true -> ds <> [] ->
  parse_float f (a :: 46 :: ds) = Some (round_ratio f false (dec_val (a :: ds)) (10 ^ N.of_nat (length ds))).
Proof.
  intros f a ds A D Nn. unfold parse_float.
  assert (E : take_sign (a :: 46 :: ds) = (false, a :: 46 :: ds)).
  { unfold take_sign. unfold is_digit in A. replace (a =? 45) with false by lia. replace (a =? 43) with false by lia. reflexivity. }
  rewrite E. unfold parse_number. rewrite digit_run_cons by auto. rewrite digit_run_stop by reflexivity. cbn [fst snd].
  change (46 =? 46) with true. cbv iota. rewrite digit_run_all by exact D. cbn [app parse_exp].
  assert (L : (0 < length ds)%nat) by (destruct ds; [congruence|cbn; lia]).
  destruct (0 <=? 0 - Z.of_nat (length ds))%Z eqn:B; [lia|]. replace (Z.to_N (- (0 - Z.of_nat (length ds)))) with (N.of_nat (length ds)) by lia.
  reflexivity.
Qed.
(** "0" and "1", without or with a point. *)
Lemma parse_unit : forall a r, a = 48 \/ a = 49 -> r = [] \/ r = [46] -> parse_float f32_format (a :: r) = Some (round_ratio f32_format false (a - 48) 1).
Proof. intros a r [-> | ->] [-> | ->]; vm_compute; reflexivity. Qed.
Lemma round_unit : forall p q, 0 < q -> p <= q -> exists v, round_ratio f32_format false p q = Fin false v /\ v <= 2 ^ 149.
Proof.
  intros p q Q L. destruct (round_small f32_format false p q Q L) as (v & R & B & _).
  1-3: cbn [prec unit emax f32_format]; lia.
  exists v. split; [exact R|exact B].
Qed.
