(** Theorems about numbers with a decimal point in headers (weights, ages, durations): the model of std's floats
    in Float.v is checked against the IEEE 754 rules it stands for. *)
From Coq Require Import ZifyBool ZifyNat ZifyN Lia.
From Verif Require Import Base BaseFacts Headers Typed Float FloatFacts Negotiate.

(** Independent description. A finite value of a format is an integer of at most [prec] bits times a power of two,
    in units of the smallest positive value, below the overflow threshold. *)
Definition sized (f : format) (w : N) : Prop := exists m e, w = m * 2 ^ e /\ m < 2 ^ prec f.
Definition finite (f : format) (w : N) : Prop := sized f w /\ w < 2 ^ (emax f + unit f).
(** How far [w] units are from [p / q], multiplied by [q]. *)
Definition off (f : format) (p q w : N) : Z := Z.abs (Z.of_N (q * w) - Z.of_N (p * 2 ^ unit f)).
Definition gap (v w : N) : N := Z.abs_N (Z.of_N v - Z.of_N w).
(** Twice the overflow threshold: half a gap above the largest finite value. *)
Definition threshold2 (f : format) : N := 2 * 2 ^ (emax f + unit f) - 2 ^ (emax f + unit f - prec f).
(** [x] is [p / q] rounded to nearest, ties to even. *)
Definition nearest (f : format) (neg : bool) (p q : N) (x : float) : Prop :=
  (exists v, x = Fin neg v /\ finite f v /\ 2 * (p * 2 ^ unit f) < q * threshold2 f /\
     forall w, finite f w -> w <> v -> (off f p q v < off f p q w)%Z \/
        (off f p q v = off f p q w /\ N.even (v / gap v w) = true)) \/
  (x = Inf neg /\ q * threshold2 f <= 2 * (p * 2 ^ unit f)).

Lemma sized_grid : forall f w E, 0 < prec f -> sized f w -> 2 ^ E <= w -> exists k, w = 2 ^ (E - (prec f - 1)) * k.
Proof.
  intros f w E P (m & e & -> & M) H.
  assert (L : E - (prec f - 1) <= e).
  { destruct (N.le_gt_cases (E - (prec f - 1)) e) as [L|L]; [exact L|exfalso].
    assert (E' : E = (E - (prec f - 1) - 1 - e) + e + prec f) by lia.
    assert (m * 2 ^ e < 2 ^ E); [|lia].
    rewrite E', !N.pow_add_r.
    apply N.lt_le_trans with (2 ^ prec f * 2 ^ e).
    - apply N.mul_lt_mono_pos_r; [apply pow2_pos|exact M].
    - pose proof (pow2_pos (E - (prec f - 1) - 1 - e)). nia. }
  exists (m * 2 ^ (e - (E - (prec f - 1)))).
  replace e with ((e - (E - (prec f - 1))) + (E - (prec f - 1))) at 1 by lia.
  rewrite N.pow_add_r. lia.
Qed.

Lemma sized_small : forall f w k, w = k -> k <= 2 ^ prec f -> 0 < prec f -> sized f w.
Proof.
  intros f w k -> K P. destruct (N.eq_dec k (2 ^ prec f)) as [->|D].
  - exists (2 ^ (prec f - 1)), 1. split.
    + rewrite <- N.pow_add_r. f_equal. lia.
    + apply N.pow_lt_mono_r; lia.
  - exists k, 0. split; [lia|lia].
Qed.
Lemma sized_scale : forall f w e, sized f w -> sized f (2 ^ e * w).
Proof. intros f w e (m & e' & -> & M). exists m, (e + e'). split; [rewrite N.pow_add_r; lia|exact M]. Qed.

(** The candidate before the overflow check: nearest among all numbers of the right size. *)
Lemma round_sized : forall f p q, 0 < q -> 0 < prec f ->
  let n := p * 2 ^ unit f in
  let g := 2 ^ (N.log2 (n / q) - (prec f - 1)) in
  let k := rhe n (q * g) in
  k <= 2 ^ prec f /\ sized f (g * k) /\
  forall w, sized f w -> w <> g * k -> (off f p q (g * k) < off f p q w)%Z \/ (off f p q (g * k) = off f p q w /\ gap (g * k) w = g /\ N.even k = true).
Proof.
  intros f p q Q P n g k.
  assert (G : 0 < g) by apply pow2_pos.
  assert (QG : 0 < q * g) by (apply N.mul_pos_pos; assumption).
  assert (K : k <= 2 ^ prec f).
  { apply rhe_le; [exact QG|].
    destruct (N.eq_dec (n / q) 0) as [Z|Z].
    - apply N.div_small_iff in Z; [|lia]. pose proof (pow2_pos (prec f)).
      apply N.le_trans with (1 * (q * g)); [assert (q * 1 <= q * g) by (apply N.mul_le_mono_l; lia); lia|apply N.mul_le_mono_r; lia].
    - pose proof (N.log2_spec (n / q) (proj1 (N.neq_0_lt_0 _) Z)) as [_ U].
      assert (n / q + 1 <= 2 ^ prec f * g).
      { unfold g. rewrite <- N.pow_add_r.
        apply N.le_trans with (2 ^ N.succ (N.log2 (n / q))); [lia|]. apply N.pow_le_mono_r; lia. }
      pose proof (N.div_mod n q ltac:(lia)). pose proof (N.mod_lt n q ltac:(lia)).
      assert (q * (n / q + 1) <= q * (2 ^ prec f * g)) by (apply N.mul_le_mono_l; assumption). lia. }
  split; [exact K|]. split.
  { apply sized_scale. apply (sized_small f k k eq_refl K P). }
  intros w W D.
  assert (B := rhe_bounds n (q * g) QG). fold k in B.
  (* multiples of g first *)
  assert (M : forall j, g * j <> g * k -> (off f p q (g * k) < off f p q (g * j))%Z \/ (off f p q (g * k) = off f p q (g * j) /\ gap (g * k) (g * j) = g /\ N.even k = true)).
  { intros j J. assert (JK : j <> k) by (intros ->; apply J; reflexivity). clear J.
    unfold off. fold n. destruct (N.lt_trichotomy j k) as [L|[->|L]]; [|exfalso; exact (JK eq_refl)|].
    - destruct (N.eq_dec (2 * n + q * g) (2 * (q * g) * k)) as [T|T].
      + (* tie, rounded up *)
        assert (EV : N.even k = true).
        { unfold k, rhe in *. set (a := n / (q * g)) in *. set (r := n mod (q * g)) in *.
          pose proof (N.div_mod n (q * g) ltac:(lia)) as DM. fold a r in DM. pose proof (N.mod_lt n (q * g) ltac:(lia)) as RL. fold r in RL.
          destruct ((2 * r <? q * g) || ((2 * r =? q * g) && N.even a)) eqn:C.
          - exfalso. nia.
          - assert (2 * r = q * g) by nia. rewrite N.add_1_r, N.even_succ, <- N.negb_even.
            apply orb_false_iff in C as [_ C]. rewrite (proj2 (N.eqb_eq _ _) H) in C. cbn [andb] in C. rewrite C. reflexivity. }
        destruct (N.eq_dec (j + 1) k) as [JJ|JJ].
        * right. subst k. rewrite <- JJ in *. split; [|split].
          -- lia.
          -- unfold gap. lia.
          -- exact EV.
        * left. assert (j + 2 <= k) by lia. assert (q * g * (j + 2) <= q * g * k) by (apply N.mul_le_mono_l; lia). lia.
      + left. assert (q * g * (j + 1) <= q * g * k) by (apply N.mul_le_mono_l; lia). lia.
    - destruct (N.eq_dec (2 * n) (2 * (q * g) * k + q * g)) as [T|T].
      + assert (EV : N.even k = true).
        { unfold k, rhe in *. set (a := n / (q * g)) in *. set (r := n mod (q * g)) in *.
          pose proof (N.div_mod n (q * g) ltac:(lia)) as DM. fold a r in DM. pose proof (N.mod_lt n (q * g) ltac:(lia)) as RL. fold r in RL.
          destruct ((2 * r <? q * g) || ((2 * r =? q * g) && N.even a)) eqn:C.
          - assert (2 * r = q * g) by nia. apply orb_true_iff in C as [C|C]; [lia|]. apply andb_true_iff in C. apply C.
          - exfalso. nia. }
        destruct (N.eq_dec j (k + 1)) as [JJ|JJ].
        * right. rewrite JJ. split; [|split].
          -- lia.
          -- unfold gap. lia.
          -- exact EV.
        * left. assert (q * g * (k + 2) <= q * g * j) by (apply N.mul_le_mono_l; lia). lia.
      + left. assert (q * g * (k + 1) <= q * g * j) by (apply N.mul_le_mono_l; lia). lia. }
  destruct (N.lt_ge_cases (prec f - 1) (N.log2 (n / q))) as [E|E].
  - destruct (N.le_gt_cases (2 ^ N.log2 (n / q)) w) as [L|L].
    + destruct (sized_grid f w _ P W L) as (j & ->). apply M. exact D.
    + (* the power of two between [w] and the number is closer, and on the grid *)
      left. assert (NZ : n / q <> 0) by (intros Z; rewrite Z in E; cbn in E; lia).
      pose proof (N.log2_spec (n / q) (proj1 (N.neq_0_lt_0 _) NZ)) as [U _].
      assert (F : 2 ^ N.log2 (n / q) = g * 2 ^ (prec f - 1)) by (unfold g; rewrite <- N.pow_add_r; f_equal; lia).
      set (b := 2 ^ N.log2 (n / q)) in *.
      assert (X : q * b <= n).
      { pose proof (N.mul_div_le n q ltac:(lia)). assert (q * b <= q * (n / q)) by (apply N.mul_le_mono_l; exact U). lia. }
      assert (Y : q * w < q * b) by (apply N.mul_lt_mono_pos_l; lia).
      assert (O : (off f p q b < off f p q w)%Z) by (unfold off; fold n; lia).
      destruct (N.eq_dec b (g * k)) as [<-|BK]; [exact O|].
      rewrite F in O, BK. destruct (M _ BK) as [H|(H & _)]; lia.
  - assert (G1 : g = 1) by (unfold g; replace (N.log2 (n / q) - (prec f - 1)) with 0 by lia; reflexivity).
    replace w with (g * w) in * by lia. apply M. exact D.
Qed.

(** Rounding: the result is the nearest finite value, on a tie the one with the even multiple of the gap; the
    infinity exactly from half a gap above the largest finite value on. *)
Definition sensible (f : format) : Prop := 0 < prec f /\ prec f < emax f + unit f.
Lemma formats_sensible : sensible f32_format /\ sensible f64_format.
Proof. unfold sensible, f32_format, f64_format. cbn [prec unit emax]. lia. Qed.

Theorem C81_nearest : forall f neg p q, sensible f -> 0 < q -> nearest f neg p q (round_ratio f neg p q).
Proof.
  intros f neg p q (P & R) Q. unfold round_ratio.
  pose proof (round_sized f p q Q P) as (K & S & N). unfold nearest.
  set (n := p * 2 ^ unit f) in *. set (g := 2 ^ (N.log2 (n / q) - (prec f - 1))) in *. set (k := rhe n (q * g)) in *.
  assert (G : 0 < g) by apply pow2_pos.
  unfold threshold2.
  set (T := emax f + unit f) in *.
  (* the largest finite value and the next number of the same size *)
  set (h := 2 ^ (T - prec f)). assert (H0 : 0 < h) by apply pow2_pos.
  assert (TH : 2 ^ T = h * 2 ^ prec f) by (unfold h; rewrite <- N.pow_add_r; f_equal; lia).
  set (m := h * (2 ^ prec f - 1)).
  assert (MS : sized f m).
  { exists (2 ^ prec f - 1), (T - prec f). split; [unfold m, h; apply N.mul_comm|pose proof (pow2_pos (prec f)); lia]. }
  assert (MT : m + h = 2 ^ T).
  { unfold m. rewrite TH, N.mul_sub_distr_l. assert (h * 1 <= h * 2 ^ prec f) by (apply N.mul_le_mono_l; pose proof (pow2_pos (prec f)); lia). lia. }
  assert (TS : sized f (2 ^ T)) by (exists 1, T; split; [lia|]; apply N.pow_gt_1; lia).
  assert (Q2 : q * m + q * h = q * 2 ^ T) by (rewrite <- MT; lia).
  assert (GOAL : q * (2 * 2 ^ T - h) = q * 2 ^ T + q * m) by (rewrite N.mul_sub_distr_l; lia).
  rewrite GOAL.
  destruct (g * k <? 2 ^ T) eqn:V.
  - left. exists (g * k). split; [reflexivity|]. split; [split; [exact S|unfold T in V; lia]|]. split.
    + assert (VM : g * k <= m).
      { destruct (N.le_gt_cases (g * k) m) as [L|L]; [exact L|exfalso].
        destruct (N.eq_dec (T - 1) 0) as [T1|T1].
        - assert (T = 1) by lia. assert (prec f = 1 -> False) by lia. lia.
        - destruct (sized_grid f (g * k) (T - 1) P S) as (j & J).
          + assert (2 ^ (T - 1) <= m); [|lia]. unfold m.
            replace (T - 1) with ((T - prec f) + (prec f - 1)) by lia. rewrite N.pow_add_r. fold h. apply N.mul_le_mono_l.
            replace (prec f) with (N.succ (prec f - 1)) at 2 by lia. rewrite N.pow_succ_r'. pose proof (pow2_pos (prec f - 1)). lia.
          + replace (T - 1 - (prec f - 1)) with (T - prec f) in J by lia. fold h in J. rewrite J in *. 
            rewrite TH in V. apply N.ltb_lt in V. apply N.mul_lt_mono_pos_l in V; [|exact H0].
            unfold m in L. apply N.mul_lt_mono_pos_l in L; [|exact H0]. lia. }
      assert (QV : q * (g * k) <= q * m) by (apply N.mul_le_mono_l; exact VM).
      assert (QT : q * (g * k) < q * 2 ^ T) by (apply N.mul_lt_mono_pos_l; lia).
      assert (NE : 2 ^ T <> g * k) by lia.
      destruct (N _ TS NE) as [H|(H & GP & EV)]; unfold off in H; fold n in H; [lia|].
      destruct (N.eq_dec (g * k) m) as [EM|EM].
      * exfalso. assert (GH : g = h) by (unfold gap in GP; lia).
        rewrite GH in EM. unfold m in EM. apply N.mul_cancel_l in EM; [|lia]. rewrite EM in EV.
        replace (prec f) with (N.succ (prec f - 1)) in EV by lia. rewrite N.pow_succ_r' in EV.
        pose proof (pow2_pos (prec f - 1)) as PP.
        replace (2 * 2 ^ (prec f - 1) - 1) with (N.succ (2 * (2 ^ (prec f - 1) - 1))) in EV by lia.
        rewrite N.even_succ, N.odd_mul in EV. discriminate EV.
      * assert (q * (g * k) < q * m) by (apply N.mul_lt_mono_pos_l; lia). lia.
    + intros w (W & _) D. destruct (N w W D) as [H|(H & E & Ev)]; [left; exact H|right].
      split; [exact H|]. rewrite E, N.mul_comm, N.div_mul by lia. exact Ev.
  - right. split; [reflexivity|].
    assert (MD : m <> g * k) by lia.
    assert (Q3 : q * 2 ^ T <= q * (g * k)) by (apply N.mul_le_mono_l; lia).
    assert (O : (off f p q (g * k) <= off f p q m)%Z) by (destruct (N m MS MD) as [H|(H & _)]; lia).
    unfold off in O. fold n in O.
    destruct (N.eq_dec (2 ^ T) (g * k)) as [EQ|NE].
    + rewrite <- EQ in O. lia.
    + assert (O2 : (off f p q (g * k) <= off f p q (2 ^ T))%Z) by (destruct (N _ TS NE) as [H|(H & _)]; lia).
      unfold off in O2. fold n in O2.
      assert (Q4 : q * 2 ^ T < q * (g * k)) by (apply N.mul_lt_mono_pos_l; lia). lia.
Qed.
Print Assumptions C81_nearest.

(** There is only one such value, so the theorem above determines the result. *)
Lemma even_apart : forall v w, v < w -> N.even (v / gap v w) = true -> N.even (w / gap w v) = true -> False.
Proof.
  intros v w L A B. unfold gap in *. replace (Z.abs_N (Z.of_N v - Z.of_N w)) with (w - v) in A by lia.
  replace (Z.abs_N (Z.of_N w - Z.of_N v)) with (w - v) in B by lia.
  set (d := w - v) in *. replace w with (v + 1 * d) in B by lia. rewrite N.div_add in B by lia.
  rewrite N.add_1_r, N.even_succ, <- N.negb_even, A in B. discriminate B.
Qed.
Theorem C81_unique : forall f neg p q x y, nearest f neg p q x -> nearest f neg p q y -> x = y.
Proof.
  intros f neg p q x y [(v & -> & Fv & Bv & Nv)|(-> & Bx)] [(w & -> & Fw & Bw & Nw)|(-> & By)]; try lia; [|reflexivity].
  destruct (N.eq_dec v w) as [->|D]; [reflexivity|exfalso].
  destruct (Nv w Fw ltac:(congruence)) as [A|(A & EA)], (Nw v Fv D) as [B|(B & EB)]; try lia.
  destruct (N.lt_trichotomy v w) as [L|[L|L]]; [exact (even_apart _ _ L EA EB)|congruence|exact (even_apart _ _ L EB EA)].
Qed.
Print Assumptions C81_unique.

(** ** Which texts are numbers, and which number each one is *)
Definition all_digits (s : str) : Prop := forallb is_digit s = true.
Fixpoint value (ds : str) : N :=
  match ds with [] => 0 | d :: r => (d - 48) * 10 ^ N.of_nat (length r) + value r end.
Definition sign (s : str) (neg : bool) : Prop := (s = [] /\ neg = false) \/ (s = lit "+" /\ neg = false) \/ (s = lit "-" /\ neg = true).
Definition exponent (s : str) (e : Z) : Prop := (s = [] /\ e = 0%Z) \/
  exists c sg neg ds, s = [c] ++ sg ++ ds /\ ([c] = lit "e" \/ [c] = lit "E") /\ sign sg neg /\ all_digits ds /\ ds <> [] /\
    e = if neg then (- Z.of_N (value ds))%Z else Z.of_N (value ds).
(** The text denotes plus or minus [p / q]. *)
Definition decimal (s : str) (neg : bool) (p q : N) : Prop := exists sg a dot b ex e,
  s = sg ++ a ++ dot ++ b ++ ex /\ sign sg neg /\ all_digits a /\ all_digits b /\ a ++ b <> [] /\
  (dot = lit "." \/ (dot = [] /\ b = [])) /\ exponent ex e /\ 0 < q /\
  p * 10 ^ N.of_nat (length b) * 10 ^ Z.to_N (- e) = value (a ++ b) * 10 ^ Z.to_N e * q.
Definition special (s : str) (x : float) : Prop := exists sg neg word, s = sg ++ word /\ sign sg neg /\
  ((In (to_lower word) [lit "inf"; lit "infinity"] /\ x = Inf neg) \/ (to_lower word = lit "nan" /\ x = NaN neg)).

Lemma value_acc : forall ds a, fold_left (fun a c => a * 10 + (c - 48)) ds a = a * 10 ^ N.of_nat (length ds) + value ds.
Proof.
  induction ds as [|d ds IH]; intros a; cbn [fold_left length value]; [change (N.of_nat 0) with 0; rewrite N.pow_0_r; lia|].
  rewrite IH, Nat2N.inj_succ, N.pow_succ_r'. lia.
Qed.
Lemma dec_val_value : forall ds, dec_val ds = value ds.
Proof. intros ds. unfold dec_val. rewrite value_acc. lia. Qed.

Definition no_digit_first (r : str) : Prop := match r with [] => True | c :: _ => is_digit c = false end.
Lemma digit_run_app : forall a r, all_digits a -> no_digit_first r -> digit_run (a ++ r) = (a, r).
Proof.
  induction a as [|c a IH]; intros r A R.
  - destruct r as [|c r]; [reflexivity|]. apply digit_run_stop, R.
  - unfold all_digits in A. cbn [forallb] in A. apply andb_true_iff in A as [C A]. cbn [app].
    rewrite digit_run_cons, (IH r A R) by exact C. reflexivity.
Qed.
Lemma digit_run_inv : forall s a r, digit_run s = (a, r) -> s = a ++ r /\ all_digits a /\ no_digit_first r.
Proof.
  induction s as [|c s IH]; intros a r H.
  - injection H as <- <-. repeat split.
  - destruct (is_digit c) eqn:C.
    + rewrite digit_run_cons in H by exact C. destruct (digit_run s) as [a' r'] eqn:E. injection H as <- <-.
      destruct (IH _ _ eq_refl) as (-> & A & R). repeat split; [|exact R]. unfold all_digits. cbn [forallb]. rewrite C. exact A.
    + rewrite digit_run_stop in H by exact C. injection H as <- <-. repeat split. exact C.
Qed.

(** A sign is taken off when what follows does not start with a sign. *)
Definition unsigned (s : str) : Prop := match s with [] => True | c :: _ => c <> 43 /\ c <> 45 end.
Lemma take_sign_app : forall sg neg r, sign sg neg -> unsigned r -> take_sign (sg ++ r) = (neg, r).
Proof.
  intros sg neg r [(-> & ->)|[(-> & ->)|(-> & ->)]] U; [|reflexivity..].
  destruct r as [|c r]; [reflexivity|]. cbn in U |- *. destruct U as [A B].
  apply N.eqb_neq in A, B. rewrite A, B. reflexivity.
Qed.
Lemma take_sign_inv : forall s neg r, take_sign s = (neg, r) -> exists sg, s = sg ++ r /\ sign sg neg.
Proof.
  intros [|c s] neg r H; cbn [take_sign] in H.
  - injection H as <- <-. exists []. split; [reflexivity|left; auto].
  - destruct (c =? 45) eqn:C; [apply N.eqb_eq in C; subst c|destruct (c =? 43) eqn:D; [apply N.eqb_eq in D; subst c|]]; injection H as <- <-.
    + exists [45]. split; [reflexivity|right; right; auto].
    + exists [43]. split; [reflexivity|right; left; auto].
    + exists []. split; [reflexivity|left; auto].
Qed.
Lemma digits_unsigned : forall a r, all_digits a -> a <> [] -> unsigned (a ++ r).
Proof.
  intros [|c a] r A N; [congruence|]. unfold all_digits in A. cbn [forallb] in A. apply andb_true_iff in A as [A _]. unfold is_digit in A.
  cbn. lia.
Qed.

Lemma parse_exp_spec : forall s e, exponent s e -> parse_exp s = Some e /\ no_digit_first s /\ (forall r, s <> 46 :: r) /\ unsigned s.
Proof.
  intros s e [(-> & ->)|(c & sg & neg & ds & -> & C & S & D & NE & ->)].
  - repeat split. discriminate.
  - assert (C' : c = 101 \/ c = 69) by (destruct C as [C|C]; injection C as ->; auto). clear C.
    cbn [app parse_exp]. rewrite (take_sign_app sg neg ds S).
    2:{ rewrite <- (app_nil_r ds). apply digits_unsigned; assumption. }
    rewrite digit_run_all by exact D. rewrite dec_val_value.
    destruct ds as [|d ds]; [congruence|].
    destruct C' as [-> | ->]; (split; [reflexivity|]; split; [reflexivity|]; split; [discriminate|cbn; lia]).
Qed.
Lemma parse_exp_inv : forall s e, parse_exp s = Some e -> exponent s e.
Proof.
  intros [|c s] e H; cbn [parse_exp] in H; [injection H as <-; left; auto|].
  destruct ((c =? 101) || (c =? 69)) eqn:C; [|discriminate H].
  destruct (take_sign s) as [neg r] eqn:S. destruct (take_sign_inv _ _ _ S) as (sg & -> & SG).
  destruct (digit_run r) as [ds t] eqn:D. destruct (digit_run_inv _ _ _ D) as (-> & A & _).
  destruct ds as [|d ds]; [discriminate H|]. destruct t; [|discriminate H]. injection H as <-.
  right. exists c, sg, neg, (d :: ds). rewrite app_nil_r, dec_val_value.
  apply orb_true_iff in C as [C|C]; apply N.eqb_eq in C; subst c; (split; [reflexivity|]; split; [auto|]); repeat split; auto; discriminate.
Qed.

Lemma pow10_pos : forall e, 0 < 10 ^ e.
Proof. intros e. apply N.neq_0_lt_0, N.pow_nonzero. discriminate. Qed.

(** What is nearest depends on the number only, not on the fraction chosen for it. *)
Lemma off_scale : forall f p q p' q' v, p * q' = p' * q -> (off f p q v * Z.of_N q' = off f p' q' v * Z.of_N q)%Z.
Proof.
  intros f p q p' q' v E. unfold off.
  assert (AQ : Z.of_N q = Z.abs (Z.of_N q)) by lia. assert (AQ' : Z.of_N q' = Z.abs (Z.of_N q')) by lia.
  rewrite AQ, AQ'. rewrite <- !Z.abs_mul. f_equal. clear AQ AQ'.
  assert (E2 : (Z.of_N p * Z.of_N q' = Z.of_N p' * Z.of_N q)%Z) by lia. 
  rewrite !N2Z.inj_mul. set (u := Z.of_N (2 ^ unit f)).
  transitivity (Z.of_N q * Z.of_N v * Z.of_N q' - (Z.of_N p * Z.of_N q') * u)%Z; [ring|]. rewrite E2. ring.
Qed.
Lemma nearest_scale : forall f neg p q p' q' x, 0 < q -> 0 < q' -> p * q' = p' * q -> nearest f neg p q x -> nearest f neg p' q' x.
Proof.
  intros f neg p q p' q' x Q Q' E H.
  assert (B : forall t, 2 * (p' * 2 ^ unit f) < q' * t <-> 2 * (p * 2 ^ unit f) < q * t).
  { intros t. set (u := 2 ^ unit f).
    rewrite (N.mul_lt_mono_pos_l q (2 * (p' * u))) by exact Q. rewrite (N.mul_lt_mono_pos_l q' (2 * (p * u))) by exact Q'.
    replace (q * (2 * (p' * u))) with (2 * u * (p' * q)) by lia. replace (q' * (2 * (p * u))) with (2 * u * (p * q')) by lia.
    rewrite E. replace (q * (q' * t)) with (q' * (q * t)) by lia. reflexivity. }
  destruct H as [(v & -> & F & T & W)|(-> & T)].
  - left. exists v. split; [reflexivity|]. split; [exact F|]. split; [apply B; exact T|]. intros w Fw D.
    pose proof (off_scale f p q p' q' v E) as A. pose proof (off_scale f p q p' q' w E) as C.
    destruct (W w Fw D) as [H|(H & Ev)]; [left|right].
    + apply (Z.mul_lt_mono_pos_r (Z.of_N q)); [lia|]. rewrite <- A, <- C. apply Z.mul_lt_mono_pos_r; [lia|exact H].
    + split; [|exact Ev]. apply (Z.mul_cancel_r _ _ (Z.of_N q)); [lia|]. rewrite <- A, <- C, H. reflexivity.
  - right. split; [reflexivity|]. apply N.nlt_ge. rewrite B. lia.
Qed.

Lemma parse_number_spec : forall a dot b ex e, all_digits a -> all_digits b -> a ++ b <> [] -> (dot = lit "." \/ (dot = [] /\ b = [])) -> exponent ex e ->
  parse_number (a ++ dot ++ b ++ ex) = Some (value (a ++ b), (e - Z.of_nat (length b))%Z) /\ unsigned (a ++ dot ++ b ++ ex).
Proof.
  intros a dot b ex e A B NE D X. destruct (parse_exp_spec _ _ X) as (P & ND & NP & U). unfold parse_number.
  destruct D as [->|(-> & ->)].
  - change (lit ".") with [46]. rewrite (digit_run_app a ([46] ++ b ++ ex) A eq_refl). cbn [app]. change (46 =? 46) with true. cbv iota.
    rewrite (digit_run_app b ex B ND), P. split; [destruct (a ++ b); [congruence|rewrite dec_val_value; reflexivity]|].
    destruct a; [cbn; lia|]. apply digits_unsigned; [exact A|discriminate].
  - cbn [app]. rewrite (digit_run_app a ex A ND). rewrite app_nil_r in NE |- *.
    assert (M : (let (b, r) := match ex with c :: r' => if c =? 46 then digit_run r' else ([], ex) | [] => ([], ex) end in (b, r)) = (([] : str), ex)).
    { destruct ex as [|c r]; [reflexivity|]. destruct (c =? 46) eqn:C; [apply N.eqb_eq in C; subst c; exfalso; exact (NP r eq_refl)|reflexivity]. }
    destruct (match ex with c :: r' => if c =? 46 then digit_run r' else ([], ex) | [] => ([], ex) end) as [b' r']. injection M as -> ->.
    rewrite app_nil_r, P. split; [destruct a; [congruence|rewrite dec_val_value; reflexivity]|].
    apply digits_unsigned; [exact A|exact NE].
Qed.

(** Every decimal text is read, as the float nearest to the number it denotes. *)
Theorem C81_numbers : forall f s neg p q, sensible f -> decimal s neg p q -> exists x, parse_float f s = Some x /\ nearest f neg p q x.
Proof.
  intros f s neg p q F (sg & a & dot & b & ex & e & -> & S & A & B & NE & D & X & Q & V).
  destruct (parse_number_spec a dot b ex e A B NE D X) as (PN & U).
  unfold parse_float. rewrite (take_sign_app sg neg _ S U), PN. eexists. split; [reflexivity|].
  set (d := value (a ++ b)) in *. set (l := N.of_nat (length b)) in *. replace (Z.of_nat (length b)) with (Z.of_N l) by lia. clearbody d l.
  pose proof (pow10_pos (Z.to_N (- e))) as P1. pose proof (pow10_pos (Z.to_N e)) as P2. pose proof (pow10_pos l) as P3.
  destruct (0 <=? e - Z.of_N l)%Z eqn:C.
  - apply (nearest_scale _ _ (d * 10 ^ Z.to_N (e - Z.of_N l)) 1); [lia|exact Q| |apply C81_nearest; [exact F|lia]].
    replace (Z.to_N (- e)) with 0 in V by lia. rewrite N.pow_0_r, N.mul_1_r in V.
    replace (Z.to_N e) with (Z.to_N (e - Z.of_N l) + l) in V by lia. rewrite N.pow_add_r in V.
    apply (N.mul_cancel_r _ _ (10 ^ l)); [lia|]. rewrite N.mul_1_r, V. ring.
  - apply (nearest_scale _ _ d (10 ^ Z.to_N (- (e - Z.of_N l)))); [apply pow10_pos|exact Q| |apply C81_nearest; [exact F|apply pow10_pos]].
    destruct (Z.le_gt_cases 0 e) as [L|L].
    + replace (Z.to_N (- e)) with 0 in V by lia. rewrite N.pow_0_r, N.mul_1_r in V.
      replace l with (Z.to_N (- (e - Z.of_N l)) + Z.to_N e) in V at 1 by lia. rewrite N.pow_add_r in V.
      apply (N.mul_cancel_r _ _ (10 ^ Z.to_N e)); [lia|]. transitivity (d * 10 ^ Z.to_N e * q); [ring|rewrite <- V; ring].
    + replace (Z.to_N e) with 0 in V by lia. rewrite N.pow_0_r, N.mul_1_r in V.
      replace (Z.to_N (- (e - Z.of_N l))) with (l + Z.to_N (- e)) by lia. rewrite N.pow_add_r. rewrite <- V. ring.
Qed.
Print Assumptions C81_numbers.
Example C81_numbers_case : sensible f32_format /\ decimal (lit "-12.50e+1") true 125 1 /\ parse_float f32_format (lit "-12.50e+1") = Some (Fin true (125 * 2 ^ 149)).
Proof.
  split; [apply formats_sensible|]. split; [|vm_compute; reflexivity].
  exists (lit "-"), (lit "12"), (lit "."), (lit "50"), (lit "e+1"), 1%Z. split; [reflexivity|].
  split; [unfold sign; auto|]. split; [reflexivity|]. split; [reflexivity|].
  split; [discriminate|]. split; [now left|]. split; [|split; [reflexivity|reflexivity]].
  right. exists 101, (lit "+"), false, (lit "1"). split; [reflexivity|]. split; [now left|]. split; [unfold sign; auto|]. split; [reflexivity|]. split; [discriminate|reflexivity].
Qed.
(** So are the infinities and NaN, in any case; nothing else is read. *)
Lemma special_unsigned : forall s w, to_lower s = w -> In w [lit "inf"; lit "infinity"; lit "nan"] -> unsigned s /\ parse_number s = None.
Proof.
  intros s w L I.
  assert (F : exists c r, s = c :: r /\ (lower_char c = 105 \/ lower_char c = 110)).
  { destruct s as [|c r]; [subst w; cbn in I; intuition discriminate|]. exists c, r. split; [reflexivity|].
    subst w. cbn [In] in I. destruct I as [I|[I|[I|[]]]]; injection I as I; auto. }
  destruct F as (c & r & -> & C). assert (ND : is_digit c = false /\ c <> 43 /\ c <> 45 /\ c <> 46).
  { unfold lower_char, is_upper, is_digit in *. destruct ((65 <=? c) && (c <=? 90)) eqn:U; lia. }
  destruct ND as (N1 & N2 & N3 & N4). split; [cbn; lia|]. unfold parse_number. rewrite digit_run_stop by exact N1.
  apply N.eqb_neq in N4. rewrite N4. reflexivity.
Qed.
Theorem C81_specials : forall f s x, special s x -> parse_float f s = Some x.
Proof.
  intros f s x (sg & neg & w & -> & S & K).
  assert (I : In (to_lower w) [lit "inf"; lit "infinity"; lit "nan"]) by (destruct K as [(K & _)|(K & _)]; cbn [In] in K |- *; intuition).
  destruct (special_unsigned w _ eq_refl I) as (U & P). unfold parse_float. rewrite (take_sign_app _ _ _ S U), P.
  destruct K as [([K|[K|[]]] & ->)|(K & ->)]; [rewrite <- K|rewrite <- K|rewrite K]; reflexivity.
Qed.
Print Assumptions C81_specials.
Theorem C81_only : forall f s x, parse_float f s = Some x -> special s x \/ exists neg p q, decimal s neg p q.
Proof.
  intros f s x H. unfold parse_float in H. destruct (take_sign s) as [neg r] eqn:S. destruct (take_sign_inv _ _ _ S) as (sg & -> & SG). clear S.
  destruct (parse_number r) as [[d e]|] eqn:P.
  - right. clear H. unfold parse_number in P. destruct (digit_run r) as [a t] eqn:D. destruct (digit_run_inv _ _ _ D) as (-> & A & _). clear D.
    assert (R : exists dot b ex, t = dot ++ b ++ ex /\ all_digits b /\ (dot = lit "." \/ (dot = [] /\ b = [])) /\
       match t with c :: r' => if c =? 46 then digit_run r' else ([], t) | [] => ([], t) end = (b, ex)).
    { destruct t as [|c t]; [exists [], [], []; repeat split; right; auto|].
      destruct (c =? 46) eqn:C.
      - apply N.eqb_eq in C. subst c. destruct (digit_run t) as [b ex] eqn:D. destruct (digit_run_inv _ _ _ D) as (-> & B & _).
        exists [46], b, ex. repeat split; auto.
      - exists [], [], (c :: t). repeat split; right; auto. }
    destruct R as (dot & b & ex & -> & B & D & M). rewrite M in P. clear M.
    destruct (a ++ b) as [|y ys] eqn:AB; [discriminate P|]. destruct (parse_exp ex) as [e'|] eqn:X; [|discriminate P]. clear P.
    exists neg, (value (a ++ b) * 10 ^ Z.to_N e'), (10 ^ N.of_nat (length b) * 10 ^ Z.to_N (- e')), sg, a, dot, b, ex, e'.
    repeat split; auto.
    + rewrite AB. discriminate.
    + apply parse_exp_inv, X.
    + pose proof (pow10_pos (N.of_nat (length b))). pose proof (pow10_pos (Z.to_N (- e'))). apply N.mul_pos_pos; assumption.
    + ring.
  - left. exists sg, neg, r. split; [reflexivity|]. split; [exact SG|].
    destruct (seqb (to_lower r) (lit "inf")) eqn:I1; [apply seqb_eq in I1; rewrite I1; injection H as <-; left; cbn; auto|].
    destruct (seqb (to_lower r) (lit "infinity")) eqn:I2; [apply seqb_eq in I2; rewrite I2; injection H as <-; left; cbn; auto|].
    cbn [orb] in H. destruct (seqb (to_lower r) (lit "nan")) eqn:I3; [|discriminate H].
    apply seqb_eq in I3. injection H as <-. right. auto.
Qed.
Print Assumptions C81_only.

(** ** Order: by value, with the infinities at the ends; NaN compares with nothing, and the two zeros are equal *)
Definition position (f : format) (x : float) : option Z :=
  match x with
  | NaN _ => None
  | Inf true => Some (- Z.of_N (2 ^ (emax f + unit f)))%Z
  | Inf false => Some (Z.of_N (2 ^ (emax f + unit f)))
  | Fin true v => Some (- Z.of_N v)%Z
  | Fin false v => Some (Z.of_N v)
  end.
Definition in_format (f : format) (x : float) : Prop := match x with Fin _ v => finite f v | _ => True end.
Theorem C81_order : forall f x y, in_format f x -> in_format f y ->
  fcmp x y = match position f x, position f y with Some a, Some b => Some (Z.compare a b) | _, _ => None end.
Proof.
  intros f x y X Y. assert (B : 0 < 2 ^ (emax f + unit f)) by apply pow2_pos.
  assert (X' : match x with Fin _ v => v < 2 ^ (emax f + unit f) | _ => True end) by (destruct x; [exact I|exact I|apply X]).
  assert (Y' : match y with Fin _ v => v < 2 ^ (emax f + unit f) | _ => True end) by (destruct y; [exact I|exact I|apply Y]).
  clear X Y.
  destruct x as [a|[|]|[|] v], y as [b|[|]|[|] w]; cbn [fcmp position] in *; try reflexivity;
    set (m := 2 ^ (emax f + unit f)) in *; clearbody m; f_equal; symmetry;
    try (apply Z.compare_eq_iff; lia); try (apply Z.compare_lt_iff; lia); try (apply Z.compare_gt_iff; lia).
  - destruct (N.compare_spec w v); [apply Z.compare_eq_iff|apply Z.compare_lt_iff|apply Z.compare_gt_iff]; lia.
  - destruct ((v =? 0) && (w =? 0)) eqn:Z; [apply Z.compare_eq_iff; lia|apply Z.compare_lt_iff; lia].
  - destruct ((v =? 0) && (w =? 0)) eqn:Z; [apply Z.compare_eq_iff; lia|apply Z.compare_gt_iff; lia].
  - destruct (N.compare_spec v w); [apply Z.compare_eq_iff|apply Z.compare_lt_iff|apply Z.compare_gt_iff]; lia.
Qed.
Print Assumptions C81_order.
(** What is read is of the format, so the order applies to it. *)
Theorem C81_in_format : forall f s x, sensible f -> parse_float f s = Some x -> in_format f x.
Proof.
  intros f s x F H. destruct (C81_only f s x H) as [(sg & neg & w & _ & _ & [(_ & ->)|(_ & ->)])|(neg & p & q & D)]; [exact I|exact I|].
  destruct (C81_numbers f s neg p q F D) as (y & E & Nr). rewrite H in E. injection E as <-.
  destruct Nr as [(v & -> & V & _)|(-> & _)]; [exact V|exact I].
Qed.
Print Assumptions C81_in_format.

(** ** Printing with three decimals: whole part, point, three digits, nearest to the value, ties to even *)
Theorem C81_three_decimals : forall f neg v, exists k d1 d2 d3,
  show3 f (Fin neg v) = (if neg then lit "-" else []) ++ show_dec (k / 1000) ++ lit "." ++ [d1; d2; d3] /\
  all_digits [d1; d2; d3] /\ value [d1; d2; d3] = k mod 1000 /\
  forall j, j <> k -> (Z.abs (Z.of_N (1000 * v) - Z.of_N (k * 2 ^ unit f)) < Z.abs (Z.of_N (1000 * v) - Z.of_N (j * 2 ^ unit f)))%Z \/
     (Z.abs (Z.of_N (1000 * v) - Z.of_N (k * 2 ^ unit f)) = Z.abs (Z.of_N (1000 * v) - Z.of_N (j * 2 ^ unit f)) /\ N.even k = true)%Z.
Proof.
  intros f neg v. set (k := thousandths f v). exists k, (48 + k / 100 mod 10), (48 + k / 10 mod 10), (48 + k mod 10).
  split; [reflexivity|]. split; [unfold all_digits; cbn [forallb]; unfold is_digit; lia|].
  split; [cbn [value length]; change (10 ^ N.of_nat 2) with 100; change (10 ^ N.of_nat 1) with 10; change (10 ^ N.of_nat 0) with 1; clearbody k; lia|].
  unfold thousandths in k. assert (U := pow2_pos (unit f)). set (u := 2 ^ unit f) in *. clearbody u.
  intros j J. pose proof (rhe_bounds (v * 1000) u U) as (B1 & B2). fold k in B1, B2.
  assert (EV : 2 * (v * 1000) = 2 * u * k + u \/ 2 * (v * 1000) + u = 2 * u * k -> N.even k = true).
  { intros T. unfold k, rhe in *. set (a := v * 1000 / u) in *. set (r := (v * 1000) mod u) in *.
    pose proof (N.div_mod (v * 1000) u ltac:(lia)) as DM. fold a r in DM. pose proof (N.mod_lt (v * 1000) u ltac:(lia)) as RL. fold r in RL. clearbody a r.
    destruct ((2 * r <? u) || ((2 * r =? u) && N.even a)) eqn:C.
    - apply orb_true_iff in C as [C|C]; [exfalso; nia|]. apply andb_true_iff in C. apply C.
    - assert (2 * r = u) by nia. rewrite N.add_1_r, N.even_succ, <- N.negb_even. apply orb_false_iff in C as [_ C].
      rewrite (proj2 (N.eqb_eq _ _) H) in C. cbn [andb] in C. rewrite C. reflexivity. }
  clearbody k.
  destruct (N.lt_trichotomy j k) as [L|[->|L]]; [|congruence|].
  - assert (u * (j + 1) <= u * k) by (apply N.mul_le_mono_l; lia).
    destruct (N.eq_dec (2 * (v * 1000) + u) (2 * u * k)) as [T|T]; [|left; lia].
    destruct (N.eq_dec (j + 1) k) as [JJ|JJ]; [right; split; [subst k; lia|apply EV; auto]|left].
    assert (u * (j + 2) <= u * k) by (apply N.mul_le_mono_l; lia). lia.
  - assert (u * (k + 1) <= u * j) by (apply N.mul_le_mono_l; lia).
    destruct (N.eq_dec (2 * (v * 1000)) (2 * u * k + u)) as [T|T]; [|left; lia].
    destruct (N.eq_dec j (k + 1)) as [JJ|JJ]; [right; split; [subst j; lia|apply EV; auto]|left].
    assert (u * (k + 2) <= u * j) by (apply N.mul_le_mono_l; lia). lia.
Qed.
Print Assumptions C81_three_decimals.

(** Numbers of one binary digit more than f32 holds: a tie goes to the even neighbour; the exponent
    may be written in either case; the largest f32 plus half a gap is the infinity. *)
Example C81_example :
  parse_float f32_format (lit "16777217") = Some (Fin false (16777216 * 2 ^ 149)) /\
  parse_float f32_format (lit "16777219") = Some (Fin false (16777220 * 2 ^ 149)) /\
  parse_float f32_format (lit "-2.5E-1") = Some (Fin true (2 ^ 147)) /\
  parse_float f32_format (lit "-2.5e-1") = Some (Fin true (2 ^ 147)) /\
  parse_float f32_format (lit "340282356779733661637539395458142568447") = Some (Fin false ((2 ^ 24 - 1) * 2 ^ 253)) /\
  parse_float f32_format (lit "340282356779733661637539395458142568448") = Some (Inf false) /\
  parse_float f32_format (lit "+InfiNity") = Some (Inf false) /\ parse_float f32_format (lit "1e") = None /\ parse_float f32_format (lit ".") = None /\
  show3 f32_format (Fin true (2 ^ 149 + 2 ^ 145)) = lit "-1.062" /\ fcmp (Fin true 0) (Fin false 0) = Some Eq.
Proof. vm_compute. repeat split. Qed.

(** ** Seen through Accept-Encoding and TE: a coding with a weight that denotes at most 1 is read with the nearest
    float *)
Definition num_char (c : N) : bool := is_digit c || existsb (N.eqb c) (lit "+-.eE").
Lemma digits_num : forall s, all_digits s -> forallb num_char s = true.
Proof. intros s H. eapply forallb_impl; [|exact H]. intros c C. cbv beta. unfold num_char. rewrite C. reflexivity. Qed.
Lemma sign_num : forall s n, sign s n -> forallb num_char s = true.
Proof. intros s n [(-> & _)|[(-> & _)|(-> & _)]]; reflexivity. Qed.
Lemma decimal_chars : forall s neg p q, decimal s neg p q -> forallb num_char s = true /\ s <> [].
Proof.
  intros s neg p q (sg & a & dot & b & ex & e & -> & S & A & B & NE & D & X & _).
  split.
  - rewrite !forallb_app, (sign_num _ _ S), (digits_num _ A), (digits_num _ B).
    assert (DD : forallb num_char dot = true) by (destruct D as [->|(-> & _)]; reflexivity). rewrite DD. cbn [andb].
    destruct X as [(-> & _)|(c & sg' & n' & ds & -> & C & S' & D' & _)]; [reflexivity|].
    rewrite !forallb_app, (sign_num _ _ S'), (digits_num _ D'). destruct C as [->| ->]; reflexivity.
  - intros E. apply app_eq_nil in E as [_ E]. apply app_eq_nil in E as [-> E]. apply app_eq_nil in E as [_ E]. apply app_eq_nil in E as [-> _]. apply NE. reflexivity.
Qed.
Theorem C81_weight : forall k c h t p q, in_family k c = true -> decimal t false p q -> p <= q ->
  h_get h (accept_name k) = Some [coding_show c ++ lit ";q=" ++ t] ->
  exists v, accept_from_headers k h = Ok (Some ([Proposal c (Some (Fin false v))], false)) /\ nearest f32_format false p q (Fin false v) /\ v <= one f32_format.
Proof.
  intros k c h t p q K D L G.
  destruct (C81_numbers f32_format t false p q (proj1 formats_sensible) D) as (x & P & Nr).
  assert (Q : 0 < q) by (destruct D as (? & ? & ? & ? & ? & ? & D); apply D).
  destruct (round_unit p q Q L) as (v & R & B).
  assert (x = Fin false v).
  { rewrite <- R. eapply C81_unique; [exact Nr|]. apply C81_nearest; [apply formats_sensible|exact Q]. }
  subst x. exists v. split; [|split; [exact Nr|exact B]].
  destruct (decimal_chars _ _ _ _ D) as (C & NN).
  unfold accept_from_headers, with_all. rewrite G.
  set (s := coding_show c ++ lit ";q=" ++ t).
  assert (CH : forall d, num_char d = false -> no_char d t = true) by (intros d H; exact (no_char_forallb d num_char t H C)).
  assert (NE : no_edge is_ws s = true).
  { apply no_edge_all. unfold s. rewrite !forallb_app. apply andb_true_iff. split; [destruct c; reflexivity|]. apply andb_true_iff. split; [reflexivity|].
    eapply forallb_impl; [|exact C]. intros d H. cbv beta. unfold num_char, is_digit in H. cbn [existsb lit] in H.
    destruct (is_ws d) eqn:W; [exfalso|reflexivity]. unfold is_ws in W. clear -H W. cbn in H. lia. }
  assert (CP : comma_parts [s] = [s]).
  { unfold comma_parts. cbn [flat_map]. rewrite app_nil_r, trim_id by exact NE. apply split_no_char. unfold s. rewrite !no_char_app, (CH 44) by reflexivity.
    destruct c; reflexivity. }
  rewrite CP. unfold read_proposals. cbn [read_skipping]. rewrite trim_id by exact NE.
  assert (S1 : seqb s [] = false) by (unfold s; destruct c; reflexivity).
  assert (S2 : seqb s (lit "*") = false) by (unfold s; destruct c; reflexivity).
  rewrite S1, S2. unfold proposal_from_str, s.
  change (lit ";q=" ++ t) with (59 :: lit "q=" ++ t).
  rewrite split_app by (destruct c; reflexivity).
  rewrite (split_no_char 59 (lit "q=" ++ t)) by (rewrite no_char_app, (CH 59) by reflexivity; reflexivity).
  assert (CF : coding_from_str k (coding_show c) = Some c) by (destruct k, c; try discriminate K; reflexivity).
  rewrite CF. unfold parse_weight. change (lit "q=" ++ t) with (lit "q" ++ 61 :: t).
  change c_eq with 61. rewrite split_app by reflexivity. rewrite (split_no_char 61 t) by (apply CH; reflexivity).
  rewrite (seqb_refl (lit "q")), P. cbn [ok_or bind]. unfold proposal_new.
  assert (WO : weight_ok (Some (Fin false v)) = true).
  { unfold weight_ok. cbn [sign_positive negb andb]. unfold fle. cbn [fcmp]. unfold one. cbn [unit f32_format].
    destruct (N.compare_spec v (2 ^ 149)); [reflexivity|reflexivity|lia]. }
  rewrite WO. reflexivity.
Qed.
Print Assumptions C81_weight.
Example C81_weight_example : accept_from_headers Content [(lit "accept-encoding", [lit "br;q=12.5E-2"])] =
  Ok (Some ([Proposal Brotli (Some (Fin false (2 ^ 146)))], false)).
Proof. vm_compute. reflexivity. Qed.
