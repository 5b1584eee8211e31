(** Proofs about HTTP dates. *)
From Verif Require Import Base BaseFacts HttpDate DateSpec.
From Coq Require Import ZifyBool ZifyNat ZifyN.
Ltac Zify.zify_post_hook ::= Z.div_mod_to_equations.
Open Scope Z_scope.
Ltac pair_eq := repeat match goal with |- (_, _) = (_, _) => f_equal end.

(** ** Years starting in March.  [start Y] is the number of days from 2000-03-01 to the first of
    March of year [2000 + Y]; [md doy] the (year carry, month, day) of day [doy] of such a year. *)
Definition start (Y : Z) : Z := 365 * Y + Y / 4 - Y / 100 + Y / 400.
Definition ylen (Y : Z) : Z := 365 + (if leap (Y + 1) then 1 else 0).

Lemma start_succ Y : start (Y + 1) = start Y + ylen Y.
Proof.
  unfold start, ylen, leap.
  destruct (((Y + 1) mod 4 =? 0) && (negb ((Y + 1) mod 100 =? 0) || ((Y + 1) mod 400 =? 0))) eqn:E; lia.
Qed.

Lemma leap_2000 x : leap (2000 + x) = leap x.
Proof.
  unfold leap. replace ((2000 + x) mod 4) with (x mod 4) by lia.
  replace ((2000 + x) mod 100) with (x mod 100) by lia.
  replace ((2000 + x) mod 400) with (x mod 400) by lia. reflexivity.
Qed.

Definition md (doy : Z) : Z * Z * Z :=
  let '(mo, rd) := month_loop march_months 0 doy in
  if mo + 2 >? 12 then (1, mo - 10, rd + 1) else (0, mo + 2, rd + 1).

Lemma civil_of_remdays_ok c q y doy :
  0 <= c <= 3 -> 0 <= q <= 24 -> 0 <= y <= 3 -> 0 <= doy ->
  (doy <= 364 \/ (doy = 365 /\ y = 3 /\ (q < 24 \/ c = 3))) ->
  civil_of_remdays (36524 * c + 1461 * q + 365 * y + doy) =
  let '(dy, m, d) := md doy in (y + 4 * q + 100 * c + dy, m, d).
Proof.
  intros Hc Hq Hy Hd H. unfold civil_of_remdays, DAYS_PER_100Y, DAYS_PER_4Y.
  change (365 * 100 + 24) with 36524. change (365 * 4 + 1) with 1461.
  set (r := 36524 * c + 1461 * q + 365 * y + doy).
  assert (Hr : 0 <= r) by (subst r; lia).
  rewrite (Z.quot_div_nonneg r 36524) by lia.
  replace (if r / 36524 =? 4 then r / 36524 - 1 else r / 36524) with c.
  2:{ destruct (r / 36524 =? 4) eqn:E; subst r; lia. }
  cbv zeta.
  set (r1 := r - c * 36524).
  assert (Hr1 : r1 = 1461 * q + 365 * y + doy) by (subst r1 r; lia).
  assert (Hyd : 0 <= 365 * y + doy <= 1460) by lia.
  clearbody r1. clear Hr r.
  rewrite (Z.quot_div_nonneg r1 1461) by lia.
  replace (if r1 / 1461 =? 25 then r1 / 1461 - 1 else r1 / 1461) with q.
  2:{ clear - Hr1 Hyd Hq. destruct (r1 / 1461 =? 25) eqn:E; lia. }
  set (r2 := r1 - q * 1461).
  assert (Hr2 : r2 = 365 * y + doy) by (subst r2; lia).
  clearbody r2. clear Hr1 r1.
  rewrite (Z.quot_div_nonneg r2 365) by lia.
  replace (if r2 / 365 =? 4 then r2 / 365 - 1 else r2 / 365) with y.
  2:{ assert (H' : doy <= 364 \/ (doy = 365 /\ y = 3)) by tauto. clear - Hr2 Hd Hy H'. destruct (r2 / 365 =? 4) eqn:E; lia. }
  replace (r2 - y * 365) with doy by lia.
  unfold md. destruct (month_loop march_months 0 doy) as [mo rd].
  destruct (mo + 2 >? 12); pair_eq; lia.
Qed.

Lemma civil_of_days_ok Y doy : 0 <= doy < ylen Y ->
  civil_of_days (start Y + doy) =
  let '(dy, m, d) := md doy in
  (2000 + Y + dy, m, d, (start Y + doy + 2) mod 7 + 1).
Proof.
  intros Hdoy. unfold civil_of_days.
  set (n := start Y + doy).
  set (qc := Y / 400). set (c := (Y mod 400) / 100). set (q := (Y mod 100) / 4). set (y := Y mod 4).
  assert (HY : Y = 400 * qc + 100 * c + 4 * q + y) by (subst qc c q y; lia).
  assert (Hc : 0 <= c <= 3) by (subst c; lia).
  assert (Hq : 0 <= q <= 24) by (subst q; lia).
  assert (Hy : 0 <= y <= 3) by (subst y; lia).
  assert (Hs : start Y = 146097 * qc + 36524 * c + 1461 * q + 365 * y).
  { clearbody qc c q y. clear Hdoy n. unfold start.
    assert (Y / 4 = 100 * qc + 25 * c + q) by lia.
    assert (Y / 100 = 4 * qc + c) by lia.
    assert (Y / 400 = qc) by lia. lia. }
  assert (Hd : doy <= 364 \/ (doy = 365 /\ y = 3 /\ (q < 24 \/ c = 3))).
  { unfold ylen in Hdoy. destruct (leap (Y + 1)) eqn:E; [|lia].
    destruct (Z.eq_dec doy 365) as [->|]; [|lia]. right. split; [reflexivity|].
    unfold leap in E. clearbody qc c q y. split; lia. }
  assert (Hn : n = 146097 * qc + (36524 * c + 1461 * q + 365 * y + doy)) by (subst n; lia).
  set (r := 36524 * c + 1461 * q + 365 * y + doy) in *.
  assert (Hr : 0 <= r < 146097) by (subst r; lia).
  unfold DAYS_PER_400Y. change (365 * 400 + 97) with 146097.
  assert (Hqr : (if Z.rem n 146097 <? 0 then (Z.quot n 146097 - 1, Z.rem n 146097 + 146097)
                 else (Z.quot n 146097, Z.rem n 146097)) = (qc, r)).
  { clearbody qc r. clear - Hn Hr. pose proof (Z.quot_rem' n 146097) as Hqr.
    pose proof (Z.rem_bound_abs n 146097 ltac:(lia)) as Hb.
    destruct (Z.rem n 146097 <? 0) eqn:E; f_equal.
    - assert (-146097 < Z.rem n 146097) by lia. lia.
    - assert (-146097 < Z.rem n 146097) by lia. lia.
    - assert (0 <= n \/ Z.rem n 146097 = 0 \/ n < 0) by lia. lia.
    - lia. }
  rewrite Hqr. subst r. rewrite civil_of_remdays_ok by (assumption || lia).
  destruct (md doy) as [[dy m] d].
  assert (Hw : (if Z.rem (3 + n) 7 <=? 0 then Z.rem (3 + n) 7 + 7 else Z.rem (3 + n) 7) = (n + 2) mod 7 + 1).
  { clear. pose proof (Z.quot_rem' (3 + n) 7). pose proof (Z.rem_bound_abs (3 + n) 7 ltac:(lia)).
    assert (-7 < Z.rem (3 + n) 7 < 7) by lia.
    destruct (Z.rem (3 + n) 7 <=? 0) eqn:E; lia. }
  rewrite Hw. pair_eq. lia.
Qed.

(** ** Sweep over the days of a year *)
Definition ml (lp : bool) (m : Z) : Z :=
  if m =? 2 then (if lp then 29 else 28)
  else if (m =? 4) || (m =? 6) || (m =? 9) || (m =? 11) then 30 else 31.

Definition ydays_of (m : Z) : Z :=
  match m with
  | 1 => 0 | 2 => 31 | 3 => 59 | 4 => 90 | 5 => 120 | 6 => 151
  | 7 => 181 | 8 => 212 | 9 => 243 | 10 => 273 | 11 => 304 | 12 => 334 | _ => 0
  end.

Definition teqb (a b : Z * Z * Z) : bool :=
  let '(x, y, z) := a in let '(x', y', z') := b in (x =? x') && (y =? y') && (z =? z').

Definition doy_check (lp : bool) (n : N) : bool :=
  let doy := Z.of_N n in
  let len := if lp then 366 else 365 in
  if doy <? len then
    let '(dy, m, d) := md doy in
    (1 <=? m) && (m <=? 12) && (1 <=? d) && (d <=? ml lp m) && (dy =? (if m <=? 2 then 1 else 0)) &&
    (ydays_of m + d - 1 =? (if dy =? 1 then doy - 306 else doy + 59)) &&
    (if doy + 1 <? len then
       teqb (md (doy + 1))
            (if d <? ml lp m then (dy, m, d + 1) else if m <? 12 then (dy, m + 1, 1) else (dy + 1, 1, 1))
     else teqb (dy, m, d) (1, 2, ml lp 2))
  else true.

Lemma doy_sweep : all_below 366 (doy_check true) && all_below 366 (doy_check false) = true.
Proof. vm_compute. reflexivity. Qed.

Lemma doy_ok (lp : bool) doy : 0 <= doy < (if lp then 366 else 365) -> doy_check lp (Z.to_N doy) = true.
Proof.
  intros H. pose proof doy_sweep as S. apply andb_true_iff in S as [S1 S2].
  destruct lp; [apply (all_below_spec _ _ S1)|apply (all_below_spec _ _ S2)]; lia.
Qed.

Lemma month_len_ml y m : month_len y m = ml (leap y) m.
Proof. reflexivity. Qed.

(** Everything the proofs need about day [doy] of March-year [Y]. *)
Lemma md_facts Y doy : 0 <= doy < ylen Y ->
  let '(dy, m, d) := md doy in
  1 <= m <= 12 /\ 1 <= d <= month_len (2000 + Y + dy) m /\ dy = (if m <=? 2 then 1 else 0) /\
  ydays_of m + d - 1 = (if dy =? 1 then doy - 306 else doy + 59) /\
  (if doy + 1 <? ylen Y then
     md (doy + 1) = (if d <? month_len (2000 + Y + dy) m then (dy, m, d + 1)
                     else if m <? 12 then (dy, m + 1, 1) else (dy + 1, 1, 1))
   else (dy, m, d) = (1, 2, month_len (2000 + Y + 1) 2)).
Proof.
  intros H.
  assert (Hlp : exists lp : bool, lp = leap (Y + 1)) by eauto. destruct Hlp as [lp Hlp].
  assert (Hy : ylen Y = if lp then 366 else 365) by (unfold ylen; rewrite <- Hlp; destruct lp; reflexivity).
  rewrite Hy in *. pose proof (doy_ok lp doy H) as C. unfold doy_check in C.
  rewrite Z2N.id in C by lia. replace (doy <? (if lp then 366 else 365)) with true in C by lia.
  assert (Hmd : exists t : Z * Z * Z, t = md doy) by eauto. destruct Hmd as [[[dy m] d] Hmd].
  rewrite <- Hmd in *. clear Hmd.
  repeat (apply andb_true_iff in C; destruct C as [C ?]).
  assert (Hdy : dy = if m <=? 2 then 1 else 0) by lia.
  assert (Hml : month_len (2000 + Y + 1) 2 = ml lp 2).
  { rewrite month_len_ml, <- Z.add_assoc, leap_2000, <- Hlp. reflexivity. }
  assert (HmlA : month_len (2000 + Y + dy) m = ml lp m).
  { destruct (Z.eq_dec m 2) as [->|Hm2].
    - rewrite month_len_ml, Hdy, <- Z.add_assoc, leap_2000, Hlp. reflexivity.
    - rewrite month_len_ml. unfold ml. replace (m =? 2) with false by lia. reflexivity. }
  rewrite HmlA. split; [lia|]. split; [lia|]. split; [exact Hdy|].
  split; [destruct (dy =? 1); lia|].
  destruct (doy + 1 <? (if lp then 366 else 365)).
  - destruct (md (doy + 1)) as [[a b] c0].
    destruct (d <? ml lp m); [|destruct (m <? 12)]; unfold teqb in *; pair_eq; lia.
  - rewrite Hml. unfold teqb in *. pair_eq; lia.
Qed.

(** ** day_at in closed form *)
Lemma day_at_S n : day_at (S n) = next_day (day_at n).
Proof. reflexivity. Qed.

Definition wd_of (n : Z) : Z := (n + 3) mod 7 + 1.

Lemma day_at_closed n : exists Y doy, 0 <= doy < ylen Y /\ Z.of_nat n - LEAPOCH = start Y + doy /\
  day_at n = (let '(dy, m, d) := md doy in mkC (2000 + Y + dy) m d (wd_of (Z.of_nat n))).
Proof.
  induction n as [|n IH].
  - exists (-31), 306. split; [change (0 <= 306 < 365); lia|]. split; vm_compute; reflexivity.
  - destruct IH as (Y & doy & Hd & Hn & E). rewrite day_at_S, E.
    pose proof (md_facts Y doy Hd) as F.
    destruct (md doy) as [[dy m] d] eqn:Emd. destruct F as (F1 & F2 & F3 & F4 & F5).
    assert (Hw : (if wd_of (Z.of_nat n) =? 7 then 1 else wd_of (Z.of_nat n) + 1) = wd_of (Z.of_nat (S n))).
    { unfold wd_of. destruct ((Z.of_nat n + 3) mod 7 + 1 =? 7) eqn:E7; lia. }
    destruct (doy + 1 <? ylen Y) eqn:El.
    + exists Y, (doy + 1). split; [lia|]. split; [lia|]. rewrite F5. unfold next_day. cbn [c_wd c_year c_month c_day].
      rewrite Hw. destruct (d <? month_len (2000 + Y + dy) m); [reflexivity|].
      destruct (m <? 12); [reflexivity|]. f_equal; lia.
    + exists (Y + 1), 0. split; [unfold ylen; destruct (leap (Y + 1 + 1)); lia|].
      split; [rewrite start_succ; lia|].
      assert (dy = 1 /\ m = 2 /\ d = month_len (2000 + Y + 1) 2) as (-> & -> & ->) by (inversion F5; auto).
      unfold next_day. cbn [c_wd c_year c_month c_day]. rewrite Hw, Z.ltb_irrefl. change (2 <? 12) with true.
      change (md 0) with (0, 3, 1). cbv iota beta. f_equal; lia.
Qed.

Lemma civil_day_at n : civil_of_days (Z.of_nat n - LEAPOCH) =
  (c_year (day_at n), c_month (day_at n), c_day (day_at n), c_wd (day_at n)).
Proof.
  destruct (day_at_closed n) as (Y & doy & Hd & Hn & ->). rewrite Hn, civil_of_days_ok by exact Hd.
  rewrite <- Hn. destruct (md doy) as [[dy m] d]. cbn. pair_eq.
  unfold wd_of, LEAPOCH. lia.
Qed.

Lemma day_at_wd n : c_wd (day_at n) = wd_of (Z.of_nat n).
Proof. destruct (day_at_closed n) as (Y & doy & Hd & Hn & ->). destruct (md doy) as [[dy m] d]. reflexivity. Qed.

Lemma day_at_real n : real_date (c_year (day_at n)) (c_month (day_at n)) (c_day (day_at n)).
Proof.
  destruct (day_at_closed n) as (Y & doy & Hd & Hn & ->). pose proof (md_facts Y doy Hd) as F.
  destruct (md doy) as [[dy m] d]. cbn. unfold real_date. tauto.
Qed.

Lemma month_len_bounds y m : 28 <= month_len y m <= 31.
Proof. unfold month_len. destruct (m =? 2); [destruct (leap y); lia|]. destruct ((m =? 4) || (m =? 6) || (m =? 9) || (m =? 11)); lia. Qed.

(** ** Back from a calendar date to a day count *)
Definition day_number (y m d : Z) : Z :=
  (y - 1970) * 365 + ((y - 1969) / 4 - (y - 1901) / 100 + (y - 1601) / 400)
  + (ydays_of m + d - 1 + (if leap y && (2 <? m) then 1 else 0)).

Lemma day_number_day_at n : day_number (c_year (day_at n)) (c_month (day_at n)) (c_day (day_at n)) = Z.of_nat n.
Proof.
  destruct (day_at_closed n) as (Y & doy & Hd & Hn & ->). pose proof (md_facts Y doy Hd) as F.
  destruct (md doy) as [[dy m] d]. destruct F as (F1 & F2 & F3 & F4 & F5).
  cbn [c_year c_month c_day]. clear F5 F2. unfold day_number.
  replace (ydays_of m + d - 1) with (if dy =? 1 then doy - 306 else doy + 59) by lia.
  clear F4. unfold start, LEAPOCH in Hn.
  assert (Hm : m <=? 2 = true \/ m <=? 2 = false) by (destruct (m <=? 2); auto).
  destruct Hm as [Hm|Hm]; rewrite Hm in F3; subst dy; cbn [Z.eqb Pos.eqb].
  - replace (2 <? m) with false by lia. rewrite andb_false_r. clear Hm F1 Hd m d. 
    replace ((2000 + Y + 1 - 1969) / 4) with (Y / 4 + 8) by lia.
    replace ((2000 + Y + 1 - 1901) / 100) with (Y / 100 + 1) by lia.
    replace ((2000 + Y + 1 - 1601) / 400) with (Y / 400 + 1) by lia. lia.
  - replace (2 <? m) with true by lia. rewrite andb_true_r. clear Hm F1 Hd m d. 
    rewrite !Z.add_0_r, leap_2000.
    replace ((2000 + Y - 1969) / 4) with ((Y - 1) / 4 + 8) by lia.
    replace ((2000 + Y - 1901) / 100) with ((Y - 1) / 100 + 1) by lia.
    replace ((2000 + Y - 1601) / 400) with ((Y - 1) / 400 + 1) by lia.
    pose proof (start_succ (Y - 1)) as S. unfold start, ylen in S. replace (Y - 1 + 1) with Y in S by lia.
    destruct (leap Y); lia.
Qed.

(** Every existing date of 1970 or later is some [day_at]. *)
Definition md_inv (m d : Z) : Z := ydays_of m + d - 1 + (if m <=? 2 then 306 else - 59).

Definition md_inv_check (k : N) : bool :=
  let m := Z.of_N k / 32 in let d := Z.of_N k mod 32 in
  if (1 <=? m) && (m <=? 12) && (1 <=? d) && (d <=? ml true m) then
    teqb (md (md_inv m d)) (if m <=? 2 then 1 else 0, m, d) && (0 <=? md_inv m d) &&
    (md_inv m d <? 366) && ((md_inv m d <? 365) || ((m =? 2) && (d =? 29)))
  else true.

Lemma md_inv_sweep : all_below 512 md_inv_check = true.
Proof. vm_compute. reflexivity. Qed.

Lemma md_inv_ok m d : 1 <= m <= 12 -> 1 <= d <= ml true m ->
  md (md_inv m d) = (if m <=? 2 then 1 else 0, m, d) /\ 0 <= md_inv m d < 366 /\
  (md_inv m d < 365 \/ (m = 2 /\ d = 29)).
Proof.
  intros Hm Hd. assert (Hd31 : ml true m <= 31).
  { unfold ml. destruct (m =? 2); [lia|]. destruct ((m =? 4) || (m =? 6) || (m =? 9) || (m =? 11)); lia. }
  pose proof (all_below_spec _ _ md_inv_sweep (Z.to_N (m * 32 + d)) ltac:(lia)) as H.
  unfold md_inv_check in H. rewrite Z2N.id in H by lia.
  replace ((m * 32 + d) / 32) with m in H by lia. replace ((m * 32 + d) mod 32) with d in H by lia.
  replace ((1 <=? m) && (m <=? 12) && (1 <=? d) && (d <=? ml true m)) with true in H by lia.
  repeat (apply andb_true_iff in H; destruct H as [H ?]).
  destruct (md (md_inv m d)) as [[a b] c]. unfold teqb in H. split; [pair_eq; destruct (m <=? 2); lia|lia].
Qed.

Lemma day_number_real y m d : 1970 <= y -> real_date y m d ->
  0 <= day_number y m d /\
  let c := day_at (Z.to_nat (day_number y m d)) in c_year c = y /\ c_month c = m /\ c_day c = d.
Proof.
  intros Hy [Hm Hd].
  (* the candidate day *)
  set (dy := if m <=? 2 then 1 else 0). set (Y := y - 2000 - dy). set (doy := md_inv m d).
  assert (HmlT : month_len y m <= ml true m).
  { rewrite month_len_ml. unfold ml. destruct (m =? 2); [destruct (leap y); lia|lia]. }
  destruct (md_inv_ok m d Hm ltac:(lia)) as (I1 & I2 & I3). fold doy in I1, I2, I3. fold dy in I1.
  assert (Hdoy : 0 <= doy < ylen Y).
  { split; [lia|]. unfold ylen. destruct I3 as [I3|[-> ->]].
    - destruct (leap (Y + 1)); lia.
    - unfold month_len in Hd. cbn in Hd. destruct (leap y) eqn:El; [|lia].
      replace (leap (Y + 1)) with true; [lia|]. subst Y dy. cbn in *. rewrite <- El. unfold leap. lia. }
  assert (Hn : day_number y m d = start Y + doy + LEAPOCH).
  { unfold day_number. subst doy. unfold md_inv, start, LEAPOCH.
    subst Y dy. destruct (m <=? 2) eqn:Em.
    - replace (2 <? m) with false by lia. rewrite andb_false_r. 
      replace ((y - 1969) / 4) with ((y - 2000 - 1) / 4 + 8) by lia.
      replace ((y - 1901) / 100) with ((y - 2000 - 1) / 100 + 1) by lia.
      replace ((y - 1601) / 400) with ((y - 2000 - 1) / 400 + 1) by lia. lia.
    - replace (2 <? m) with true by lia. rewrite andb_true_r. replace (y - 2000 - 0) with (y - 2000) by lia.
      pose proof (start_succ (y - 2000 - 1)) as S. unfold start, ylen in S.
      replace (y - 2000 - 1 + 1) with (y - 2000) in S by lia.
      replace (leap y) with (leap (y - 2000)) by (rewrite <- leap_2000; f_equal; lia).
      replace ((y - 1969) / 4) with ((y - 2000 - 1) / 4 + 8) by lia.
      replace ((y - 1901) / 100) with ((y - 2000 - 1) / 100 + 1) by lia.
      replace ((y - 1601) / 400) with ((y - 2000 - 1) / 400 + 1) by lia.
      destruct (leap (y - 2000)); lia. }
  assert (Hpos : 0 <= day_number y m d).
  { unfold day_number. assert (0 <= ydays_of m).
    { unfold ydays_of. assert (m = 1 \/ m = 2 \/ m = 3 \/ m = 4 \/ m = 5 \/ m = 6 \/ m = 7 \/ m = 8 \/ m = 9 \/ m = 10 \/ m = 11 \/ m = 12) as Hcs by lia.
      repeat (destruct Hcs as [->|Hcs]; [lia|]). subst m. lia. }
    destruct (leap y && (2 <? m)); lia. }
  split; [exact Hpos|].
  pose proof (civil_day_at (Z.to_nat (day_number y m d))) as C.
  rewrite Z2Nat.id in C by exact Hpos. rewrite Hn in C at 1.
  replace (start Y + doy + LEAPOCH - LEAPOCH) with (start Y + doy) in C by lia.
  rewrite civil_of_days_ok, I1 in C by exact Hdoy. 
  replace (2000 + Y + dy) with y in C by (subst Y; lia).
  injection C as C1 C2 C3 C4. cbv zeta. repeat split; symmetry; assumption.
Qed.

Lemma is_leap_year_leap y : is_leap_year y = leap (Z.of_N y).
Proof. unfold is_leap_year, leap. lia. Qed.

Lemma month_ydays_ok m : (1 <= m <= 12)%N -> month_ydays m = Ok (Z.to_N (ydays_of (Z.of_N m))).
Proof.
  intros H. assert (m = 1 \/ m = 2 \/ m = 3 \/ m = 4 \/ m = 5 \/ m = 6 \/ m = 7 \/ m = 8 \/ m = 9 \/ m = 10 \/ m = 11 \/ m = 12)%N as C by lia.
  repeat (destruct C as [->|C]; [reflexivity|]). subst m. reflexivity.
Qed.

Lemma ydays_of_bounds m : 0 <= ydays_of m <= 334.
Proof.
  unfold ydays_of. destruct m as [|p|p]; try lia.
  do 4 (destruct p as [p|p|]; try lia).
Qed.

Lemma usub_ok a b : (b <= a)%N -> usub a b = Ok (a - b)%N.
Proof. intros H. unfold usub. replace (a <? b)%N with false by lia. reflexivity. Qed.

Lemma systime_of_date_ok d : is_valid d = true ->
  systime_of_date d =
  Ok ((day_number (Z.of_N (year d)) (Z.of_N (month d)) (Z.of_N (day d)) * 86400
       + Z.of_N (hour d) * 3600 + Z.of_N (minute d) * 60 + Z.of_N (second d)) * NANOS).
Proof.
  unfold is_valid. intros H.
  repeat (apply andb_true_iff in H; destruct H as [H ?]).
  destruct d as [sec mi ho dd mo ye wd]. cbn [second minute hour day month year week_day] in *.
  unfold systime_of_date. cbn [second minute hour day month year week_day].
  repeat (rewrite usub_ok by lia; cbn [bind]).
  rewrite month_ydays_ok by lia. cbn [bind].
  pose proof (ydays_of_bounds (Z.of_N mo)) as Hyd.
  repeat (rewrite usub_ok by lia; cbn [bind]).
  f_equal. f_equal. unfold day_number. rewrite is_leap_year_leap.
  replace (2 <? mo)%N with (2 <? Z.of_N mo) by lia.
  destruct (leap (Z.of_N ye) && (2 <? Z.of_N mo)); lia.
Qed.

Lemma day_number_bound y m d : 1970 <= y <= 9999 -> 1 <= m <= 12 -> 1 <= d <= 31 ->
  0 <= day_number y m d < 2932897.
Proof.
  intros Hy Hm Hd. unfold day_number.
  assert (C : m = 1 \/ m = 2 \/ m = 3 \/ m = 4 \/ m = 5 \/ m = 6 \/ m = 7 \/ m = 8 \/ m = 9 \/ m = 10 \/ m = 11 \/ m = 12) by lia.
  assert (Hl : leap y = true -> y <> 9999).
  { unfold leap. intros Hl ->. discriminate. }
  assert (Hb : (if leap y && (2 <? m) then 1 else 0) <= 1 /\ 0 <= (if leap y && (2 <? m) then 1 else 0)
               /\ (y = 9999 -> (if leap y && (2 <? m) then 1 else 0) = 0)).
  { destruct (leap y) eqn:E; cbn; [|lia]. destruct (2 <? m); try lia. }
  set (b := if leap y && (2 <? m) then 1 else 0) in *. clearbody b. clear Hl.
  assert (Hyd : 0 <= ydays_of m + d - 1 <= 364).
  { repeat (destruct C as [->|C]; [cbv beta iota delta [ydays_of]; lia|]). subst m. cbv beta iota delta [ydays_of]. lia. }
  clear C. set (yd := ydays_of m + d - 1) in *. clearbody yd. lia.
Qed.

(** ** Digits *)
Lemma show_dec_small n : (n < 100)%N -> pad_left 2 48%N (show_dec n) = two_digits n.
Proof.
  intros H. apply seqb_eq.
  apply (all_below_spec 100 (fun n => seqb (pad_left 2 48%N (show_dec n)) (two_digits n))); [vm_compute; reflexivity|exact H].
Qed.

Lemma show_dec_four n : (1000 <= n < 10000)%N -> show_dec n = four_digits n.
Proof.
  intros H. assert (Hs : digits 10 n = [n / 1000; n / 100 mod 10; n / 10 mod 10; n mod 10]%N).
  { unfold digits. pose proof (size_nat_bound n).
    assert (Hsz : (4 <= N.size_nat n)%nat).
    { destruct (Nat.le_gt_cases 4 (N.size_nat n)) as [L|L]; [exact L|].
      assert (2 ^ N.of_nat (N.size_nat n) <= 2 ^ 3)%N by (apply N.pow_le_mono_r; lia). change (2^3)%N with 8%N in *. lia. }
    destruct (N.size_nat n) as [|[|[|[|f]]]]; try lia. cbn [digits_fuel].
    rewrite !N.div_div by lia. change (10 * 10)%N with 100%N. change (10 * 100)%N with 1000%N.
    change (100 * 10)%N with 1000%N. change (1000 * 10)%N with 10000%N.
    replace (n / 10 =? 0)%N with false by lia. replace (n / 100 =? 0)%N with false by lia.
    replace (n / 1000 =? 0)%N with false by lia.
    replace (n / 10000 =? 0)%N with true by lia.
    replace (n / 1000 mod 10)%N with (n / 1000)%N by lia. reflexivity. }
  unfold show_dec, show_radix. rewrite Hs. cbn [map]. unfold four_digits, digit_char.
  replace (n / 1000 <? 10)%N with true by lia. replace (n / 100 mod 10 <? 10)%N with true by lia.
  replace (n / 10 mod 10 <? 10)%N with true by lia. replace (n mod 10 <? 10)%N with true by lia. reflexivity.
Qed.

Lemma two_digits_parse max n : (n < 100)%N -> (n <= max)%N -> parse_uint 10 max (two_digits n) = Some n.
Proof.
  intros H Hm. unfold two_digits.
  change [48 + n / 10; 48 + n mod 10]%N with ([48 + n / 10; 48 + n mod 10]%N).
  assert (E : [48 + n / 10; 48 + n mod 10]%N = map digit_char [n / 10; n mod 10]%N).
  { cbn [map]. unfold digit_char. replace (n / 10 <? 10)%N with true by lia.
    replace (n mod 10 <? 10)%N with true by lia. reflexivity. }
  rewrite E, parse_uint_digits; [|lia|discriminate|repeat constructor; lia].
  cbn [horner]. replace ((0 * 10 + n / 10) * 10 + n mod 10)%N with n by lia.
  replace (n <=? max)%N with true by lia. reflexivity.
Qed.

Lemma four_digits_parse max n : (1000 <= n < 10000)%N -> (n <= max)%N -> parse_uint 10 max (four_digits n) = Some n.
Proof. intros H Hm. rewrite <- show_dec_four by exact H. apply parse_show_dec. exact Hm. Qed.

Lemma two_digits_ascii n : (n < 100)%N -> is_ascii (two_digits n) = true.
Proof. intros H. unfold two_digits, is_ascii. cbn [forallb]. lia. Qed.
