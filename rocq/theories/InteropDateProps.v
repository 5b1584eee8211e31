(** C103, dates: what is read in the dates that other programs write (RFC 9110, section 5.6.7). *)
From Coq Require Import ZifyBool ZifyNat ZifyN Lia.
From Verif Require Import Base BaseFacts HttpDate HttpDateFacts DateSpec HttpDateText DateProps.
Open Scope Z_scope.

Lemma weekday_bounds : forall n, 1 <= c_wd (day_at n) <= 7.
Proof.
  induction n as [|n IH]; [vm_compute; split; discriminate|]. unfold day_at in *. cbn [Nat.iter nat_rect]. change (nat_rect (fun _ => cdate) epoch_day (fun _ => next_day) n) with (Nat.iter n next_day epoch_day) in *.
  generalize dependent (Nat.iter n next_day epoch_day). intros c B. unfold next_day.
  destruct (c_day c <? _); [|destruct (c_month c <? 12)]; cbn [c_wd]; destruct (c_wd c =? 7) eqn:E; lia.
Qed.
(** Two digits stand for the year at most 50 years after the present one, so in the year [now] a sender may write any day of
    the years above now - 50 and up to now + 50.  The readings are right exactly up to 2019. *)
Theorem C103_two_digit_years : forall now, 1970 <= now <= 9900 ->
  ((forall n secs, 0 <= secs < 86400 -> now - 50 < c_year (day_at n) <= now + 50 ->
      parse_http_date (rfc850_text (day_at n) secs) = Ok ((Z.of_nat n * 86400 + secs) * 1000000000)) <-> now <= 2019).
Proof.
  intros now B. split.
  - intros H. destruct (Z_le_gt_dec now 2019) as [L|G]; [exact L|exfalso].
    set (y := now + 50 - (now + 50 - 1970) mod 100). assert (Y : y mod 100 = 70 /\ now - 50 < y <= now + 50 /\ 2070 <= y) by (subst y; lia). destruct Y as (Y1 & Y2 & Y3).
    assert (R : real_date y 1 1). { split; [lia|]. pose proof (month_len_bounds y 1). lia. }
    destruct (day_number_real y 1 1 ltac:(lia) R) as (P & Q1 & Q2 & Q3). set (n := Z.to_nat (day_number y 1 1)) in *.
    specialize (H n 0 ltac:(lia) ltac:(lia)). unfold rfc850_text in H. rewrite Q1, Q2, Q3, Y1 in H. assert (W := weekday_bounds n).
    assert (K : forall w, 1 <= w <= 7 -> parse_http_date (name long_day_names w ++ lit ", " ++ num 2 1 ++ lit "-" ++ name month_names 1 ++ lit "-" ++ num 2 70 ++ lit " " ++ time_text 0 ++ lit " GMT") = Ok 0).
    { intros w Wb. assert (C : w = 1 \/ w = 2 \/ w = 3 \/ w = 4 \/ w = 5 \/ w = 6 \/ w = 7) by lia.
      repeat (destruct C as [->|C]; [vm_compute; reflexivity|]). subst w. vm_compute. reflexivity. }
    rewrite (K _ W) in H. assert (N : Z.of_nat n = 0) by (assert (0 = (Z.of_nat n * 86400 + 0) * 1000000000) by congruence; lia).
    assert (n = 0)%nat as E by lia. rewrite E in Q1. change (c_year (day_at 0)) with 1970 in Q1. lia.
  - intros L n secs Hs Hy. assert (YB : c_year (day_at n) <= 2069) by lia. apply C03_three_syntaxes_agree; [|exact Hs|exact YB].
    destruct (Z_lt_ge_dec (Z.of_nat n) 2932897) as [K|K]; [exact K|exfalso]. clear - YB K. pose proof (day_number_day_at n) as D.
    pose proof (day_at_real n) as [Rm Rd]. unfold day_number in D. pose proof (month_len_bounds (c_year (day_at n)) (c_month (day_at n))).
    assert (M : ydays_of (c_month (day_at n)) <= 334).
    { generalize dependent (c_month (day_at n)). intros m _ Rm _ _. assert (C : m = 1 \/ m = 2 \/ m = 3 \/ m = 4 \/ m = 5 \/ m = 6 \/ m = 7 \/ m = 8 \/ m = 9 \/ m = 10 \/ m = 11 \/ m = 12) by lia.
      repeat (destruct C as [->|C]; [vm_compute; discriminate|]). subst m. vm_compute. discriminate. }
    destruct (_ && _) in D; lia.
Qed.
(** A second of 60, which the grammar allows for leap seconds, is refused. *)
Theorem C103_leap_second_refuted : exists s, s = lit "Sat, 31 Dec 2016 23:59:60 GMT" /\ parse_http_date s = Err 400.
Proof. eexists. split; [reflexivity|vm_compute; reflexivity]. Qed.
(** In 2026, "01-Jan-70" is the first day of 2070. *)
Example C103_two_digit_years_example : 2019 < 2026 /\ 2026 - 50 < 2070 <= 2026 + 50 /\
  parse_http_date (lit "Wednesday, 01-Jan-70 00:00:00 GMT") = Ok 0 /\
  parse_http_date (lit "Sunday, 06-Nov-94 08:49:37 GMT") = Ok ((9075 * 86400 + 31777) * 1000000000).
Proof. split; [reflexivity|]. split; [lia|]. vm_compute. auto. Qed.
Print Assumptions C103_two_digit_years.
Print Assumptions C103_leap_second_refuted.
