(** Property theorems C01-C06: HTTP dates. *)
From Verif Require Import Base BaseFacts HttpDate DateSpec HttpDateFacts HttpDateText.
From Coq Require Import ZifyBool ZifyNat ZifyN.
Ltac Zify.zify_post_hook ::= Z.div_mod_to_equations.
Open Scope Z_scope.

(** First instant of year 10000, in nanoseconds since the epoch. *)
Definition end_9999 : Z := 253402300800 * 1000000000.
Definition whole_seconds (t : Z) : Z := t / 1000000000 * 1000000000.

(** C01 *)
Theorem C01_date_round_trip : forall t, 0 <= t < end_9999 ->
  exists s, fmt_http_date t = Ok s /\ parse_http_date s = Ok (whole_seconds t).
Proof.
  intros t H. eexists. split; [apply fmt_in_range; exact H|]. unfold end_9999 in H.
  erewrite parse_text; [|..|left; reflexivity]; [|unfold NANOS; lia|unfold NANOS; lia].
  unfold at_time, whole_seconds. change NANOS with 1000000000.
  f_equal. rewrite Z2Nat.id by lia. lia.
Qed.
Print Assumptions C01_date_round_trip.
Example C01_example : 0 <= 951782399999999999 < end_9999 /\
  fmt_http_date 951782399999999999 = Ok (lit "Mon, 28 Feb 2000 23:59:59 GMT").
Proof. split; [unfold end_9999; lia|vm_compute; reflexivity]. Qed.

(** C02 *)
Theorem C02_date_is_gregorian : forall t, 0 <= t < end_9999 ->
  fmt_http_date t =
  Ok (imf_text (day_at (Z.to_nat (t / 1000000000 / 86400))) (t / 1000000000 mod 86400)).
Proof. exact fmt_in_range. Qed.
Print Assumptions C02_date_is_gregorian.
(** The specification is the real calendar: 1 March 2000 is 11017 days after the epoch, a Wednesday. *)
Example C02_example : day_at (Z.to_nat 11017) = mkC 2000 3 1 3.
Proof. vm_compute. reflexivity. Qed.

(** C03: three spellings of day [n], second [secs]; two digit years cover 1970-2069. *)
Theorem C03_three_syntaxes_agree : forall n secs, Z.of_nat n < 2932897 -> 0 <= secs < 86400 ->
  let t := (Z.of_nat n * 86400 + secs) * 1000000000 in
  parse_http_date (imf_text (day_at n) secs) = Ok t /\
  parse_http_date (asctime_text (day_at n) secs) = Ok t /\
  (c_year (day_at n) <= 2069 -> parse_http_date (rfc850_text (day_at n) secs) = Ok t).
Proof.
  intros n secs Hn Hs. cbv zeta.
  split; [|split]; [..|intros Hy]; apply parse_text; tauto.
Qed.
Print Assumptions C03_three_syntaxes_agree.
Example C03_example :
  day_at (Z.to_nat 9075) = mkC 1994 11 6 7 /\
  rfc850_text (day_at (Z.to_nat 9075)) 31777 = lit "Sunday, 06-Nov-94 08:49:37 GMT" /\
  asctime_text (day_at (Z.to_nat 9075)) 31777 = lit "Sun Nov  6 08:49:37 1994".
Proof. vm_compute. auto. Qed.

(** C04: total, with a re-printable instant or a 400 error. *)
Theorem C04_date_parse_total : forall s,
  (exists secs, parse_http_date s = Ok (secs * 1000000000) /\ 0 <= secs * 1000000000 < end_9999)
  \/ parse_http_date s = Err 400.
Proof.
  intros s. destruct (parse_total s) as [(t & H & R)|H]; [left|right; exact H].
  exists t. split; [exact H|]. unfold end_9999, YEAR_9999_SECONDS in *. lia.
Qed.
Print Assumptions C04_date_parse_total.
Example C04_example : parse_http_date (lit "Sun Nov 10 08*00:00 2000") = Err 400 /\
  parse_http_date (lit "Friday, ") = Err 400 /\ is_ok (parse_http_date (lit "  Fri, 31 Dec 9999 23:59:59 GMT ")) = true.
Proof. vm_compute. auto. Qed.

(** C05 is false of the code: days that do not exist, wrong weekdays and signed numerals are accepted. *)
Theorem C05_only_real_dates_refuted :
  (exists y m d w, ~ real_date y m d /\ is_ok (parse_http_date (imf_text (mkC y m d w) 0)) = true) /\
  (exists n w, w <> c_wd (day_at n) /\
     let c := day_at n in is_ok (parse_http_date (imf_text (mkC (c_year c) (c_month c) (c_day c) w) 0)) = true) /\
  is_ok (parse_http_date (lit "Thu, +1 Jan +970 +0:+0:+0 GMT")) = false /\
  is_ok (parse_http_date (lit "Thu, +1 Jan 1970 +0:+0:+0 GMT")) = true.
Proof.
  split; [exists 2001, 2, 31, 1|split; [exists 0%nat, 5|]].
  - split; [|vm_compute; reflexivity]. unfold real_date. change (month_len 2001 2) with 28. lia.
  - split; [|vm_compute; reflexivity]. change (c_wd (day_at 0)) with 4. lia.
  - vm_compute. auto.
Qed.
Print Assumptions C05_only_real_dates_refuted.

(** C05, the part that holds: whenever the day named by an accepted text exists, the result is the
    instant of that calendar day and time (whatever the weekday says).  Missing: rejection of
    non-existing days, inconsistent weekdays and signed numerals. *)
Theorem C05_accepted_date_denotes_partial : forall s d, date_from_str s = Ok d ->
  real_date (Z.of_N (year d)) (Z.of_N (month d)) (Z.of_N (day d)) ->
  exists n, c_year (day_at n) = Z.of_N (year d) /\ c_month (day_at n) = Z.of_N (month d) /\
    c_day (day_at n) = Z.of_N (day d) /\
    parse_http_date s = Ok ((Z.of_nat n * 86400 + Z.of_N (hour d) * 3600 + Z.of_N (minute d) * 60
                             + Z.of_N (second d)) * 1000000000).
Proof.
  intros s d H R. destruct (parse_denotes s d H) as (days & P & Q).
  destruct (Q R) as (n & -> & A & B & C). exists n. auto.
Qed.
Print Assumptions C05_accepted_date_denotes_partial.
Example C05_example : exists d, date_from_str (lit "Mon, 29 Feb 2004 10:11:12 GMT") = Ok d /\
  real_date (Z.of_N (year d)) (Z.of_N (month d)) (Z.of_N (day d)).
Proof. eexists. split; [vm_compute; reflexivity|]. cbn. unfold real_date. change (month_len 2004 2) with 29. lia. Qed.

(** C06 *)
Theorem C06_format_panics_iff_out_of_range : forall t,
  fmt_http_date t = Panic <-> (t < 0 \/ end_9999 <= t).
Proof.
  intros t. split.
  - intros H. destruct (Z.lt_ge_cases t 0) as [|H0]; [auto|]. destruct (Z.lt_ge_cases t end_9999) as [H1|]; [|auto].
    rewrite C02_date_is_gregorian in H by lia. discriminate.
  - apply fmt_out_of_range.
Qed.
Print Assumptions C06_format_panics_iff_out_of_range.
Example C06_example : fmt_http_date (-1) = Panic /\ is_ok (fmt_http_date (end_9999 - 1)) = true.
Proof. vm_compute. auto. Qed.
