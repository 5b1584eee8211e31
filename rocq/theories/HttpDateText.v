(** Proofs about the textual forms of HTTP dates. *)
From Verif Require Import Base BaseFacts HttpDate DateSpec HttpDateFacts.
From Coq Require Import ZifyBool ZifyNat ZifyN.
Ltac Zify.zify_post_hook ::= Z.div_mod_to_equations.
Open Scope Z_scope.

(** ** Names *)
Ltac wd_cases w H :=
  let C := fresh in
  assert (w = 1 \/ w = 2 \/ w = 3 \/ w = 4 \/ w = 5 \/ w = 6 \/ w = 7) as C by lia;
  repeat (destruct C as [->|C]); [..|subst w].
Ltac mo_cases m H :=
  let C := fresh in
  assert (m = 1 \/ m = 2 \/ m = 3 \/ m = 4 \/ m = 5 \/ m = 6 \/ m = 7 \/ m = 8 \/ m = 9 \/ m = 10 \/ m = 11 \/ m = 12) as C by lia;
  repeat (destruct C as [->|C]); [..|subst m].

Lemma year_range n : (Z.of_nat n < 2932897) -> 1970 <= c_year (day_at n) <= 9999.
Proof.
  intros H. pose proof (day_number_day_at n) as D. destruct (day_at_real n) as [Hm Hd].
  pose proof (month_len_bounds (c_year (day_at n)) (c_month (day_at n))).
  set (y := c_year (day_at n)) in *. set (m := c_month (day_at n)) in *. set (d := c_day (day_at n)) in *.
  assert (Hyd : 0 <= ydays_of m <= 334) by apply ydays_of_bounds.
  unfold day_number in D.
  assert (Hb : 0 <= (if leap y && (2 <? m) then 1 else 0) <= 1 /\ (y = 1969 -> (if leap y && (2 <? m) then 1 else 0) = 0)).
  { split; [destruct (leap y && (2 <? m)); lia|]. intros ->. reflexivity. }
  assert (Hmax : ydays_of m + d - 1 <= 364).
  { clearbody y m d. clear D Hb Hyd.
    assert (Hdd : d <= ml true m) by (revert Hd; rewrite month_len_ml; unfold ml; destruct (m =? 2); [destruct (leap y); lia|tauto]).
    assert (K : ydays_of m + ml true m <= 365) by (clear - Hm; mo_cases m Hm; vm_compute; discriminate). lia. }
  set (b := if leap y && (2 <? m) then 1 else 0) in *. clearbody b y.
  set (yd := ydays_of m + d - 1) in *. assert (0 <= yd) by (subst yd; lia). clearbody yd. lia.
Qed.

Definition is_letter (c : N) : bool := is_upper c || is_lower c.

Lemma wd_name w : 1 <= w <= 7 -> exists a b c,
  name day_names w = [a; b; c] /\ week_day_name (Z.to_N w) = Ok [a; b; c] /\
  lookup_str imf_days [a; b; c; 44; 32]%N = Some (Z.to_N w) /\
  lookup_str asctime_days [a; b; c; 32]%N = Some (Z.to_N w) /\
  forallb is_letter [a; b; c] = true.
Proof. intros H. wd_cases w H; do 3 eexists; vm_compute; eauto. Qed.

Lemma mo_name m : 1 <= m <= 12 -> exists a b c,
  name month_names m = [a; b; c] /\ month_name (Z.to_N m) = Ok [a; b; c] /\
  lookup_str imf_months [32; a; b; c; 32]%N = Some (Z.to_N m) /\
  lookup_str rfc850_months [45; a; b; c; 45]%N = Some (Z.to_N m) /\
  lookup_str asctime_months [a; b; c; 32]%N = Some (Z.to_N m) /\
  forallb is_letter [a; b; c] = true.
Proof. intros H. mo_cases m H; do 3 eexists; vm_compute; repeat split; reflexivity. Qed.

Lemma num2 n : 0 <= n < 100 -> num 2 n = two_digits (Z.to_N n).
Proof. intros H. unfold num. apply show_dec_small. lia. Qed.

Lemma num4 n : 1000 <= n < 10000 -> num 4 n = four_digits (Z.to_N n).
Proof. intros H. unfold num. rewrite show_dec_four by lia. reflexivity. Qed.

Lemma two_digits_chars n : (n < 100)%N -> forallb is_digit (two_digits n) = true.
Proof. intros H. unfold two_digits, is_digit. cbn [forallb]. lia. Qed.
Lemma four_digits_chars n : (n < 10000)%N -> forallb is_digit (four_digits n) = true.
Proof. intros H. unfold four_digits, is_digit. cbn [forallb]. lia. Qed.

Lemma letter_facts c : is_letter c = true -> (c <? 128)%N = true /\ is_ws c = false.
Proof. unfold is_letter, is_upper, is_lower, is_ws. lia. Qed.
Lemma digit_facts c : is_digit c = true -> (c <? 128)%N = true /\ is_ws c = false.
Proof. unfold is_digit, is_ws. lia. Qed.

(** The second, minute, hour fields of a second-of-day. *)
Definition date_of (c : cdate) (secs : Z) : http_date :=
  mkDate (Z.to_N (secs mod 60)) (Z.to_N (secs mod 3600 / 60)) (Z.to_N (secs / 3600))
         (Z.to_N (c_day c)) (Z.to_N (c_month c)) (Z.to_N (c_year c)) (Z.to_N (c_wd c)).

Definition good (c : cdate) : Prop :=
  1970 <= c_year c <= 9999 /\ 1 <= c_month c <= 12 /\ 1 <= c_day c <= 31 /\ 1 <= c_wd c <= 7.

Lemma good_day_at n : Z.of_nat n < 2932897 -> good (day_at n).
Proof.
  intros H. pose proof (year_range n H). destruct (day_at_real n) as [Hm Hd].
  pose proof (month_len_bounds (c_year (day_at n)) (c_month (day_at n))).
  pose proof (day_at_wd n) as W. unfold wd_of in W. unfold good. lia.
Qed.

Lemma date_of_valid c secs : good c -> 0 <= secs < 86400 -> is_valid (date_of c secs) = true.
Proof. intros G H. unfold good in G. unfold is_valid, date_of. cbn. lia. Qed.

Lemma ascii_letters l : forallb is_letter l = true -> is_ascii l = true.
Proof. apply forallb_impl. intros c H. apply letter_facts, H. Qed.
Lemma ascii_digits l : forallb is_digit l = true -> is_ascii l = true.
Proof. apply forallb_impl. intros c H. apply digit_facts, H. Qed.

Lemma time_text_eq secs : 0 <= secs < 86400 -> time_text secs =
  two_digits (Z.to_N (secs / 3600)) ++ lit ":" ++ two_digits (Z.to_N (secs mod 3600 / 60)) ++ lit ":"
  ++ two_digits (Z.to_N (secs mod 60)).
Proof. intros H. unfold time_text. rewrite !num2 by lia. reflexivity. Qed.

Lemma num_at_two max a b s n : slice s a b = Ok (two_digits n) -> (n < 100)%N -> (n <= max)%N -> num_at max s a b = Ok n.
Proof. intros H H1 H2. unfold num_at. rewrite H. cbn [bind]. rewrite two_digits_parse by assumption. reflexivity. Qed.
Lemma num_at_four max a b s n : slice s a b = Ok (four_digits n) -> (1000 <= n < 10000)%N -> (n <= max)%N -> num_at max s a b = Ok n.
Proof. intros H H1 H2. unfold num_at. rewrite H. cbn [bind]. rewrite four_digits_parse by assumption. reflexivity. Qed.

Ltac num_step := 
  first [ erewrite num_at_two by (first [reflexivity | unfold u8_max, u16_max; lia])
        | erewrite num_at_four by (first [reflexivity | unfold u8_max, u16_max; lia]) ]; cbn [bind].

Ltac ascii_parts := repeat match goal with |- (_ && _) = true => apply andb_true_intro; split end;
  first [reflexivity | apply ascii_digits, two_digits_chars; lia | apply ascii_digits, four_digits_chars; lia].

Lemma imf_text_ascii c secs : good c -> 0 <= secs < 86400 ->
  is_ascii (imf_text c secs) = true /\ no_edge is_ws (imf_text c secs) = true.
Proof.
  intros (Gy & Gm & Gd & Gw) H. unfold imf_text. rewrite time_text_eq, num2, num4 by lia.
  destruct (wd_name _ Gw) as (w0 & w1 & w2 & Wn & _ & _ & _ & Wl). rewrite Wn.
  destruct (mo_name _ Gm) as (m0 & m1 & m2 & Mn & _ & _ & _ & _ & Ml). rewrite Mn.
  split.
  - rewrite !is_ascii_app, (ascii_letters _ Wl), (ascii_letters _ Ml).
    ascii_parts.
  - unfold no_edge. rewrite !rev_app_distr. cbn [lit list_ascii_of_string map N_of_ascii].
    cbn [app rev lit list_ascii_of_string map]. change (is_ws (N_of_ascii "T")) with false. cbn in Wl.
    apply andb_true_iff in Wl as [Wl _]. destruct (letter_facts _ Wl) as [_ ->]. reflexivity.
Qed.

Lemma parse_imf_text c secs : good c -> 0 <= secs < 86400 ->
  parse_imf_fixdate (imf_text c secs) = Ok (date_of c secs).
Proof.
  intros (Gy & Gm & Gd & Gw) H. unfold imf_text. rewrite time_text_eq, num2, num4 by lia.
  destruct (wd_name _ Gw) as (w0 & w1 & w2 & Wn & _ & Wi & _ & _). rewrite Wn.
  destruct (mo_name _ Gm) as (m0 & m1 & m2 & Mn & _ & Mi & _ & _ & _). rewrite Mn.
  unfold parse_imf_fixdate.
  assert (Hs : forall s, s = [w0; w1; w2] ++ lit ", " ++ two_digits (Z.to_N (c_day c)) ++
      lit " " ++ [m0; m1; m2] ++ lit " " ++ four_digits (Z.to_N (c_year c)) ++
      lit " " ++ (two_digits (Z.to_N (secs / 3600)) ++ lit ":" ++ two_digits (Z.to_N (secs mod 3600 / 60)) ++ lit ":" ++ two_digits (Z.to_N (secs mod 60))) ++ lit " GMT" ->
      num_at u8_max s 23 25 = Ok (Z.to_N (secs mod 60)) /\
      num_at u8_max s 20 22 = Ok (Z.to_N (secs mod 3600 / 60)) /\
      num_at u8_max s 17 19 = Ok (Z.to_N (secs / 3600)) /\
      num_at u8_max s 5 7 = Ok (Z.to_N (c_day c)) /\
      num_at u16_max s 12 16 = Ok (Z.to_N (c_year c)) /\
      slice s 7 12 = Ok [32; m0; m1; m2; 32]%N /\ slice s 0 5 = Ok [w0; w1; w2; 44; 32]%N).
  { intros s ->.
    repeat split; try reflexivity;
      try (eapply num_at_two; [reflexivity|lia|unfold u8_max; lia]);
      eapply num_at_four; [reflexivity|lia|unfold u16_max; lia]. }
  match goal with |- context [num_at u8_max ?s 23 25] => specialize (Hs s eq_refl) end.
  destruct Hs as (H1 & H2 & H3 & H4 & H5 & H6 & H7).
  match goal with |- (let* _ := ?b in _) = _ => change b with (@Ok bool false) end.
  cbn [bind]. rewrite H1. cbn [bind]. rewrite H2. cbn [bind]. rewrite H3. cbn [bind]. rewrite H4. cbn [bind].
  rewrite H6. cbn [bind]. rewrite Mi. cbn [bind ok_or]. rewrite H5. cbn [bind]. rewrite H7. cbn [bind]. rewrite Wi.
  cbn [bind ok_or]. reflexivity.
Qed.

Lemma wd_long w : 1 <= w <= 7 -> forall r, length r = 22%nat ->
  let s := name long_day_names w ++ lit ", " ++ r in
  rfc850_chain s rfc850_days = Ok (Z.to_N w, r) /\
  (30 <= length s)%nat /\
  forallb is_letter (name long_day_names w) = true /\ (1 <= length (name long_day_names w))%nat.
Proof.
  intros H r Hr. do 22 (destruct r as [|? r]; [discriminate|]). destruct r; [|discriminate]. clear Hr.
  wd_cases w H; cbv zeta; (split; [reflexivity|]); (split; [apply Nat.leb_le; reflexivity|]); (split; [reflexivity|apply Nat.leb_le; reflexivity]).
Qed.

Lemma imf_wrong_length s : length s <> 29%nat -> parse_imf_fixdate s = Err 500.
Proof.
  intros H. unfold parse_imf_fixdate, IMF_FIXDATE_LENGTH.
  destruct (Nat.eqb_spec (length s) 29); [contradiction|]. reflexivity.
Qed.

Lemma rfc850_text_facts c secs : good c -> c_year c <= 2069 -> 0 <= secs < 86400 ->
  is_ascii (rfc850_text c secs) = true /\ no_edge is_ws (rfc850_text c secs) = true /\
  parse_imf_fixdate (rfc850_text c secs) = Err 500 /\
  parse_rfc850_date (rfc850_text c secs) = Ok (date_of c secs).
Proof.
  intros (Gy & Gm & Gd & Gw) Hy H. unfold rfc850_text. rewrite time_text_eq by lia. rewrite (num2 (c_day c)) by lia.
  rewrite (num2 (c_year c mod 100)) by lia.
  destruct (mo_name _ Gm) as (m0 & m1 & m2 & Mn & _ & _ & Mi & _ & Ml). rewrite Mn.
  set (yy := Z.to_N (c_year c mod 100)).
  set (r := two_digits (Z.to_N (c_day c)) ++ lit "-" ++ [m0; m1; m2] ++ lit "-" ++ two_digits yy ++
     lit " " ++ (two_digits (Z.to_N (secs / 3600)) ++ lit ":" ++ two_digits (Z.to_N (secs mod 3600 / 60)) ++ lit ":" ++ two_digits (Z.to_N (secs mod 60))) ++ lit " GMT").
  pose proof (wd_long _ Gw r eq_refl) as W. cbv zeta in W. destruct W as (W1 & W2 & W3 & W4).
  assert (L : (length (name long_day_names (c_wd c) ++ lit ", " ++ r) <> 29)%nat) by lia.
  assert (Hr : is_ascii r = true).
  { subst r. rewrite !is_ascii_app, (ascii_letters _ Ml).
    ascii_parts. }
  split; [rewrite !is_ascii_app, (ascii_letters _ W3), Hr; reflexivity|].
  split.
  { unfold no_edge. apply andb_true_iff. split.
    - destruct (name long_day_names (c_wd c)) as [|x l]; [cbn in W4; lia|]. cbn in W3. cbn.
      apply andb_true_iff in W3 as [W3 _]. destruct (letter_facts _ W3) as [_ ->]. reflexivity.
    - subst r. rewrite !rev_app_distr. reflexivity. }
  split; [apply imf_wrong_length, L|].
  unfold parse_rfc850_date. unfold RFC850_MAX_LENGTH.
  destruct (Nat.leb_spec 23 (length (name long_day_names (c_wd c) ++ lit ", " ++ r))); [|lia].
  cbn [negb]. rewrite W1. cbn [bind].
  assert (Hs : forall s, s = r ->
      num_at u16_max s 7 9 = Ok yy /\
      num_at u8_max s 16 18 = Ok (Z.to_N (secs mod 60)) /\
      num_at u8_max s 13 15 = Ok (Z.to_N (secs mod 3600 / 60)) /\
      num_at u8_max s 10 12 = Ok (Z.to_N (secs / 3600)) /\
      num_at u8_max s 0 2 = Ok (Z.to_N (c_day c)) /\
      slice s 2 7 = Ok [45; m0; m1; m2; 45]%N).
  { intros s ->. subst r.
    repeat split; try reflexivity;
      (eapply num_at_two; [reflexivity|subst yy; lia|unfold u8_max, u16_max; subst yy; lia]). }
  destruct (Hs r eq_refl) as (H1 & H2 & H3 & H4 & H5 & H6).
  match goal with |- (let* _ := ?b in _) = _ => change b with (@Ok bool false) end.
  cbn [bind]. rewrite H1. cbn [bind]. rewrite H2. cbn [bind]. rewrite H3. cbn [bind]. rewrite H4. cbn [bind].
  rewrite H5. cbn [bind]. rewrite H6. cbn [bind]. rewrite Mi. cbn [bind ok_or].
  unfold date_of. f_equal. f_equal. subst yy. destruct (Z.to_N (c_year c mod 100) <? 70)%N eqn:E; lia.
Qed.

Definition day_sp (n : N) : str := if (n <? 10)%N then [32; 48 + n]%N else two_digits n.
Lemma num_sp_eq n : 0 <= n < 100 -> num_sp n = day_sp (Z.to_N n).
Proof.
  intros H. unfold num_sp. apply seqb_eq.
  apply (all_below_spec 100 (fun n => seqb (pad_left 2 32%N (show_dec n)) (day_sp n))); [vm_compute; reflexivity|lia].
Qed.

Lemma asctime_text_facts c secs : good c -> 0 <= secs < 86400 ->
  is_ascii (asctime_text c secs) = true /\ no_edge is_ws (asctime_text c secs) = true /\
  parse_imf_fixdate (asctime_text c secs) = Err 500 /\
  parse_rfc850_date (asctime_text c secs) = Err 500 /\
  parse_asctime (asctime_text c secs) = Ok (date_of c secs).
Proof.
  intros (Gy & Gm & Gd & Gw) H. unfold asctime_text. rewrite time_text_eq by lia. rewrite num_sp_eq by lia.
  rewrite num4 by lia.
  destruct (wd_name _ Gw) as (w0 & w1 & w2 & Wn & _ & _ & Wi & Wl). 
  destruct (mo_name _ Gm) as (m0 & m1 & m2 & Mn & _ & _ & _ & Mi & Ml). rewrite Mn.
  assert (Hdl : exists d0 d1, day_sp (Z.to_N (c_day c)) = [d0; d1] /\ is_ascii [d0; d1] = true /\
     (let* x' := if (d0 =? 32)%N then slice [d0; d1] 1 2 else Ok [d0; d1] in
      ok_or 500 (parse_uint 10 u8_max x')) = Ok (Z.to_N (c_day c))).
  { unfold day_sp. destruct (Z.to_N (c_day c) <? 10)%N eqn:E.
    - do 2 eexists. split; [reflexivity|]. split; [unfold is_ascii; cbn [forallb]; lia|].
      change (32 =? 32)%N with true. cbv iota. change (slice [32; 48 + Z.to_N (c_day c)]%N 1 2) with (Ok [48 + Z.to_N (c_day c)]%N).
      cbn [bind].
      replace [48 + Z.to_N (c_day c)]%N with (map digit_char [Z.to_N (c_day c)]) by (cbn [map]; unfold digit_char; rewrite E; reflexivity).
      rewrite parse_uint_digits; [|lia|discriminate|repeat constructor; lia]. cbn [horner].
      replace (0 * 10 + Z.to_N (c_day c))%N with (Z.to_N (c_day c)) by lia.
      replace (Z.to_N (c_day c) <=? u8_max)%N with true by (unfold u8_max; lia). reflexivity.
    - do 2 eexists. split; [reflexivity|]. split; [apply two_digits_ascii; lia|].
      replace (48 + Z.to_N (c_day c) / 10 =? 32)%N with false by lia. cbn [bind].
      change [48 + Z.to_N (c_day c) / 10; 48 + Z.to_N (c_day c) mod 10]%N with (two_digits (Z.to_N (c_day c))).
      rewrite two_digits_parse by (unfold u8_max; lia). reflexivity. }
  destruct Hdl as (d0 & d1 & Ed & Ad & Pd). rewrite Ed.
  split; [|split; [|split; [|split]]].
  - rewrite Wn, !is_ascii_app, (ascii_letters _ Wl), (ascii_letters _ Ml), Ad.
    ascii_parts.
  - rewrite Wn. unfold no_edge. rewrite !rev_app_distr. apply andb_true_iff. split.
    + cbn in *. apply andb_true_iff in Wl as [Wl _]. destruct (letter_facts _ Wl) as [_ ->]. reflexivity.
    + cbn [four_digits rev app]. apply negb_true_iff, digit_facts. unfold is_digit. lia.
  - apply imf_wrong_length. rewrite Wn. cbn. lia.
  - clear Wn Wi. revert Gw. generalize (c_wd c) as w. intros w Gw. wd_cases w Gw; reflexivity.
  - rewrite Wn. unfold parse_asctime.
    assert (Hs : forall s, s = [w0; w1; w2] ++ lit " " ++ [m0; m1; m2] ++ lit " " ++ [d0; d1] ++ lit " " ++
       (two_digits (Z.to_N (secs / 3600)) ++ lit ":" ++ two_digits (Z.to_N (secs mod 3600 / 60)) ++ lit ":" ++ two_digits (Z.to_N (secs mod 60))) ++ lit " " ++ four_digits (Z.to_N (c_year c)) ->
      num_at u8_max s 17 19 = Ok (Z.to_N (secs mod 60)) /\
      num_at u8_max s 14 16 = Ok (Z.to_N (secs mod 3600 / 60)) /\
      num_at u8_max s 11 13 = Ok (Z.to_N (secs / 3600)) /\
      slice s 8 10 = Ok [d0; d1] /\ slice s 4 8 = Ok [m0; m1; m2; 32]%N /\
      num_at u16_max s 20 24 = Ok (Z.to_N (c_year c)) /\ slice s 0 4 = Ok [w0; w1; w2; 32]%N).
    { intros s ->.
      repeat split; try reflexivity;
        try (eapply num_at_two; [reflexivity|lia|unfold u8_max; lia]);
        eapply num_at_four; [reflexivity|lia|unfold u16_max; lia]. }
    match goal with |- context [num_at u8_max ?s 17 19] => specialize (Hs s eq_refl) end.
    destruct Hs as (H1 & H2 & H3 & H4 & H5 & H6 & H7).
    match goal with |- (let* _ := ?b in _) = _ => change b with (@Ok bool false) end.
    cbn [bind]. rewrite H1. cbn [bind]. rewrite H2. cbn [bind]. rewrite H3. cbn [bind]. rewrite H4. cbn [bind].
    change (byte_at [d0; d1] 0) with (Ok d0). cbn [bind].
    destruct (d0 =? 32)%N; [change (slice [d0; d1] 1 2) with (@Ok str [d1]) in *|]; cbn [bind] in Pd |- *; rewrite Pd; cbn [bind];
    (rewrite H5; cbn [bind]; rewrite Mi; cbn [bind ok_or]; rewrite H6; cbn [bind]; rewrite H7; cbn [bind]; rewrite Wi;
    cbn [bind ok_or]; reflexivity).
Qed.

(** ** Main theorems *)
Definition at_time (n : nat) (secs : Z) : systime := (Z.of_nat n * 86400 + secs) * NANOS.

Lemma systime_of_day_at n secs : Z.of_nat n < 2932897 -> 0 <= secs < 86400 ->
  systime_of_date (date_of (day_at n) secs) = Ok (at_time n secs).
Proof.
  intros Hn Hs. pose proof (good_day_at n Hn) as G. rewrite systime_of_date_ok by (apply date_of_valid; assumption).
  unfold good in G. unfold date_of, at_time. cbn [year month day hour minute second].
  rewrite !Z2N.id by lia. rewrite day_number_day_at. f_equal. f_equal. lia.
Qed.

Lemma parse_text n secs s : Z.of_nat n < 2932897 -> 0 <= secs < 86400 ->
  s = imf_text (day_at n) secs \/ (s = rfc850_text (day_at n) secs /\ c_year (day_at n) <= 2069)
  \/ s = asctime_text (day_at n) secs ->
  parse_http_date s = Ok (at_time n secs).
Proof.
  intros Hn Hs H. pose proof (good_day_at n Hn) as G.
  assert (K : is_ascii s = true /\ no_edge is_ws s = true /\
     or_else (or_else (parse_imf_fixdate s) (parse_rfc850_date s)) (parse_asctime s) = Ok (date_of (day_at n) secs)).
  { destruct H as [->|[[-> Hy]| ->]].
    - destruct (imf_text_ascii _ _ G Hs). split; [assumption|]. split; [assumption|].
      rewrite parse_imf_text by assumption. reflexivity.
    - destruct (rfc850_text_facts _ _ G Hy Hs) as (A & B & C & D). split; [assumption|]. split; [assumption|].
      rewrite C, D. reflexivity.
    - destruct (asctime_text_facts _ _ G Hs) as (A & B & C & D & E). split; [assumption|]. split; [assumption|].
      rewrite C, D, E. reflexivity. }
  destruct K as (K1 & K2 & K3). unfold parse_http_date, date_from_str. rewrite K1. cbn [negb].
  rewrite trim_id by exact K2. rewrite K3. cbn [bind]. rewrite date_of_valid by assumption. cbn [bind].
  rewrite systime_of_day_at by assumption. reflexivity.
Qed.

Lemma fmt_in_range t : 0 <= t < YEAR_9999_SECONDS * NANOS ->
  let secs := t / NANOS in
  fmt_http_date t = Ok (imf_text (day_at (Z.to_nat (secs / 86400))) (secs mod 86400)).
Proof.
  intros H secs. unfold YEAR_9999_SECONDS, NANOS in H.
  assert (Hs : 0 <= secs < 253402300800) by (subst secs; unfold NANOS; lia).
  unfold fmt_http_date, date_of_systime. replace (t <? 0) with false by lia. fold secs.
  replace (secs <? YEAR_9999_SECONDS) with true by (unfold YEAR_9999_SECONDS; lia). cbn [negb].
  unfold SECONDS_IN_DAY. set (n := Z.to_nat (secs / 86400)).
  assert (Hn : Z.of_nat n = secs / 86400) by (subst n; rewrite Z2Nat.id; lia).
  assert (Hn2 : Z.of_nat n < 2932897) by lia.
  rewrite <- Hn, civil_day_at. cbn [bind]. set (sd := secs mod 86400).
  assert (Hsd : 0 <= sd < 86400) by (subst sd; lia).
  pose proof (good_day_at n Hn2) as G.
  replace (mkDate (as_u8 (sd mod 60)) (as_u8 (sd mod SECONDS_IN_HOUR / 60)) (as_u8 (sd / SECONDS_IN_HOUR))
      (as_u8 (c_day (day_at n))) (as_u8 (c_month (day_at n))) (as_u16 (c_year (day_at n)))
      (as_u8 (c_wd (day_at n)))) with (date_of (day_at n) sd).
  2:{ unfold date_of, as_u8, as_u16, SECONDS_IN_HOUR. clearbody sd. unfold good in G.
      rewrite !(Z.mod_small _ 256) by lia. rewrite (Z.mod_small _ 65536) by lia. reflexivity. }
  clearbody n sd. clear H Hs Hn secs t. destruct G as (Gy & Gm & Gd & Gw).
  unfold imf_text. rewrite time_text_eq by lia. rewrite num2, num4 by lia.
  destruct (wd_name _ Gw) as (w0 & w1 & w2 & Wn & Wi & _). rewrite Wn.
  destruct (mo_name _ Gm) as (m0 & m1 & m2 & Mn & Mi & _). rewrite Mn.
  unfold fmt_date, date_of. cbn [week_day month day year hour minute second].
  rewrite Wi, Mi. cbn [bind]. reflexivity.
Qed.

Lemma fmt_out_of_range t : t < 0 \/ YEAR_9999_SECONDS * NANOS <= t -> fmt_http_date t = Panic.
Proof.
  intros H. unfold fmt_http_date, date_of_systime. destruct (t <? 0) eqn:E; [reflexivity|].
  replace (t / NANOS <? YEAR_9999_SECONDS) with false by (unfold YEAR_9999_SECONDS, NANOS in *; lia). reflexivity.
Qed.

(** ** Totality of the parsers *)
Definition no_panic {A} (o : outcome A) : Prop := o <> Panic.

Lemma bind_no_panic {A B} (m : outcome A) (k : A -> outcome B) :
  no_panic m -> (forall a, m = Ok a -> no_panic (k a)) -> no_panic (bind m k).
Proof. intros H1 H2. destruct m; cbn; [apply H2; reflexivity|discriminate|contradiction H1; reflexivity]. Qed.

Lemma slice_np s a b : (a <= b)%nat -> (b <= length s)%nat -> no_panic (slice s a b).
Proof. intros H1 H2. unfold slice. destruct (Nat.leb_spec a b), (Nat.leb_spec b (length s)); try lia. discriminate. Qed.
Lemma slice_len s a b t : slice s a b = Ok t -> length t = (b - a)%nat.
Proof.
  unfold slice. destruct (Nat.leb_spec a b), (Nat.leb_spec b (length s)); try discriminate. intros E; inv E.
  rewrite firstn_length, skipn_length. lia.
Qed.
Lemma byte_at_np s i : (i < length s)%nat -> no_panic (byte_at s i).
Proof. intros H. unfold byte_at. destruct (nth_error s i) eqn:E; [discriminate|]. apply nth_error_None in E. lia. Qed.
Lemma ok_or_np {A} e (o : option A) : no_panic (ok_or e o).
Proof. destruct o; discriminate. Qed.
Lemma num_at_np max s a b : (a <= b)%nat -> (b <= length s)%nat -> no_panic (num_at max s a b).
Proof. intros H1 H2. apply bind_no_panic; [apply slice_np; assumption|]. intros. apply ok_or_np. Qed.
Lemma or_else_cond_np a b : no_panic a -> (a = Ok false -> no_panic b) -> no_panic (or_else_cond a b).
Proof. intros H1 H2. apply bind_no_panic; [exact H1|]. intros [|] E; [discriminate|auto]. Qed.
Lemma neq_byte_np s i c : (i < length s)%nat -> no_panic (neq_byte s i c).
Proof. intros H. apply bind_no_panic; [apply byte_at_np, H|discriminate]. Qed.
Lemma neq_slice_np s a b k : (a <= b)%nat -> (b <= length s)%nat -> no_panic (neq_slice s a b k).
Proof. intros H1 H2. apply bind_no_panic; [apply slice_np; assumption|discriminate]. Qed.

Ltac np := repeat first
  [ apply ok_or_np | apply num_at_np; lia | apply slice_np; lia | apply byte_at_np; lia
  | apply neq_byte_np; lia | apply neq_slice_np; lia | apply bind_no_panic; [|intros ? ?]
  | discriminate ].

Lemma or_else_false a b : or_else_cond a b = Ok false -> a = Ok false /\ b = Ok false.
Proof. unfold or_else_cond. destruct a as [[|]| |]; cbn; intros H; try discriminate. auto. Qed.

Lemma imf_np s : no_panic (parse_imf_fixdate s).
Proof.
  unfold parse_imf_fixdate, IMF_FIXDATE_LENGTH. destruct (Nat.eqb_spec (length s) 29) as [L|L]; [|discriminate].
  apply bind_no_panic; [repeat (apply or_else_cond_np; [np|intros _]); np|].
  intros [|] _; [discriminate|]. np.
Qed.

Lemma asctime_np s : no_panic (parse_asctime s).
Proof.
  unfold parse_asctime, ASCTIME_LENGTH. destruct (Nat.eqb_spec (length s) 24) as [L|L]; [|discriminate].
  apply bind_no_panic; [repeat (apply or_else_cond_np; [np|intros _]); np|].
  intros [|] _; [discriminate|]. do 3 (apply bind_no_panic; [np|intros ? ?]).
  apply bind_no_panic; [np|intros x Hx]. apply slice_len in Hx. cbn in Hx.
  apply bind_no_panic; [np|intros x0 _]. apply bind_no_panic; [destruct (x0 =? 32)%N; np|intros x' _]. np.
Qed.

Lemma rfc850_np s : no_panic (parse_rfc850_date s).
Proof.
  unfold parse_rfc850_date, RFC850_MAX_LENGTH. destruct (Nat.leb_spec 23 (length s)) as [L|L]; [|discriminate].
  cbn [negb]. apply bind_no_panic.
  - assert (G : forall t, forallb (fun p => (length (fst p) <=? 11)%nat) t = true -> no_panic (rfc850_chain s t)).
    { intros t. induction t as [|[nm w] t IH]; intros Ht; [discriminate|]. cbn [forallb fst] in Ht.
      apply andb_true_iff in Ht as [Hn Ht]. apply Nat.leb_le in Hn. cbn [rfc850_chain].
      apply bind_no_panic.
      - unfold rfc850_week_day. apply bind_no_panic; [np|intros a _]. destruct (seqb a nm); [|discriminate].
        unfold slice_from. np.
      - intros [x|] _; [discriminate|]. apply IH, Ht. }
    apply G. reflexivity.
  - intros [w r] _. destruct (Nat.eqb_spec (length r) 22) as [L2|L2]; [|discriminate].
    apply bind_no_panic; [repeat (apply or_else_cond_np; [np|intros _]); np|].
    intros [|] _; [discriminate|]. np.
Qed.

Lemma parse_total s :
  (exists t, parse_http_date s = Ok (t * NANOS) /\ 0 <= t < YEAR_9999_SECONDS) \/ parse_http_date s = Err 400.
Proof.
  unfold parse_http_date, date_from_str. destruct (is_ascii s); [|right; reflexivity]. cbn [negb].
  set (o := or_else _ _).
  assert (Ho : o <> Panic).
  { subst o. unfold or_else. pose proof (imf_np (trim s)). pose proof (rfc850_np (trim s)). pose proof (asctime_np (trim s)).
    unfold no_panic in *. destruct (parse_imf_fixdate (trim s)), (parse_rfc850_date (trim s)), (parse_asctime (trim s)); congruence. }
  clearbody o. destruct o as [d|e|]; [|right; reflexivity|congruence]. cbn [bind].
  destruct (is_valid d) eqn:V; [|right; reflexivity]. cbn [bind]. rewrite systime_of_date_ok by exact V.
  left. eexists. split; [reflexivity|].
  unfold is_valid in V. repeat (apply andb_true_iff in V; destruct V as [V ?]).
  pose proof (day_number_bound (Z.of_N (year d)) (Z.of_N (month d)) (Z.of_N (day d)) ltac:(lia) ltac:(lia) ltac:(lia)).
  unfold YEAR_9999_SECONDS. lia.
Qed.

(** Any accepted text whose day exists in the calendar denotes that day. *)
Lemma parse_denotes s d : date_from_str s = Ok d ->
  exists days, parse_http_date s =
    Ok ((days * 86400 + Z.of_N (hour d) * 3600 + Z.of_N (minute d) * 60 + Z.of_N (second d)) * NANOS) /\
  (real_date (Z.of_N (year d)) (Z.of_N (month d)) (Z.of_N (day d)) -> 
   exists n, days = Z.of_nat n /\ c_year (day_at n) = Z.of_N (year d) /\
     c_month (day_at n) = Z.of_N (month d) /\ c_day (day_at n) = Z.of_N (day d)).
Proof.
  intros E. assert (V : is_valid d = true).
  { unfold date_from_str in E. destruct (negb (is_ascii s)); [discriminate|].
    destruct (or_else _ _) as [d'| |]; cbn [bind] in E; try discriminate.
    destruct (is_valid d') eqn:V; [|discriminate]. inv E. exact V. }
  exists (day_number (Z.of_N (year d)) (Z.of_N (month d)) (Z.of_N (day d))).
  unfold parse_http_date. rewrite E. cbn [bind]. rewrite systime_of_date_ok by exact V. split; [reflexivity|].
  intros R. unfold is_valid in V. repeat (apply andb_true_iff in V; destruct V as [V ?]).
  destruct (day_number_real (Z.of_N (year d)) (Z.of_N (month d)) (Z.of_N (day d)) ltac:(lia) R) as (P & Q).
  cbv zeta in Q. exists (Z.to_nat (day_number (Z.of_N (year d)) (Z.of_N (month d)) (Z.of_N (day d)))).
  rewrite Z2Nat.id by exact P. tauto.
Qed.
