(** C63-C65: trace contexts. *)
From Verif Require Import Base BaseFacts Headers HeadersFacts Typed TypedFacts Trace.
From Coq Require Import ZifyBool ZifyNat ZifyN.

(** Every field fits its Rust type. *)
Definition in_types (c : context) : Prop :=
  ctx_id c < 2 ^ 64 /\ ctx_version c < 2 ^ 8 /\ ctx_trace c < 2 ^ 128 /\ ctx_flags c < 2 ^ 8 /\
  match ctx_parent c with Some p => p < 2 ^ 64 | None => True end.

(** What a hexadecimal number is, in the crate's reading: digits of either case, perhaps after a plus sign. *)
Definition hex_digit (c : N) : Prop := 48 <= c <= 57 \/ 65 <= c <= 70 \/ 97 <= c <= 102.
Definition hex_val (c : N) : N := if c <=? 57 then c - 48 else if c <=? 70 then c - 55 else c - 87.
Definition hex_text (s : str) (n : N) : Prop :=
  exists ds, (s = ds \/ s = 43 :: ds) /\ ds <> [] /\ Forall hex_digit ds /\ n = fold_left (fun a c => a * 16 + hex_val c) ds 0.

Lemma char_digit_16 : forall c, (hex_digit c /\ char_digit 16 c = Some (hex_val c)) \/ (~ hex_digit c /\ char_digit 16 c = None).
Proof.
  intros c. unfold char_digit, is_digit, hex_digit, hex_val.
  destruct ((48 <=? c) && (c <=? 57)) eqn:D.
  - left. split; [lia|]. destruct (c - 48 <? 16) eqn:X; [|lia]. destruct (c <=? 57) eqn:Y; [reflexivity|lia].
  - destruct ((97 <=? c) && (c <=? 102)) eqn:L.
    + left. split; [lia|]. destruct (c - 87 <? 16) eqn:X; [|lia]. destruct (c <=? 57) eqn:Y; [lia|]. destruct (c <=? 70) eqn:Z; [lia|reflexivity].
    + destruct ((65 <=? c) && (c <=? 70)) eqn:U.
      * left. split; [lia|]. destruct (c - 55 <? 16) eqn:X; [|lia]. destruct (c <=? 57) eqn:Y; [lia|]. destruct (c <=? 70) eqn:Z; [reflexivity|lia].
      * right. split; [lia|reflexivity].
Qed.
Lemma digits_val_16 : forall s a n, digits_val 16 a s = Some n <-> Forall hex_digit s /\ n = fold_left (fun a c => a * 16 + hex_val c) s a.
Proof.
  induction s as [|c s IH]; intros a n; cbn [digits_val fold_left].
  - split; [intros X; inv X; auto|]. intros [_ ->]. reflexivity.
  - destruct (char_digit_16 c) as [[D ->]|[D ->]].
    + rewrite IH. split; intros [F ->]; [auto|inv F; auto].
    + split; [discriminate|]. intros [F _]. inv F. contradiction.
Qed.
Lemma parse_hex_spec : forall max s n, parse_uint 16 max s = Some n <-> hex_text s n /\ n <= max.
Proof.
  intros max s n. unfold parse_uint, hex_text.
  set (body := match s with c :: s' => if c =? 43 then s' else s | [] => s end).
  assert (B : forall ds, ds <> [] -> Forall hex_digit ds -> (s = ds \/ s = 43 :: ds) <-> body = ds).
  { intros ds N F. unfold body. destruct s as [|c s].
    - split; [intros [|]; congruence|]. intros <-. now left.
    - destruct (N.eqb_spec c 43) as [->|D].
      + split; [intros [X|X]; [|congruence]|intros ->; now right]. subst ds. inv F. unfold hex_digit in *. lia.
      + split; [intros [X|X]; [exact X|congruence]|now left]. }
  destruct body as [|b bs] eqn:EB.
  - split; [discriminate|]. intros [(ds & S & N & F & _) _]. apply (B ds N F) in S. congruence.
  - assert (V := digits_val_16 (b :: bs) 0). destruct (digits_val 16 0 (b :: bs)) as [v|].
    + destruct (proj1 (V v) eq_refl) as [F E]. destruct (v <=? max) eqn:L; split.
      * intros X. inv X. split; [|lia]. exists (b :: bs). split; [apply B; [discriminate|exact F|reflexivity]|]. split; [discriminate|]. split; [exact F|reflexivity].
      * intros [(ds & S & N & F' & ->) _]. apply (B ds N F') in S. subst ds. now rewrite <- E.
      * discriminate.
      * intros [(ds & S & N & F' & ->) L']. apply (B ds N F') in S. subst ds. rewrite <- E in L'. lia.
    + split; [discriminate|]. intros [(ds & S & N & F & E) _]. apply (B ds N F) in S. subst ds.
      assert (X := proj2 (V n) (conj F E)). discriminate.
Qed.

(** ** Fixed width fields *)
Lemma horner_zeros : forall k r ds, horner r 0 (repeat 0 k ++ ds) = horner r 0 ds.
Proof. induction k as [|k IH]; intros r ds; [reflexivity|]. cbn [repeat app horner]. apply IH. Qed.
Lemma field_digits : forall w n, hex_field w n = map digit_char (repeat 0 (w - length (show_radix 16 n)) ++ digits 16 n).
Proof.
  intros w n. unfold hex_field, pad_left. rewrite map_app. f_equal. 
  set (k := (w - length (show_radix 16 n))%nat). clearbody k. induction k as [|k IH]; [reflexivity|]. cbn [repeat map]. now rewrite <- IH.
Qed.
Lemma field_good : forall w n, Forall (fun d => d < 16) (repeat 0 (w - length (show_radix 16 n)) ++ digits 16 n).
Proof.
  intros w n. apply Forall_app. split; [|apply digits_spec; lia]. apply Forall_forall. intros x I. apply repeat_spec in I. lia.
Qed.
Lemma field_parse : forall w max n, n <= max -> parse_uint 16 max (hex_field w n) = Some n.
Proof.
  intros w max n L. rewrite field_digits. rewrite parse_uint_digits.
  - rewrite horner_zeros. destruct (digits_spec 16 n ltac:(lia)) as [-> _]. replace (n <=? max) with true by lia. reflexivity.
  - lia.
  - intros X. apply app_eq_nil in X as [_ X]. now apply digits_nonempty in X.
  - apply field_good.
Qed.
Lemma field_no_dash : forall w n, no_char 45 (hex_field w n) = true.
Proof.
  intros w n. rewrite field_digits. apply (no_char_forallb 45 (fun c => negb (c =? 45))); [reflexivity|]. rewrite forallb_forall. intros c I. apply in_map_iff in I as (d & <- & I).
  assert (F := field_good w n). rewrite Forall_forall in F. apply F in I. unfold digit_char. destruct (d <? 10) eqn:E; lia.
Qed.
Lemma digits_fuel_len : forall r, 2 <= r -> forall f w n, n < r ^ N.of_nat (S w) -> (length (digits_fuel f r n []) <= S w)%nat.
Proof.
  intros r R. induction f as [|f IH]; intros w n L; cbn [digits_fuel]; [cbn [length]; lia|].
  destruct (n / r =? 0) eqn:E; [cbn [length]; lia|]. rewrite digits_fuel_acc, app_length. cbn [length].
  destruct w as [|w].
  - exfalso. change (N.of_nat 1) with 1 in L. rewrite N.pow_1_r in L. rewrite N.div_small in E by lia. discriminate.
  - assert (X : n / r < r ^ N.of_nat (S w)).
    { apply N.div_lt_upper_bound; [lia|]. rewrite <- N.pow_succ_r'. rewrite <- Nnat.Nat2N.inj_succ. exact L. }
    specialize (IH w _ X). lia.
Qed.
Lemma field_width : forall w n, n < 16 ^ N.of_nat (S w) -> length (hex_field (S w) n) = S w.
Proof.
  intros w n L. unfold hex_field, pad_left, show_radix. rewrite app_length, repeat_length, map_length.
  assert (X := digits_fuel_len 16 ltac:(lia) (S (N.size_nat n)) w n L). fold (digits 16 n) in X. lia.
Qed.
Definition lower_hex (c : N) : bool := ((48 <=? c) && (c <=? 57)) || ((97 <=? c) && (c <=? 102)).
Lemma field_lower : forall w n, forallb lower_hex (hex_field w n) = true.
Proof.
  intros w n. rewrite field_digits. rewrite forallb_forall. intros c I. apply in_map_iff in I as (d & <- & I).
  assert (F := field_good w n). rewrite Forall_forall in F. apply F in I. unfold digit_char, lower_hex. destruct (d <? 10) eqn:E; lia.
Qed.
Lemma show_parts : forall c, split 45 (context_show c) = [hex_field 2 (ctx_version c); hex_field 32 (ctx_trace c); hex_field 16 (ctx_id c); hex_field 2 (ctx_flags c)].
Proof.
  intros c. unfold context_show. change (lit "-") with [45]. cbn [app].
  rewrite split_app by apply field_no_dash. rewrite split_app by apply field_no_dash. rewrite split_app by apply field_no_dash.
  now rewrite split_no_char by apply field_no_dash.
Qed.

(** ** C63 *)
(** Written and read back (the reader draws its own [new] id): version, trace id and flags stay, the writer's id is the
    parent. *)
Theorem C63_round_trip : forall h c new, in_types c ->
  context_from_headers new (context_apply h c) = Ok (Some (Context new (ctx_version c) (ctx_trace c) (Some (ctx_id c)) (ctx_flags c))).
Proof.
  intros h c new (I & V & T & F & _). unfold context_from_headers, context_apply. rewrite get_apply. cbn [values_first bind].
  unfold context_parse. rewrite show_parts. unfold part, hex. cbn [nth_error unwrap bind].
  rewrite !field_parse; [reflexivity|..]; unfold u8_max, u64_max, u128_max.
  - change (2 ^ 8) with 256 in F. lia.
  - change (2 ^ 64) with 18446744073709551616 in I. lia.
  - change (2 ^ 128) with 340282366920938463463374607431768211456 in T. lia.
  - change (2 ^ 8) with 256 in V. lia.
Qed.
Print Assumptions C63_round_trip.
(** The text has the W3C shape: four lower-case hexadecimal fields of 2, 32, 16 and 2 digits. *)
Theorem C63_shape : forall c, in_types c -> exists a b d e, context_show c = a ++ 45 :: b ++ 45 :: d ++ 45 :: e /\
  length a = 2%nat /\ length b = 32%nat /\ length d = 16%nat /\ length e = 2%nat /\ forallb lower_hex (a ++ b ++ d ++ e) = true.
Proof.
  intros c (I & V & T & F & _). exists (hex_field 2 (ctx_version c)), (hex_field 32 (ctx_trace c)), (hex_field 16 (ctx_id c)), (hex_field 2 (ctx_flags c)).
  split; [reflexivity|]. split; [apply field_width; exact V|]. split; [apply field_width; exact T|]. split; [apply field_width; exact I|].
  split; [apply field_width; exact F|]. rewrite !forallb_app, !field_lower. reflexivity.
Qed.
Print Assumptions C63_shape.
(** Different observable contexts have different texts. *)
Theorem C63_injective : forall c d, in_types c -> in_types d -> context_show c = context_show d ->
  ctx_version c = ctx_version d /\ ctx_trace c = ctx_trace d /\ ctx_id c = ctx_id d /\ ctx_flags c = ctx_flags d.
Proof.
  intros c d C D E. assert (X := C63_round_trip [] c 0 C). assert (Y := C63_round_trip [] d 0 D).
  unfold context_apply in *. rewrite E in X. rewrite X in Y. inv Y. auto.
Qed.
Print Assumptions C63_injective.
Example C63_example : context_show (Context 67667974448284343 0 14576827793038113322513871894673895836 None 1) = lit "00-0af7651916cd43dd8448eb211c80319c-00f067aa0ba902b7-01" /\
  context_from_headers 7 [(TRACEPARENT, [lit "00-01-deadbeef-00"])] = Ok (Some (Context 7 0 1 (Some 3735928559) 0)).
Proof. vm_compute. auto. Qed.

(** ** C64 *)
(** With four fields or more the first value decides: all four numbers in range give a context, a bad version is a
    500 error, any other bad field a 400 error. *)
Theorem C64_texts_partial : forall h new vs v p0 p1 p2 p3 rest, h_get h TRACEPARENT = Some (v :: vs) ->
  split 45 v = p0 :: p1 :: p2 :: p3 :: rest ->
  (exists a b c d, hex_text p0 a /\ a < 2 ^ 8 /\ hex_text p1 b /\ b < 2 ^ 128 /\ hex_text p2 c /\ c < 2 ^ 64 /\ hex_text p3 d /\ d < 2 ^ 8 /\
     context_from_headers new h = Ok (Some (Context new a b (Some c) d))) \/
  ((forall a, hex_text p0 a -> 2 ^ 8 <= a) /\ context_from_headers new h = Err 500) \/
  (((forall b, hex_text p1 b -> 2 ^ 128 <= b) \/ (forall c, hex_text p2 c -> 2 ^ 64 <= c) \/ (forall d, hex_text p3 d -> 2 ^ 8 <= d)) /\
   context_from_headers new h = Err 400).
Proof.
  intros h new vs v p0 p1 p2 p3 rest H S. unfold context_from_headers. rewrite H. cbn [values_first bind]. unfold context_parse. rewrite S.
  unfold part, hex. cbn [nth_error unwrap bind].
  assert (M8 : u8_max + 1 = 2 ^ 8) by reflexivity. assert (M64 : u64_max + 1 = 2 ^ 64) by reflexivity. assert (M128 : u128_max + 1 = 2 ^ 128) by reflexivity.
  assert (X0 := parse_hex_spec u8_max p0). destruct (parse_uint 16 u8_max p0) as [a|]; cbn [ok_or bind].
  2: { right. left. split; [|reflexivity]. intros a A. destruct (N.lt_ge_cases a (2 ^ 8)); [|assumption]. assert (Q : a <= u8_max) by lia. assert (Y := proj2 (X0 a) (conj A Q)). discriminate. }
  assert (X1 := parse_hex_spec u128_max p1). destruct (parse_uint 16 u128_max p1) as [b|]; cbn [ok_or bind].
  2: { right. right. split; [|reflexivity]. left. intros b B. destruct (N.lt_ge_cases b (2 ^ 128)); [|assumption]. assert (Q : b <= u128_max) by lia. assert (Y := proj2 (X1 b) (conj B Q)). discriminate. }
  assert (X2 := parse_hex_spec u64_max p2). destruct (parse_uint 16 u64_max p2) as [c|]; cbn [ok_or bind].
  2: { right. right. split; [|reflexivity]. right. left. intros c C. destruct (N.lt_ge_cases c (2 ^ 64)); [|assumption]. assert (Q : c <= u64_max) by lia. assert (Y := proj2 (X2 c) (conj C Q)). discriminate. }
  assert (X3 := parse_hex_spec u8_max p3). destruct (parse_uint 16 u8_max p3) as [d|]; cbn [ok_or bind].
  2: { right. right. split; [|reflexivity]. right. right. intros d D. destruct (N.lt_ge_cases d (2 ^ 8)); [|assumption]. assert (Q : d <= u8_max) by lia. assert (Y := proj2 (X3 d) (conj D Q)). discriminate. }
  left. exists a, b, c, d. destruct (proj1 (X0 a) eq_refl), (proj1 (X1 b) eq_refl), (proj1 (X2 c) eq_refl), (proj1 (X3 d) eq_refl).
  repeat (split; [first [assumption|lia]|]). reflexivity.
Qed.
Print Assumptions C64_texts_partial.
(** With fewer fields it panics exactly when all the fields that are there are numbers of the right size. *)
Definition field_ok (i : nat) (p : str) : Prop :=
  exists n, hex_text p n /\ n < match i with 1%nat => 2 ^ 128 | 2%nat => 2 ^ 64 | _ => 2 ^ 8 end.
Theorem C64_short_panics : forall h new vs v, h_get h TRACEPARENT = Some (v :: vs) -> (length (split 45 v) < 4)%nat ->
  (context_from_headers new h = Panic <-> forall i p, nth_error (split 45 v) i = Some p -> field_ok i p) /\
  (context_from_headers new h = Panic \/ context_from_headers new h = Err 500 \/ context_from_headers new h = Err 400).
Proof.
  intros h new vs v H L. unfold context_from_headers. rewrite H. cbn [values_first bind]. unfold context_parse.
  assert (NE := split_nonempty 45 v). destruct (split 45 v) as [|p0 ps]; [congruence|]. clear NE H.
  assert (M8 : u8_max + 1 = 2 ^ 8) by reflexivity. assert (M64 : u64_max + 1 = 2 ^ 64) by reflexivity. assert (M128 : u128_max + 1 = 2 ^ 128) by reflexivity.
  assert (K : forall i p max st, max + 1 = match i with 1%nat => 2 ^ 128 | 2%nat => 2 ^ 64 | _ => 2 ^ 8 end ->
    (field_ok i p /\ exists n, hex max st p = Ok n) \/ (~ field_ok i p /\ hex max st p = Err st)).
  { intros i p max st M. unfold hex. assert (X := parse_hex_spec max p). destruct (parse_uint 16 max p) as [n|]; cbn [ok_or].
    - left. destruct (proj1 (X n) eq_refl) as [T B]. split; [|eexists; reflexivity]. exists n. split; [exact T|]. lia.
    - right. split; [|reflexivity]. intros (n & T & B). assert (Q : n <= max) by lia. assert (Y := proj2 (X n) (conj T Q)). discriminate. }
  change (part (p0 :: ps) 0) with (Ok p0). cbn [bind].
  destruct (K 0%nat p0 u8_max 500 ltac:(reflexivity)) as [[K0 (n0 & E0)]|[K0 E0]]; rewrite E0; cbn [bind];
    [|split; [split; [discriminate|intros A; elim K0; exact (A 0%nat p0 eq_refl)]|auto]].
  destruct ps as [|p1 ps].
  { change (part [p0] 1) with (@Panic str). cbn [bind]. split; [|auto]. split; [|reflexivity]. intros _ [|[|i]] p P; [inv P; exact K0|discriminate P|discriminate P]. }
  change (part (p0 :: p1 :: ps) 1) with (Ok p1). cbn [bind].
  destruct (K 1%nat p1 u128_max 400 ltac:(reflexivity)) as [[K1 (n1 & E1)]|[K1 E1]]; rewrite E1; cbn [bind];
    [|split; [split; [discriminate|intros A; elim K1; exact (A 1%nat p1 eq_refl)]|auto]].
  destruct ps as [|p2 ps].
  { change (part [p0; p1] 2) with (@Panic str). cbn [bind]. split; [|auto]. split; [|reflexivity]. intros _ [|[|[|i]]] p P; [inv P; exact K0|inv P; exact K1|discriminate P|discriminate P]. }
  change (part (p0 :: p1 :: p2 :: ps) 2) with (Ok p2). cbn [bind].
  destruct (K 2%nat p2 u64_max 400 ltac:(reflexivity)) as [[K2 (n2 & E2)]|[K2 E2]]; rewrite E2; cbn [bind];
    [|split; [split; [discriminate|intros A; elim K2; exact (A 2%nat p2 eq_refl)]|auto]].
  destruct ps as [|p3 ps]; [|cbn [length] in L; lia].
  change (part [p0; p1; p2] 3) with (@Panic str). cbn [bind]. split; [|auto]. split; [|reflexivity]. intros _ [|[|[|[|i]]]] p P; [inv P; exact K0|inv P; exact K1|inv P; exact K2|discriminate P|discriminate P].
Qed.
Print Assumptions C64_short_panics.
(** False of the code: a peer can make it panic, and a malformed version is reported as a server error. *)
Theorem C64_total_refuted : exists h1 h2, context_from_headers 0 h1 = Panic /\ context_from_headers 0 h2 = Err 500 /\
  h_get h1 TRACEPARENT = Some [lit "00"] /\ h_get h2 TRACEPARENT = Some [lit "zz-0af7651916cd43dd8448eb211c80319c-00f067aa0ba902b7-01"].
Proof.
  exists [(TRACEPARENT, [lit "00"])], [(TRACEPARENT, [lit "zz-0af7651916cd43dd8448eb211c80319c-00f067aa0ba902b7-01"])]. vm_compute. auto.
Qed.
Print Assumptions C64_total_refuted.
(** Accepted though the W3C grammar refuses it: signs, short fields, upper case, extra fields, zero ids. *)
Example C64_example : context_from_headers 5 [(TRACEPARENT, [lit "+F-0-0-FF-x-y"; lit "junk"])] = Ok (Some (Context 5 15 0 (Some 0) 255)) /\
  context_from_headers 5 [(TRACEPARENT, [lit "00-1-1"])] = Panic /\ context_from_headers 5 [(TRACEPARENT, [lit "00-1-g-00"])] = Err 400.
Proof. vm_compute. auto. Qed.

(** ** C65 *)
Theorem C65_child : forall new c, ctx_trace (child new c) = ctx_trace c /\ ctx_version (child new c) = ctx_version c /\
  ctx_flags (child new c) = ctx_flags c /\ ctx_parent (child new c) = Some (ctx_id c) /\ ctx_id (child new c) = new /\ sampled (child new c) = sampled c.
Proof. intros new c. cbn. auto 6. Qed.
Print Assumptions C65_child.
Lemma land_1_bit : forall n, N.land n 1 = if N.testbit n 0 then 1 else 0.
Proof.
  intros n. change (N.land n 1) with (N.land n (N.ones 1)). rewrite N.land_ones. change (2 ^ 1) with 2. rewrite <- N.bit0_mod.
  destruct (N.testbit n 0); reflexivity.
Qed.
Theorem C65_sampled_is_bit_0 : forall c, sampled c = N.testbit (ctx_flags c) 0.
Proof. intros c. unfold sampled. rewrite land_1_bit. destruct (N.testbit (ctx_flags c) 0); reflexivity. Qed.
Print Assumptions C65_sampled_is_bit_0.
Theorem C65_set_sampled : forall c b, sampled (set_sampled c b) = b /\
  (forall i, 0 < i -> N.testbit (ctx_flags (set_sampled c b)) i = N.testbit (ctx_flags c) i) /\
  ctx_id (set_sampled c b) = ctx_id c /\ ctx_version (set_sampled c b) = ctx_version c /\ ctx_trace (set_sampled c b) = ctx_trace c /\
  ctx_parent (set_sampled c b) = ctx_parent c.
Proof.
  intros c b. split; [|split; [|cbn; auto]].
  - rewrite C65_sampled_is_bit_0. cbn [set_sampled ctx_flags]. rewrite N.lxor_spec, N.land_spec, N.lxor_spec.
    change (N.testbit 1 0) with true. rewrite andb_true_r. destruct b; [change (N.testbit 1 0) with true|change (N.testbit 0 0) with false];
    destruct (N.testbit (ctx_flags c) 0); reflexivity.
  - intros i I. cbn [set_sampled ctx_flags]. rewrite N.lxor_spec, N.land_spec.
    assert (E : N.testbit 1 i = false). { destruct i as [|p]; [lia|]. destruct p; reflexivity. }
    rewrite E, andb_false_r. apply xorb_false_r.
Qed.
Print Assumptions C65_set_sampled.
(** The flags stay one byte. *)
Theorem C65_stays_in_types : forall c b new, in_types c -> new < 2 ^ 64 -> in_types (set_sampled c b) /\ in_types (child new c).
Proof.
  intros c b new (I & V & T & F & P) B. split; [|unfold in_types; cbn; auto]. unfold in_types. cbn [set_sampled ctx_id ctx_version ctx_trace ctx_parent].
  split; [exact I|]. split; [exact V|]. split; [exact T|]. split; [|exact P].
  assert (Z : forall x, x < 2 ^ 8 <-> forall i, 8 <= i -> N.testbit x i = false).
  { intros x. split.
    - intros L i H. destruct (N.eq_dec x 0) as [->|N0]; [apply N.bits_0|]. apply N.bits_above_log2.
      assert (N.log2 x < 8) by (apply N.log2_lt_pow2; lia). lia.
    - intros A. destruct (N.lt_ge_cases x (2 ^ 8)) as [|G]; [assumption|]. exfalso.
      assert (L : 8 <= N.log2 x) by (apply N.log2_le_pow2; [|exact G]; change (2 ^ 8) with 256 in G; lia).
      specialize (A _ L). rewrite N.bit_log2 in A; [discriminate|]. change (2 ^ 8) with 256 in G. lia. }
  apply Z. intros i H. destruct (C65_set_sampled c b) as (_ & S & _). rewrite S by lia. now apply Z.
Qed.
Print Assumptions C65_stays_in_types.
(** A new context is sampled, has no parent, version 0. *)
Theorem C65_new : forall id trace, let c := context_new id trace in
  sampled c = true /\ ctx_parent c = None /\ ctx_version c = 0 /\ ctx_id c = id /\ ctx_trace c = trace.
Proof. intros. cbn. auto. Qed.
Print Assumptions C65_new.
Example C65_example : ctx_flags (set_sampled (Context 1 0 2 None 255) false) = 254 /\ ctx_flags (set_sampled (Context 1 0 2 None 6) true) = 7 /\
  child 9 (context_new 3 4) = Context 9 0 4 (Some 3) 1.
Proof. vm_compute. auto. Qed.
