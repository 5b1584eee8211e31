(** C91: values relative to the clock. *)
From Coq Require Import ZifyBool ZifyNat ZifyN.
From Verif Require Import Base BaseFacts Headers Typed TypedFacts HttpDate Cache Other OtherProps Clock.
Local Open Scope Z_scope.

(** ** Facts *)
(** A [Duration] as std builds them. *)
Definition proper (d : duration) : Prop := (nanos d < 1000000000)%N.
Lemma span_nonneg : forall d, 0 <= span d.
Proof. intros [s n]. unfold span, NANOS. cbn [secs nanos]. lia. Qed.
Lemma of_span_span : forall n, 0 <= n -> span (of_span n) = n /\ proper (of_span n).
Proof.
  intros n P. unfold span, of_span, proper, NANOS. cbn [secs nanos].
  assert (M := Z.mod_pos_bound n 1000000000 ltac:(lia)). assert (D := Z.div_mod n 1000000000 ltac:(lia)).
  assert (0 <= n / 1000000000) by (apply Z.div_pos; lia).
  rewrite !Z2N.id by lia. lia.
Qed.
Lemma span_inj : forall a b, proper a -> proper b -> span a = span b -> a = b.
Proof.
  intros [s n] [s' n'] P Q. unfold span, proper, NANOS in *. cbn [secs nanos] in *. intros E. f_equal; lia.
Qed.
Lemma duration_cmp_span : forall a b, proper a -> proper b -> duration_cmp a b = Z.compare (span a) (span b).
Proof.
  intros [s n] [s' n'] P Q. unfold span, proper, NANOS, duration_cmp in *. cbn [secs nanos] in *.
  destruct (N.compare_spec s s') as [->|L|L].
  - destruct (N.compare_spec n n') as [->|L|L]; symmetry.
    + apply Z.compare_refl.
    + apply Z.compare_lt_iff. lia.
    + apply Z.compare_gt_iff. lia.
  - symmetry. apply Z.compare_lt_iff. lia.
  - symmetry. apply Z.compare_gt_iff. lia.
Qed.

Section Clock.
  Context (latest : Z).

  (** What to wait for, when it can be held: a delay counts from the clock, a date is itself; the answer is the
      exact distance from [earlier], as an error when [earlier] is later. *)
  Definition due (now : systime) (r : retry) : Z := match r with After d => now + span d | At t => t end.
  Theorem C91_wait : forall now r earlier, (forall d, r = After d -> now + span d <= latest) ->
    exists w, proper w /\
      ((earlier <= due now r /\ retry_since latest now r earlier = Ok (inl w) /\ earlier + span w = due now r) \/
       (due now r < earlier /\ retry_since latest now r earlier = Ok (inr w) /\ due now r + span w = earlier)).
  Proof.
    intros now r earlier F. unfold retry_since.
    assert (E : retry_instant latest now r = Ok (due now r)).
    { destruct r as [d|t]; [|reflexivity]. cbn [retry_instant due]. unfold instant_add. specialize (F d eq_refl).
      destruct (Z.leb_spec (now + span d) latest); [reflexivity|lia]. }
    rewrite E. cbn [bind]. unfold instant_since. set (t := due now r). destruct (Z.leb_spec earlier t) as [L|L].
    - destruct (of_span_span (t - earlier)) as [S P]; [lia|]. exists (of_span (t - earlier)). split; [exact P|]. left. repeat split; lia.
    - destruct (of_span_span (earlier - t)) as [S P]; [lia|]. exists (of_span (earlier - t)). split; [exact P|]. right. repeat split; lia.
  Qed.
  (** A caller who reads the clock first never waits less than the delay, and exactly the delay if the clock has
      not moved since; if the clock was set back in between, the wait is shorter or an error. *)
  Theorem C91_never_early : forall now d earlier w, proper d ->
    retry_since latest now (After d) earlier = Ok (inl w) ->
    (earlier <= now -> span d <= span w) /\ (earlier = now -> w = d) /\ (now < earlier -> span w < span d).
  Proof.
    intros now d earlier w P. unfold retry_since, retry_instant, instant_add, instant_since.
    destruct (now + span d <=? latest); cbn [bind]; [|discriminate].
    destruct (Z.leb_spec earlier (now + span d)) as [L|L]; [|discriminate].
    intros E. inv E. destruct (of_span_span (now + span d - earlier)) as [S Q]; [lia|]. rewrite S.
    split; [lia|]. split; [|lia]. intros ->. apply span_inj; [exact Q|exact P|]. rewrite S. lia.
  Qed.
  (** The only way to panic: a delay that ends after the last instant of the platform. *)
  Theorem C91_panic_iff : forall now r earlier,
    (retry_since latest now r earlier = Panic <-> exists d, r = After d /\ latest < now + span d) /\
    (retry_instant latest now r = Panic <-> exists d, r = After d /\ latest < now + span d) /\
    (forall e, retry_since latest now r earlier <> Err e).
  Proof.
    intros now [d|t] earlier; unfold retry_since, retry_instant, instant_add.
    - destruct (Z.leb_spec (now + span d) latest) as [L|L]; cbn [bind].
      + split; [|split; [|discriminate]]; (split; [discriminate|]; intros (d' & X & G); inv X; lia).
      + split; [|split; [|discriminate]]; (split; [|reflexivity]; intros _; exists d; auto).
    - cbn [bind]. split; [|split; [|discriminate]]; (split; [discriminate|]; intros (d' & X & G); discriminate).
  Qed.
  (** [Expires::new]: the clock plus the duration; written and read back it is at most a second early, never late. *)
  Theorem C91_expires : forall now d h, 0 <= now -> now + span d < 253402300800 * NANOS -> now + span d <= latest ->
    exists t h' t', expires_new latest now d = Ok t /\ date_apply Expires h t = Ok h' /\
      date_from_headers Expires h' = Ok (Some t') /\ t = now + span d /\ t' <= t < t' + NANOS /\
      (exists n, t' = n * NANOS).
  Proof.
    intros now d h P R F. exists (now + span d). unfold expires_new, instant_add.
    destruct (Z.leb_spec (now + span d) latest) as [_|X]; [|lia]. assert (S := span_nonneg d). unfold NANOS in *.
    destruct (C72_round_trip Expires h (now + span d)) as (h' & A & B); [unfold in_range; lia|].
    exists h', (whole_seconds (now + span d)). unfold whole_seconds in *. set (t := now + span d) in *.
    assert (M := Z.mod_pos_bound t 1000000000 ltac:(lia)). assert (D := Z.div_mod t 1000000000 ltac:(lia)).
    repeat split; auto; try lia. eexists. reflexivity.
  Qed.
  (** False as a general rule: a duration that fits a [Duration] makes [Expires::new] panic. *)
  Theorem C91_expires_panics : forall now d, expires_new latest now d = Panic <-> latest < now + span d.
  Proof.
    intros now d. unfold expires_new, instant_add. destruct (Z.leb_spec (now + span d) latest); split; try discriminate; try lia; reflexivity.
  Qed.
End Clock.
Print Assumptions C91_wait.
Print Assumptions C91_never_early.
Print Assumptions C91_panic_iff.
Print Assumptions C91_expires.
Print Assumptions C91_expires_panics.

(** False of the code: that a value which was read can be used.  On Unix a server that sends
    [Retry-After: 18446744073709551615] is read without an error, and every use of the value panics, whatever the
    clock shows. *)
Theorem C91_usable_refuted : exists h r, retry_from_headers h = Ok (Some r) /\
  forall now earlier, 0 <= now -> retry_since unix_latest now r earlier = Panic /\ retry_instant unix_latest now r = Panic.
Proof.
  exists [(RETRY_AFTER, [lit "18446744073709551615"])], (After (from_secs 18446744073709551615)).
  split; [vm_compute; reflexivity|]. intros now earlier P.
  destruct (C91_panic_iff unix_latest now (After (from_secs 18446744073709551615)) earlier) as (A & B & _).
  assert (X : exists d, After (from_secs 18446744073709551615) = After d /\ unix_latest < now + span d).
  { eexists. split; [reflexivity|]. unfold unix_latest, span, NANOS. cbn [secs nanos from_secs]. lia. }
  split; [apply A|apply B]; exact X.
Qed.
Print Assumptions C91_usable_refuted.
(** Exactly which values read from a header can be used on Unix, for a clock between 1970 and 9999: every date, and
    the delays that end before the 64-bit seconds do. *)
Theorem C91_usable : forall h r now earlier, retry_from_headers h = Ok (Some r) -> 0 <= now < 253402300800 * NANOS ->
  (retry_since unix_latest now r earlier <> Panic <->
   match r with After d => now / NANOS + Z.of_N (secs d) < 2 ^ 63 | At _ => True end).
Proof.
  intros h r now earlier H R. assert (Z0 : forall d, r = After d -> nanos d = 0%N).
  { intros d ->. unfold retry_from_headers, with_last in H. destruct (h_get h RETRY_AFTER) as [vs|]; [|discriminate].
    destruct (values_last vs) as [v| |]; try discriminate. cbn [bind] in H. unfold retry_parse in H. destruct (parse_uint 10 u64_max v) as [n|]; cbn [bind] in H; [now inv H|].
    destruct (parse_http_date v); discriminate. }
  destruct (C91_panic_iff unix_latest now r earlier) as (A & _).
  assert (M := Z.mod_pos_bound now 1000000000 ltac:(lia)). assert (D := Z.div_mod now 1000000000 ltac:(lia)).
  unfold unix_latest, NANOS in *. split.
  - intros N. destruct r as [d|t]; [|exact I]. destruct (Z.lt_ge_cases (now / 1000000000 + Z.of_N (secs d)) (2 ^ 63)) as [|G]; [assumption|].
    exfalso. apply N. apply A. exists d. split; [reflexivity|]. unfold span, NANOS. lia.
  - intros L P. apply A in P as (d & -> & G). unfold span, NANOS in G. rewrite (Z0 d eq_refl) in G. lia.
Qed.
Print Assumptions C91_usable.
(** The derived order of Retry-After values agrees with the instants they stand for, within each kind ... *)
Theorem C91_order_partial : forall now a b,
  match a, b with After d, After e => proper d /\ proper e | At _, At _ => True | _, _ => False end ->
  retry_cmp a b = Z.compare (due now a) (due now b).
Proof.
  intros now [d|t] [e|u] H; try contradiction; cbn [retry_cmp due].
  - destruct H as [P Q]. rewrite duration_cmp_span by assumption.
    destruct (Z.compare_spec (span d) (span e)); symmetry; [apply Z.compare_eq_iff|apply Z.compare_lt_iff|apply Z.compare_gt_iff]; lia.
  - reflexivity.
Qed.
Print Assumptions C91_order_partial.
(** ... but not across kinds: every delay comes before every date. *)
Theorem C91_order_refuted : exists a b, retry_cmp a b = Lt /\ forall now, 0 <= now -> due now b < due now a.
Proof.
  exists (After (from_secs 3600)), (At (10 * NANOS)). split; [reflexivity|]. intros now P.
  unfold due, span, NANOS. cbn [secs nanos from_secs]. lia.
Qed.
Print Assumptions C91_order_refuted.

(** It is a total order all the same: opposite when the sides are swapped, transitive, and equal only for equal values. *)
Theorem C91_total_order : forall a b c, retry_cmp b a = CompOpp (retry_cmp a b) /\ (retry_cmp a b = Eq <-> a = b) /\
  (retry_cmp a b <> Gt -> retry_cmp b c <> Gt -> retry_cmp a c <> Gt).
Proof.
  assert (E : forall d e, duration_cmp d e = Eq <-> d = e).
  { intros [s n] [s' n']. unfold duration_cmp. cbn [secs nanos]. destruct (N.compare_spec s s') as [->|L|L].
    - destruct (N.compare_spec n n') as [->|M|M]; split; congruence || (intros X; inv X; lia).
    - split; [discriminate|]. intros X. inv X. lia.
    - split; [discriminate|]. intros X. inv X. lia. }
  intros a b c. repeat split.
  - destruct a as [[s n]|t]; destruct b as [[s' n']|t']; try reflexivity; cbn [retry_cmp]; [|apply Z.compare_antisym].
    unfold duration_cmp. cbn [secs nanos]. rewrite (N.compare_antisym s s'). destruct (N.compare s s'); cbn [CompOpp]; [apply N.compare_antisym|reflexivity|reflexivity].
  - destruct a; destruct b; cbn [retry_cmp]; try discriminate; [intros X; apply E in X; congruence|intros X; apply Z.compare_eq_iff in X; congruence].
  - intros <-. destruct a; cbn [retry_cmp]; [now apply E|apply Z.compare_refl].
  - destruct a as [[s n]|t]; destruct b as [[s' n']|t']; destruct c as [[s'' n'']|t'']; cbn [retry_cmp]; try congruence.
    + unfold duration_cmp. cbn [secs nanos]. destruct (N.compare_spec s s'); destruct (N.compare_spec s' s''); destruct (N.compare_spec s s''); try congruence; try lia;
        rewrite ?N.compare_gt_iff; destruct (N.compare_spec n n'); destruct (N.compare_spec n' n''); destruct (N.compare_spec n n''); try congruence; lia.
    + destruct (Z.compare_spec t t'); destruct (Z.compare_spec t' t''); destruct (Z.compare_spec t t''); try congruence; lia.
Qed.
Print Assumptions C91_total_order.

(** Two parsed dates compare as the instants they denote; the day of the week does not count. *)
Theorem C91_dates_compare : forall s1 s2 d1 d2 t1 t2, date_from_str s1 = Ok d1 -> date_from_str s2 = Ok d2 ->
  parse_http_date s1 = Ok t1 -> parse_http_date s2 = Ok t2 ->
  http_date_cmp d1 d2 = Ok (Z.compare t1 t2) /\ http_date_eqb d1 d2 = Ok (t1 =? t2) /\
  (http_date_eqb d1 d2 = Ok true <-> http_date_cmp d1 d2 = Ok Eq).
Proof.
  intros s1 s2 d1 d2 t1 t2 E1 E2. unfold parse_http_date, http_date_cmp, http_date_eqb. rewrite E1, E2. cbn [bind].
  destruct (systime_of_date d1) as [x| |]; try discriminate. destruct (systime_of_date d2) as [y| |]; try discriminate.
  cbn [with_status bind]. intros A B. inv A. inv B. split; [reflexivity|]. split; [reflexivity|].
  destruct (Z.eqb_spec t1 t2) as [->|N].
  - rewrite Z.compare_refl. split; reflexivity.
  - split; [discriminate|]. intros X. injection X as X. apply Z.compare_eq_iff in X. contradiction.
Qed.
Print Assumptions C91_dates_compare.
Example C91_example :
  retry_since unix_latest (100 * NANOS) (After (Dur 5 500000000)) (98 * NANOS) = Ok (inl (Dur 7 500000000)) /\
  retry_since unix_latest (100 * NANOS) (At (90 * NANOS)) (98 * NANOS + 1) = Ok (inr (Dur 8 1)) /\
  retry_since unix_latest (100 * NANOS) (After (from_secs (2 ^ 63 - 101))) 0 = Ok (inl (from_secs (2 ^ 63 - 1))) /\
  retry_since unix_latest (100 * NANOS) (After (from_secs (2 ^ 63 - 100))) 0 = Panic /\
  expires_new unix_latest 0 (from_secs (2 ^ 63)) = Panic /\
  (let* a := date_from_str (lit "Sun, 06 Nov 1994 08:49:37 GMT") in
   let* b := date_from_str (lit "Mon, 06 Nov 1994 08:49:37 GMT") in http_date_eqb a b) = Ok true.
Proof. vm_compute. auto 10. Qed.
