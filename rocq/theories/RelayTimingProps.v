(** C117: the metrics of a Server-Timing header on their way through many programs that read them and write them again. *)
From Coq Require Import ZifyBool ZifyNat ZifyN Lia.
From Verif Require Import Base BaseFacts Headers HeadersFacts Typed TypedFacts Float FloatFacts Cache Timing TimingProps TimingExactProps.

(** What every release of the standard library keeps to, whether it cuts or rounds: [Duration::from_secs_f64] is less than
    a nanosecond off. *)
Definition near_contract (nanos_of : N -> N) : Prop := forall v,
  nanos_of v * U < v * 1000000000 + U /\ v * 1000000000 < nanos_of v * U + U.
Lemma U_pos : 0 < U.
Proof. unfold U, one. apply pow2_pos. Qed.
Lemma cut_near : near_contract cut_nanos.
Proof.
  intros v. unfold cut_nanos. fold U. assert (P := U_pos). generalize (v * 1000000000). intros x.
  assert (E := N.div_mod x U ltac:(lia)). assert (L := N.mod_lt x U ltac:(lia)). rewrite (N.mul_comm U) in E. clear v.
  generalize dependent (x / U * U). generalize dependent (x mod U). generalize dependent U. intros. lia.
Qed.
Lemma round_near : near_contract round_nanos.
Proof.
  intros v. unfold round_nanos. assert (P := U_pos). generalize (v * 1000000000). intros x. destruct (rhe_bounds x U P) as [A B].
  generalize dependent (rhe x U). generalize dependent U. intros. lia.
Qed.

(** The length of a duration in nanoseconds. *)
Definition total (d : duration) : N := secs d * 1000000000 + nanos d.
Definition short (d : duration) : Prop := secs d < 4096 /\ nanos d < 1000000000.

(** The number written for a short duration is within half a picosecond of it. *)
Lemma short_near : forall s n, s < 4096 -> n < 1000000000 ->
  let v := as_millis (Dur s n) in let t := 1000 * (s * 1000000000 + n) in
  v < 2 ^ 64 * U /\ 2 * (v * 1000000000) < 2 * (t * U) + U /\ 2 * (t * U) < 2 * (v * 1000000000) + U.
Proof.
  intros s n S Hn. cbv zeta. unfold as_millis, as_secs_f64. cbn [secs nanos].
  rewrite (round_exact s 0 s 1) by (change (2 ^ 0) with 1; lia). rewrite (round_exact 1000 0 1000 1) by (change (2 ^ 0) with 1; lia).
  change (2 ^ 0) with 1. fold U. rewrite !N.mul_1_r.
  assert (B := ratio_err n 1000000000 0 ltac:(lia) ltac:(lia) ltac:(change (2 ^ 0) with 1; lia)). cbv zeta in B. set (b := f64_of_ratio n 1000000000) in *.
  change (0 + 1020) with 1020 in B.
  assert (UW : U = 18014398509481984 * 2 ^ 1020) by (unfold U, one; change (unit f64_format) with (54 + 1020); rewrite N.pow_add_r; reflexivity).
  assert (W12 : 2 ^ (12 + 1020) = 4096 * 2 ^ 1020) by (rewrite N.pow_add_r; reflexivity).
  assert (W22 : 2 ^ (22 + 1020) = 4194304 * 2 ^ 1020) by (rewrite N.pow_add_r; reflexivity).
  assert (PW := pow2_pos 1020). remember (2 ^ 1020) as W eqn:EW. clear EW. clearbody b.
  assert (PU : 0 < U) by lia.
  assert (SU : s * U <= 4095 * U) by (apply N.mul_le_mono_r; lia).
  assert (NU : n * U <= 999999999 * U) by (apply N.mul_le_mono_r; lia).
  unfold f64_add. fold U.
  assert (L1 : s * U + b < U * 2 ^ 12) by (change (2 ^ 12) with 4096; lia).
  assert (A := ratio_err (s * U + b) U 12 PU ltac:(lia) L1). cbv zeta in A. set (a := f64_of_ratio (s * U + b) U) in *. clearbody a.
  rewrite W12 in A.
  assert (A1 : a <= s * U + b + 4096 * W).
  { destruct A as [A _]. apply (N.mul_le_mono_pos_r _ _ U); [exact PU|]. rewrite (N.mul_comm U (4096 * W)), <- N.mul_add_distr_r in A. exact A. }
  assert (A2 : s * U + b <= a + 4096 * W).
  { destruct A as [_ A]. apply (N.mul_le_mono_pos_r _ _ U); [exact PU|]. rewrite (N.mul_comm U (4096 * W)), <- N.mul_add_distr_r in A. exact A. }
  clear A. unfold f64_mul. fold U.
  assert (PUU : 0 < U * U) by (apply N.mul_pos_pos; exact PU).
  assert (L2 : a * (1000 * U) < U * U * 2 ^ 22).
  { change (2 ^ 22) with 4194304. replace (U * U * 4194304) with ((4194304 * U) * U) by lia. replace (a * (1000 * U)) with ((1000 * a) * U) by lia.
    apply N.mul_lt_mono_pos_r; [exact PU|]. lia. }
  assert (M := ratio_err (a * (1000 * U)) (U * U) 22 PUU ltac:(lia) L2). cbv zeta in M. set (v := f64_of_ratio (a * (1000 * U)) (U * U)) in *. clearbody v.
  rewrite W22 in M. replace (a * (1000 * U) * U) with (1000 * a * (U * U)) in M by lia. rewrite (N.mul_comm (U * U) (4194304 * W)), <- !N.mul_add_distr_r in M.
  destruct M as [M1 M2]. apply (N.mul_le_mono_pos_r _ _ (U * U)) in M1; [|exact PUU]. apply (N.mul_le_mono_pos_r _ _ (U * U)) in M2; [|exact PUU].
  change (2 ^ 64) with 18446744073709551616.
  replace (1000 * (s * 1000000000 + n) * U) with (1000000000000 * (s * U) + 1000 * (n * U)) by lia. split; [lia|]. split; lia.
Qed.

Section Relay.
  Context (show_f64 : N -> str) (nanos_of : N -> N).

  (** A duration written and read once. *)
  Definition hop (d : duration) : duration := of_nanos (nanos_of (as_millis d) / 1000).

  (** One reading and writing never lengthens a short duration and takes at most a nanosecond off it. *)
  Theorem C117_hop : near_contract nanos_of -> forall d, short d ->
    total (hop d) <= total d /\ total d <= total (hop d) + 1 /\ short (hop d) /\ as_millis d < 2 ^ 64 * one f64_format.
  Proof using nanos_of.
    clear show_f64. intros C [s n] [S Hn]. cbn [secs nanos] in S, Hn. destruct (short_near s n S Hn) as (A & B1 & B2). cbv zeta in *. fold U.
    unfold hop. set (v := as_millis (Dur s n)) in *. destruct (C v) as [C1 C2]. set (w := nanos_of v) in *.
    assert (P := U_pos). change (total (Dur s n)) with (s * 1000000000 + n). set (t := s * 1000000000 + n) in *.
    assert (W : 1000 * t <= w + 1 /\ w <= 1000 * t + 1).
    { clearbody v w t. clear A. generalize dependent U. intros u B1 B2 C1 C2 P. generalize dependent (v * 1000000000). intros x B1 B2 C1 C2. nia. }
    assert (Q : w / 1000 <= t /\ t <= w / 1000 + 1).
    { clearbody w t. assert (E := N.div_mod w 1000 ltac:(lia)). assert (L := N.mod_lt w 1000 ltac:(lia)). lia. }
    clear W C1 C2 B1 B2.
    assert (T : forall x, total (of_nanos x) = x /\ (x < 4096 * 1000000000 -> short (of_nanos x))).
    { intros x. unfold total, short, of_nanos. cbn [secs nanos]. assert (E := N.div_mod x 1000000000 ltac:(lia)). assert (L := N.mod_lt x 1000000000 ltac:(lia)). lia. }
    destruct (T (w / 1000)) as [T1 T2]. rewrite T1. split; [apply Q|]. split; [apply Q|]. split; [|exact A]. apply T2. unfold t in Q. lia.
  Qed.

  Fixpoint hops (k : nat) (d : duration) : duration := match k with O => d | S k => hop (hops k d) end.
  (** [k] of them take at most [k] nanoseconds off. *)
  Theorem C117_hops : near_contract nanos_of -> forall k d, short d ->
    total (hops k d) <= total d /\ total d <= total (hops k d) + N.of_nat k /\ short (hops k d).
  Proof using nanos_of.
    clear show_f64. intros C k d Hd. induction k as [|k (A & B & D)]; cbn [hops]; [split; [lia|split; [lia|exact Hd]]|].
    destruct (C117_hop C _ D) as (E & F & G & _). split; [lia|]. split; [lia|exact G].
  Qed.
  (** The loss ends: from some point on nothing changes any more. *)
  Theorem C117_settles : near_contract nanos_of -> forall d, short d ->
    exists k, N.of_nat k <= total d /\ forall j, hops (k + j) d = hops k d.
  Proof using nanos_of.
    clear show_f64. intros C.
    assert (I : forall m d, total d <= N.of_nat m -> short d -> exists k, N.of_nat k <= total d /\ forall j, hops (k + j) d = hops k d).
    { assert (INJ : forall a b, short a -> short b -> total a = total b -> a = b).
      { intros [s1 n1] [s2 n2] [A1 A2] [B1 B2] E. unfold total in E. cbn [secs nanos] in *. f_equal; lia. }
      assert (COM : forall k d, hops k (hop d) = hop (hops k d)) by (induction k as [|k IH]; intros d; cbn [hops]; [reflexivity|now rewrite IH]).
      assert (FIX : forall d, short d -> total (hop d) = total d -> forall j, hops (0 + j) d = hops 0 d).
      { intros d Hd E j. destruct (C117_hop C d Hd) as (_ & _ & G & _). apply INJ in E; [|exact G|exact Hd]. cbn [plus hops].
        induction j as [|j IH]; cbn [hops]; [reflexivity|now rewrite IH]. }
      induction m as [|m IH]; intros d L Hd; destruct (C117_hop C d Hd) as (A & B & G & _).
      - exists O. split; [lia|]. apply FIX; [exact Hd|lia].
      - destruct (N.eq_dec (total (hop d)) (total d)) as [E|E]; [exists O; split; [lia|now apply FIX]|].
        destruct (IH (hop d) ltac:(lia) G) as (k & K & J). exists (S k). split; [lia|]. intros j. specialize (J j).
        rewrite !COM in J. exact J. }
    intros d Hd. apply (I (N.to_nat (total d))); [lia|exact Hd].
  Qed.

  (** [hs] are the headers the next programs put the metrics into, one after another. *)
  Fixpoint relay (hs : list headers) (h : headers) : outcome headers :=
    match hs with
    | [] => Ok h
    | h' :: hs => let* o := timing_from_headers nanos_of h in
        match o with Some ms => relay hs (timing_apply show_f64 h' ms) | None => relay hs h' end
    end.
  (** What may have become of a metric: same name, same description, and at most [k] nanoseconds less. *)
  Definition aged (k : N) (m m' : metric) : Prop := m_name m' = m_name m /\ m_desc m' = m_desc m /\
    match m_dur m, m_dur m' with
    | Some d, Some d' => total d' <= total d /\ total d <= total d' + k
    | None, None => True
    | _, _ => False
    end.
  Definition ready (m : metric) : Prop := text_ok m /\ forall d, m_dur m = Some d -> short d.

  Theorem C117_relay : show_contract show_f64 -> near_contract nanos_of -> forall hs h ms, ms <> [] -> Forall ready ms ->
    exists h' ms', relay hs (timing_apply show_f64 h ms) = Ok h' /\ timing_from_headers nanos_of h' = Ok (Some ms') /\
      Forall2 (aged (1 + N.of_nat (length hs))) ms ms'.
  Proof.
    intros SC C. assert (R1 : forall h ms, ms <> [] -> Forall ready ms ->
      timing_from_headers nanos_of (timing_apply show_f64 h ms) = Ok (Some (map (read_back nanos_of) ms))).
    { intros h ms N F. apply C66_round_trip_partial; [exact SC|exact N|]. rewrite Forall_forall in *. intros m I. destruct (F m I) as ((A1 & A2 & A3 & A4) & D).
      unfold writable. repeat apply conj; auto. intros d E. destruct (C117_hop C d (D d E)) as (_ & _ & _ & L). exact L. }
    assert (R2 : forall ms, Forall ready ms -> Forall ready (map (read_back nanos_of) ms) /\ Forall2 (aged 1) ms (map (read_back nanos_of) ms)).
    { induction ms as [|m ms IH]; intros F; [split; constructor|]. inversion F as [|? ? [W D] F']; subst. destruct (IH F') as [A B]. cbn [map]. destruct m as [nm du de].
      unfold read_back at 1 3. cbn [m_name m_dur m_desc] in *. split; constructor; try assumption.
      - split; [exact W|]. cbn [m_dur]. intros d E. destruct du as [d0|]; [|discriminate E]. inv E. exact (proj1 (proj2 (proj2 (C117_hop C d0 (D d0 eq_refl))))).
      - unfold aged. cbn [m_name m_dur m_desc]. split; [reflexivity|]. split; [reflexivity|]. destruct du as [d0|]; [|exact I].
        destruct (C117_hop C d0 (D d0 eq_refl)) as (X & Y & _). split; [exact X|exact Y]. }
    assert (TR : forall k l a b c, Forall2 (aged k) a b -> Forall2 (aged l) b c -> Forall2 (aged (k + l)) a c).
    { induction a as [|x a IH]; intros b c F G; inversion F as [|? y ? b' X F']; subst; inversion G as [|? z ? c' Y G']; subst; constructor; [|now apply (IH b')].
      destruct X as (X1 & X2 & X3), Y as (Y1 & Y2 & Y3). unfold aged. rewrite Y1, X1, Y2, X2. split; [reflexivity|]. split; [reflexivity|].
      destruct (m_dur x), (m_dur y), (m_dur z); try contradiction; [lia|exact I]. }
    induction hs as [|h' hs IH]; intros h ms N F.
    - exists (timing_apply show_f64 h ms), (map (read_back nanos_of) ms). split; [reflexivity|]. split; [now apply R1|]. now apply R2.
    - cbn [relay]. rewrite (R1 h ms N F). cbn [bind]. destruct (R2 ms F) as [F1 A1].
      destruct (IH h' (map (read_back nanos_of) ms)) as (h'' & ms' & E1 & E2 & E3); [destruct ms; [congruence|discriminate]|exact F1|].
      exists h'', ms'. split; [exact E1|]. split; [exact E2|]. cbn [length]. replace (1 + N.of_nat (S (length hs))) with (1 + (1 + N.of_nat (length hs))) by lia. now apply (TR _ _ _ (map (read_back nanos_of) ms)).
  Qed.

  (** With a conversion that rounds to the nearest nanosecond no program on the way changes anything. *)
  Theorem C117_exact : show_contract show_f64 -> round_contract nanos_of -> forall hs h ms, ms <> [] -> Forall ready ms ->
    exists h', relay hs (timing_apply show_f64 h ms) = Ok h' /\ timing_from_headers nanos_of h' = Ok (Some ms).
  Proof.
    intros SC C. assert (R1 : forall h ms, ms <> [] -> Forall ready ms -> timing_from_headers nanos_of (timing_apply show_f64 h ms) = Ok (Some ms)).
    { intros h ms N F. apply C66_round_trip_iff; [exact SC|]. split; [exact N|]. rewrite Forall_forall in *. intros m I. destruct (F m I) as (A & D). split; [exact A|].
      unfold dur_back. intros d E. specialize (D d E). destruct d as [s n]. destruct D as [D1 D2]. exact (C66_short_durations nanos_of C s n D1 D2). }
    induction hs as [|h' hs IH]; intros h ms N F.
    - exists (timing_apply show_f64 h ms). split; [reflexivity|now apply R1].
    - cbn [relay]. rewrite (R1 h ms N F). cbn [bind]. now apply IH.
  Qed.
End Relay.
Print Assumptions C117_hop.
Print Assumptions C117_hops.
Print Assumptions C117_settles.
Print Assumptions C117_relay.
Print Assumptions C117_exact.

(** Both kinds of standard library meet what is asked of them. *)
Theorem C117_contracts : near_contract cut_nanos /\ near_contract round_nanos /\ round_contract round_nanos.
Proof. split; [exact cut_near|]. split; [exact round_near|exact round_nanos_ok]. Qed.
Print Assumptions C117_contracts.

(** FALSE: the loss stays within a nanosecond however many programs there are. *)
Theorem C117_one_loss_refuted : exists d, short d /\ total d = 1000999 /\ total (hops cut_nanos 5 d) = 1000994 /\
  forall j, hops cut_nanos (5 + j) d = hops cut_nanos 5 d.
Proof.
  exists (Dur 0 1000999). split; [split; reflexivity|]. split; [reflexivity|]. assert (E : hops cut_nanos 5 (Dur 0 1000999) = Dur 0 1000994) by (vm_compute; reflexivity).
  rewrite E. split; [reflexivity|]. induction j as [|j IH]; [exact E|]. replace (5 + S j)%nat with (S (5 + j)) by lia. change (hop cut_nanos (hops cut_nanos (5 + j) (Dur 0 1000999)) = Dur 0 1000994). rewrite IH. vm_compute. reflexivity.
Qed.
Print Assumptions C117_one_loss_refuted.

(** A metric with 1.000999 ms and a description meets the hypotheses. *)
Example C117_example : ready (Metric (lit "db") (Some (Dur 0 1000999)) (Some (lit "Read"))) /\ ready (Metric (lit "miss") None None).
Proof.
  split; (split; [unfold text_ok; cbn [m_name m_desc]; do 3 (split; [reflexivity|]); intros t E; inv E; repeat split; reflexivity|]); cbn [m_dur]; intros d E; inv E. split; reflexivity.
Qed.
