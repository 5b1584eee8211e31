(** C126: a service that is away sends its clients off with Retry-After.  The service and the client are written down here, the client as
    the documentation of src/other/retry_after.rs:29-31 tells; all times are in nanoseconds. *)
From Coq Require Import ZifyBool ZifyNat ZifyN Lia.
From Verif Require Import Base BaseFacts Headers HeadersFacts HttpDate Cache Other OtherProps Clock ClockProps.
Local Open Scope Z_scope.

(** How the service says when it is [back]: by [RetryAfter::new] with what is left, by [RetryAfter::new] with that rounded up to seconds,
    or by [RetryAfter::new_at]. *)
Inductive manner : Type := Left | RoundedUp | Instant.
Definition refusal (m : manner) (h : headers) (back t : systime) : outcome headers :=
  match m with
  | Left => match instant_since back t with inl d => retry_apply h (After d) | inr _ => Err 500 end
  | RoundedUp =>
      match instant_since back t with
      | inl d => retry_apply h (After (from_secs (if (nanos d =? 0)%N then secs d else secs d + 1)))
      | inr _ => Err 500
      end
  | Instant => retry_apply h (At back)
  end.
(** The client reads the header and sleeps for [duration_since(now)]; on the error, when that is over already, it does not sleep. *)
Definition pause (h : headers) (now : systime) : outcome Z :=
  let* r := retry_from_headers h in
  match r with
  | None => Ok 0
  | Some r => let* w := retry_since unix_latest now r now in Ok (match w with inl d => span d | inr _ => 0 end)
  end.
(** One refused request that arrived at [t]: the response is [fst lag] on its way, the clock of the client is ahead by [skew], the next
    request is [snd lag] on its way. *)
Definition next_arrival (m : manner) (h : headers) (back skew : Z) (lag : Z * Z) (t : systime) : outcome systime :=
  let* h' := refusal m h back t in
  let* w := pause h' (t + fst lag + skew) in
  Ok (t + fst lag + w + snd lag).
(** All requests of a client, the last one the first that is served, if the lags do not run out. *)
Fixpoint arrivals (m : manner) (h : headers) (back skew : Z) (lags : list (Z * Z)) (t : systime) : outcome (list systime) :=
  if back <=? t then Ok [t]
  else match lags with
       | [] => Ok [t]
       | lag :: lags' => let* t' := next_arrival m h back skew lag t in let* ts := arrivals m h back skew lags' t' in Ok (t :: ts)
       end.
Definition refused (back : Z) (ts : list systime) : nat := length (filter (fun t => t <? back) ts).

(** What each manner makes of one refusal.  The clock of the client matters for instants only. *)
Theorem C126_next : forall h back skew a b t, in_range back -> 0 <= t < back -> 0 <= a -> back + a + skew + NANOS <= unix_latest ->
  next_arrival Left h back skew (a, b) t = Ok (t + a + (back - t) / NANOS * NANOS + b) /\
  next_arrival RoundedUp h back skew (a, b) t = Ok (t + a - (t - back) / NANOS * NANOS + b) /\
  next_arrival Instant h back skew (a, b) t = Ok (Z.max (t + a) (back / NANOS * NANOS - skew) + b).
Proof.
  intros h back skew a b t R T A L. unfold NANOS in *.
  assert (I : instant_since back t = inl (of_span (back - t))) by (unfold instant_since; destruct (Z.leb_spec t back); [reflexivity|lia]).
  assert (W : forall n c h', c + Z.of_N n * 1000000000 <= unix_latest -> retry_from_headers h' = Ok (Some (After (from_secs n))) -> pause h' c = Ok (Z.of_N n * 1000000000)).
  { intros n c h' B E. unfold pause. rewrite E. cbn [bind]. assert (X : span (from_secs n) = Z.of_N n * 1000000000) by (unfold span, NANOS; cbn [secs nanos from_secs]; lia).
    destruct (C91_wait unix_latest c (After (from_secs n)) c) as (w & P & K); [intros d Y; inv Y; lia|].
    cbn [due] in K. rewrite X in K. destruct K as [(_ & K & Y)|(Y & _)]; [|lia]. rewrite K. cbn [bind]. f_equal. lia. }
  assert (G : forall n h1, Z.of_N n * 1000000000 < back - t + 1000000000 -> (n <= u64_max)%N -> retry_from_headers h1 = Ok (Some (After (from_secs n))) ->
     (let* w := pause h1 (t + a + skew) in Ok (t + a + w + b)) = Ok (t + a + Z.of_N n * 1000000000 + b)).
  { intros n h1 B U E. rewrite (W n (t + a + skew) h1 ltac:(lia) E). reflexivity. }
  unfold in_range in R. assert (D := Z.div_mod (back - t) 1000000000 ltac:(lia)). assert (M := Z.mod_pos_bound (back - t) 1000000000 ltac:(lia)).
  assert (Q : 0 <= (back - t) / 1000000000 < 253402300800) by (split; [apply Z.div_pos|apply Z.div_lt_upper_bound]; lia).
  set (q := (back - t) / 1000000000) in *. set (x := (back - t) mod 1000000000) in *.
  refine (conj _ (conj _ _)).
  - unfold next_arrival, refusal. rewrite I. destruct (C57_delay_round_trip h (of_span (back - t))) as (h1 & E1 & E2).
    + cbn [secs of_span]. unfold NANOS. fold q. unfold u64_max. lia.
    + rewrite E1. cbn [bind fst snd]. cbn [secs of_span] in E2. unfold NANOS in E2. fold q in E2. rewrite (G (Z.to_N q) h1 ltac:(lia) ltac:(unfold u64_max; lia) E2). f_equal. lia.
  - unfold next_arrival, refusal. rewrite I. cbn [secs nanos of_span]. unfold NANOS. fold q x.
    set (n := if (Z.to_N x =? 0)%N then Z.to_N q else (Z.to_N q + 1)%N).
    assert (Y : Z.of_N n = - ((t - back) / 1000000000)).
    { replace (t - back) with (- (back - t)) by lia. unfold n. destruct (N.eqb_spec (Z.to_N x) 0) as [E|E].
      - rewrite (Z.div_opp_l_z (back - t) 1000000000); [fold q; lia|lia|fold x; lia].
      - rewrite (Z.div_opp_l_nz (back - t) 1000000000); [fold q; lia|lia|fold x; lia]. }
    assert (B : Z.of_N n * 1000000000 < back - t + 1000000000 /\ (n <= u64_max)%N).
    { unfold n, u64_max. destruct (N.eqb_spec (Z.to_N x) 0); split; lia. }
    destruct (C57_delay_round_trip h (from_secs n)) as (h1 & E1 & E2); [apply B|].
    rewrite E1. cbn [bind fst snd]. rewrite (G n h1 (proj1 B) (proj2 B) E2). f_equal. lia.
  - unfold next_arrival, refusal. destruct (C57_date_round_trip h back R) as (h1 & E1 & E2). rewrite E1. cbn [bind fst snd]. unfold pause. rewrite E2. cbn [bind].
    destruct (C91_wait unix_latest (t + a + skew) (At (whole_seconds back)) (t + a + skew)) as (w & P & K); [discriminate|].
    cbn [due] in K. unfold whole_seconds in *.
    destruct K as [(K1 & K & Y)|(K1 & K & Y)]; rewrite K; cbn [bind]; f_equal; lia.
Qed.
Print Assumptions C126_next.

(** Rounded up to seconds, one refusal is enough, whatever the clock of the client says; the request that is served is less than a second late.
    The same holds of the rest itself if it is whole seconds, and of a whole instant if the clock of the client is not ahead. *)
Theorem C126_once : forall h back skew a b t m lags, in_range back -> 0 <= t < back -> 0 <= a -> 0 <= b -> back + a + skew + NANOS <= unix_latest ->
  m = RoundedUp \/ m = Left /\ (back - t) mod NANOS = 0 \/ m = Instant /\ back mod NANOS = 0 /\ skew <= 0 ->
  exists t', arrivals m h back skew ((a, b) :: lags) t = Ok [t; t'] /\ back <= t' /\ t' < back + a + b + NANOS + Z.max 0 (- skew).
Proof.
  intros h back skew a b t m lags R T A B L K. destruct (C126_next h back skew a b t R T A L) as (E1 & E2 & E3).
  assert (S1 : forall t', next_arrival m h back skew (a, b) t = Ok t' -> back <= t' -> arrivals m h back skew ((a, b) :: lags) t = Ok [t; t']).
  { intros t' E Y. cbn [arrivals]. destruct (Z.leb_spec back t); [lia|]. rewrite E. cbn [bind].
    assert (X : arrivals m h back skew lags t' = Ok [t']) by (destruct lags; cbn [arrivals]; destruct (Z.leb_spec back t'); (reflexivity || lia)). now rewrite X. }
  unfold NANOS in *. assert (D1 := Z.div_mod (t - back) 1000000000 ltac:(lia)). assert (M1 := Z.mod_pos_bound (t - back) 1000000000 ltac:(lia)).
  assert (D2 := Z.div_mod (back - t) 1000000000 ltac:(lia)). assert (D3 := Z.div_mod back 1000000000 ltac:(lia)).
  destruct K as [->|[[-> K]|(-> & K & Y)]]; eexists; (split; [eapply S1; [eassumption|lia]|lia]).
Qed.
Print Assumptions C126_once.

Section Few.
  Context (h : headers) (back skew least most : Z) (m : manner).
  Context (R : in_range back) (least_ok : 0 < least <= most) (most_ok : back + most + skew + NANOS <= unix_latest) (kind : m = Left \/ m = Instant /\ skew = 0).
  Definition usual (lag : Z * Z) : Prop := 0 <= fst lag /\ 0 <= snd lag /\ least <= fst lag + snd lag <= most.
  Lemma next_usual : forall lag t, usual lag -> 0 <= t < back -> exists t', next_arrival m h back skew lag t = Ok t' /\
    t + least <= t' /\ back - NANOS < t' <= back + most.
  Proof.
    intros [a b] t (A & B & C & D) T. cbn [fst snd] in *. destruct (C126_next h back skew a b t R T A ltac:(lia)) as (E1 & _ & E3).
    destruct kind as [->|[-> ->]]; eexists; (split; [eassumption|]); unfold NANOS in *.
    - assert (X := Z.div_mod (back - t) 1000000000 ltac:(lia)). assert (M := Z.mod_pos_bound (back - t) 1000000000 ltac:(lia)).
      assert (0 <= (back - t) / 1000000000) by (apply Z.div_pos; lia). lia.
    - assert (X := Z.div_mod back 1000000000 ltac:(lia)). assert (M := Z.mod_pos_bound back 1000000000 ltac:(lia)). lia.
  Qed.
  Lemma few_from : forall lags t j, Forall usual lags -> 0 <= t -> back - t <= Z.of_nat j * least ->
    exists ts, arrivals m h back skew lags t = Ok ts /\ ts <> [] /\ (refused back ts <= j)%nat /\ Forall (fun x => x <= Z.max t (back + most)) ts /\
      ((j <= length lags)%nat -> back <= last ts 0).
  Proof.
    intros lags. induction lags as [|lag lags IH]; intros t j F T J; cbn [arrivals]; destruct (Z.leb_spec back t) as [Y|Y].
    1,3: exists [t]; unfold refused; cbn [filter]; destruct (Z.ltb_spec t back); [lia|]; cbn [length last]; repeat split; try discriminate; try lia; repeat constructor; lia.
    - exists [t]. unfold refused. cbn [filter]. destruct (Z.ltb_spec t back); [|lia]. cbn [length last]. split; [reflexivity|]. split; [discriminate|]. split; [destruct j; lia|]. split; [repeat constructor; lia|]. destruct j; cbn [length]; lia.
    - inv F. destruct (next_usual lag t) as (t' & E & A & B); [assumption|lia|]. rewrite E. cbn [bind]. destruct j as [|j]; [lia|].
      destruct (IH t' j) as (ts & E' & N & C & D & G); [assumption|lia|lia|]. rewrite E'. cbn [bind]. exists (t :: ts). split; [reflexivity|].
      split; [discriminate|]. split; [unfold refused in *; cbn [filter]; destruct (t <? back); cbn [length]; lia|]. split.
      + constructor; [lia|]. eapply Forall_impl; [|exact D]. cbn beta. intros x X. lia.
      + intros Z1. cbn [length] in Z1. destruct ts as [|y ts]; [congruence|]. apply G. lia.
  Qed.
  (** In the other cases the last second is filled with requests: after one refusal the client is back less than a second early, and then it
      comes again at once each time.  So with lags of at least [least] there are at most one and a second's worth of refusals. *)
  Theorem C126_few : forall lags t k, Forall usual lags -> 0 <= t < back -> NANOS <= Z.of_nat k * least ->
    exists ts, arrivals m h back skew lags t = Ok ts /\ (refused back ts <= 1 + k)%nat /\ Forall (fun x => x <= back + most) ts /\
      ((1 + k <= length lags)%nat -> back <= last ts 0).
  Proof.
    intros lags t k F T K. destruct lags as [|lag lags]; cbn [arrivals]; (destruct (Z.leb_spec back t); [lia|]).
    - exists [t]. unfold refused. cbn [filter]. destruct (Z.ltb_spec t back); [|lia]. cbn [length]. repeat split; try lia. repeat constructor; lia.
    - inv F. destruct (next_usual lag t) as (t' & E & A & B); [assumption|lia|]. rewrite E. cbn [bind].
      destruct (few_from lags t' k) as (ts & E' & N & C & D & G); [assumption|lia|lia|]. rewrite E'. cbn [bind]. exists (t :: ts). split; [reflexivity|].
      assert (P : usual lag) by assumption. destruct P as (P1 & P2 & P3 & P4).
      split; [unfold refused in *; cbn [filter]; destruct (t <? back); cbn [length]; lia|]. split.
      + constructor; [lia|]. eapply Forall_impl; [|exact D]. cbn beta. intros x X. lia.
      + intros Z1. cbn [length] in Z1. destruct ts as [|y ts]; [congruence|]. apply G. lia.
  Qed.
End Few.
Print Assumptions C126_few.

(** "One refusal is enough" and "the number of refusals does not depend on the lag" are false: half a second before the service is back, what is
    written is 0, or an instant that has passed, and clients come back as fast as the net carries them. *)
Theorem C126_storm_refuted : exists back t, in_range back /\ 0 <= t < back /\ forall h m d n, m = Left \/ m = Instant -> 0 <= d -> Z.of_nat n * d < 500000000 ->
  exists ts, arrivals m h back 0 (repeat (d, 0) n) t = Ok ts /\ refused back ts = S n.
Proof.
  exists 10500000000, 10000000000. split; [unfold in_range; lia|]. split; [lia|]. intros h m d n K D N.
  assert (G : forall t, 10000000000 <= t -> t + Z.of_nat n * d < 10500000000 -> exists ts, arrivals m h 10500000000 0 (repeat (d, 0) n) t = Ok ts /\ refused 10500000000 ts = S n).
  { clear N. induction n as [|n IH]; intros t T1 T2.
    - exists [t]. cbn [repeat arrivals]. destruct (Z.leb_spec 10500000000 t); [lia|]. split; [reflexivity|]. unfold refused. cbn [filter]. destruct (Z.ltb_spec t 10500000000); [reflexivity|lia].
    - assert (0 <= Z.of_nat n * d) by (apply Z.mul_nonneg_nonneg; lia).
      destruct (IH (t + d)) as (ts & E & F); [lia|lia|]. cbn [repeat arrivals]. destruct (Z.leb_spec 10500000000 t); [lia|].
      destruct (C126_next h 10500000000 0 d 0 t) as (E1 & _ & E3); [unfold in_range; lia|lia|lia|unfold NANOS, unix_latest, NANOS; lia|].
      assert (X : next_arrival m h 10500000000 0 (d, 0) t = Ok (t + d)).
      { destruct K as [->| ->]; [rewrite E1|rewrite E3]; f_equal; unfold NANOS.
        - replace ((10500000000 - t) / 1000000000) with 0; [lia|]. symmetry. apply Z.div_small. lia.
        - replace (10500000000 / 1000000000 * 1000000000) with 10000000000 by reflexivity. lia. }
      rewrite X. cbn [bind]. rewrite E. cbn [bind]. exists (t :: ts). split; [reflexivity|]. unfold refused in *. cbn [filter]. destruct (Z.ltb_spec t 10500000000); [|lia]. cbn [length]. now rewrite F. }
  apply G; lia.
Qed.
Print Assumptions C126_storm_refuted.
(** A client whose clock is ahead by more than the rest is sent off with an instant in vain: it is back at once. *)
Theorem C126_clock : forall h back skew a b t, in_range back -> 0 <= t < back -> 0 <= a -> back + a + skew + NANOS <= unix_latest -> back - t <= skew ->
  next_arrival Instant h back skew (a, b) t = Ok (t + a + b) /\ next_arrival Left h back skew (a, b) t = next_arrival Left h back 0 (a, b) t.
Proof.
  intros h back skew a b t R T A L K. destruct (C126_next h back skew a b t R T A L) as (E1 & _ & E3). destruct (C126_next h back 0 a b t R T A ltac:(lia)) as (F1 & _).
  rewrite E1, E3, F1. split; [|reflexivity]. f_equal. unfold NANOS. assert (D := Z.div_mod back 1000000000 ltac:(lia)). assert (M := Z.mod_pos_bound back 1000000000 ltac:(lia)). lia.
Qed.
Print Assumptions C126_clock.

(** Away until 12.5 s; 0.1 s each way.  The clock of the client is an hour ahead in the last two. *)
Example C126_example :
  let lags := repeat (100000000, 100000000) 5 in
  arrivals Left [] 12500000000 0 lags 1000000000 = Ok [1000000000; 12200000000; 12400000000; 12600000000] /\
  arrivals RoundedUp [] 12500000000 0 lags 1000000000 = Ok [1000000000; 13200000000] /\
  arrivals Instant [] 12500000000 0 lags 1000000000 = Ok [1000000000; 12100000000; 12300000000; 12500000000] /\
  arrivals Left [] 12500000000 3600000000000 lags 1000000000 = Ok [1000000000; 12200000000; 12400000000; 12600000000] /\
  arrivals Instant [] 12500000000 3600000000000 lags 1000000000 = Ok [1000000000; 1200000000; 1400000000; 1600000000; 1800000000; 2000000000] /\
  Forall (usual 200000000 200000000) lags /\ NANOS <= Z.of_nat 5 * 200000000 /\ 12500000000 + 200000000 + 3600000000000 + NANOS <= unix_latest.
Proof.
  cbn zeta. do 5 (split; [vm_compute; reflexivity|]). split; [|unfold unix_latest, NANOS; lia].
  apply Forall_forall. intros x I. apply repeat_spec in I. subst x. unfold usual. cbn [fst snd]. lia.
Qed.
