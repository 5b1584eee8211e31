(** C111: how old a response is taken to be, and whether it is taken to be fresh, after passing through any number of caches. *)
From Verif Require Import Base BaseFacts Headers HeadersFacts Typed TypedFacts Cache CacheProps HttpDate Other OtherProps.
From Coq Require Import ZifyBool ZifyNat ZifyN.
Local Open Scope N_scope.

Definition second : N := 1000000000.
(** A [Duration] in nanoseconds, and back. *)
Definition total (d : duration) : N := secs d * second + nanos d.
Definition lasting (n : N) : duration := Dur (n / second) (n mod second).
(** The age a response claims: that of its Age header, none if there is none. *)
Definition claimed (a : option duration) : N := match a with Some d => total d | None => 0 end.

(** A cache that has kept a response for [t] nanoseconds reads its age with [Age::from_headers], adds [t] and sends the sum on with
    [Age::apply]. *)
Definition kept (t : N) (h : headers) : outcome headers :=
  let* a := age_from_headers h in Ok (age_apply h (lasting (claimed a + t))).
(** One cache after the other. *)
Fixpoint caches (ts : list N) (h : headers) : outcome headers :=
  match ts with [] => Ok h | t :: ts' => let* h' := kept t h in caches ts' h' end.
Definition sum (ts : list N) : N := fold_right N.add 0 ts.

Lemma age_whole : forall h d, age_from_headers h = Ok (Some d) -> nanos d = 0.
Proof.
  intros h d. unfold age_from_headers, with_last. destruct (h_get h AGE) as [vs|]; [|discriminate].
  destruct (values_last vs) as [v| |]; cbn [bind]; try discriminate.
  destruct (ok_or 400 (parse_uint 10 u64_max v)) as [n| |]; cbn [bind]; try discriminate.
  unfold from_secs_f64. destruct (f64_of_u64 n <? 2 ^ 64); cbn [bind]; [|discriminate].
  intros H. injection H as <-. reflexivity.
Qed.

Lemma kept_once : forall h a t, age_from_headers h = Ok a -> claimed a + t < 2 ^ 53 * second ->
  kept t h = Ok (age_apply h (lasting (claimed a + t))) /\
  age_from_headers (age_apply h (lasting (claimed a + t))) = Ok (Some (from_secs ((claimed a + t) / second))).
Proof.
  intros h a t A B. unfold kept. rewrite A. cbn [bind]. split; [reflexivity|].
  change (age_apply h (lasting (claimed a + t))) with (age_apply h (from_secs ((claimed a + t) / second))).
  apply C43_round_trip_partial. apply N.lt_le_incl, N.div_lt_upper_bound; [discriminate|]. now rewrite N.mul_comm.
Qed.

Lemma caches_from : forall ts h a, age_from_headers h = Ok a -> claimed a + sum ts < 2 ^ 53 * second ->
  exists h' a', caches ts h = Ok h' /\ age_from_headers h' = Ok a' /\ (ts <> [] -> a' <> None) /\
    claimed a' <= claimed a + sum ts /\ claimed a + sum ts <= claimed a' + N.of_nat (length ts) * (second - 1) /\
    (forall n, n <> AGE -> h_get h' n = h_get h n).
Proof.
  induction ts as [|t ts IH]; intros h a A B.
  - exists h, a. cbn [caches sum fold_right length] in *. repeat split; auto; try congruence; lia.
  - cbn [sum fold_right] in B. fold (sum ts) in B.
    destruct (kept_once h a t A) as [K R]; [lia|].
    set (x := claimed a + t) in *. set (h1 := age_apply h (lasting x)) in *.
    assert (C1 : claimed (Some (from_secs (x / second))) = second * (x / second)) by (unfold claimed, total, from_secs, secs, nanos; now rewrite N.add_0_r, N.mul_comm).
    pose proof (N.div_mod x second ltac:(discriminate)) as DM. pose proof (N.mod_lt x second ltac:(discriminate)) as ML.
    destruct (IH h1 _ R) as (h' & a' & E & A' & NE & L & U & O).
    { rewrite C1. pose proof (N.mul_div_le x second ltac:(discriminate)). subst x. lia. }
    rewrite C1 in L, U.
    exists h', a'. cbn [caches]. rewrite K. cbn [bind sum fold_right length]. fold (sum ts).
    split; [exact E|]. split; [exact A'|]. split.
    { intros _. destruct ts as [|t' ts]; [|apply NE; discriminate]. cbn [caches] in E. injection E as <-. rewrite R in A'. injection A' as <-. discriminate. }
    assert (X : claimed a + (t + sum ts) = x + sum ts) by (subst x; lia). rewrite X.
    split; [lia|]. split.
    { replace (N.of_nat (S (length ts)) * (second - 1)) with (N.of_nat (length ts) * (second - 1) + (second - 1)) by lia. unfold second in *. lia. }
    intros n N. rewrite O by exact N. unfold h1, age_apply. now apply get_apply_other.
Qed.

(** After any number of caches the response claims a whole number of seconds that is never more than its true age, and less by at
    most what each cache lost in cutting to whole seconds; the other headers are as the server sent them. *)
Theorem C111_age : forall ts h a, ts <> [] -> age_from_headers h = Ok a -> claimed a + sum ts < 2 ^ 53 * second ->
  exists h' r, caches ts h = Ok h' /\ age_from_headers h' = Ok (Some (from_secs r)) /\
    r * second <= claimed a + sum ts /\ claimed a + sum ts < (r + N.of_nat (length ts)) * second /\
    (forall n, n <> AGE -> h_get h' n = h_get h n).
Proof.
  intros ts h a N A B. destruct (caches_from ts h a A B) as (h' & a' & E & A' & NE & L & U & O).
  specialize (NE N). destruct a' as [[s n]|]; [|congruence]. pose proof (age_whole _ _ A') as W. cbn [nanos] in W. subst n.
  exists h', s. unfold claimed at 1 in L. unfold claimed at 2 in U. unfold total in L, U. cbn [secs nanos] in L, U.
  repeat split; auto; [lia|]. destruct ts as [|t ts]; [congruence|]. cbn [length] in *. unfold second in *. lia.
Qed.

(** Caches that keep a response for whole seconds lose nothing. *)
Theorem C111_whole : forall ts h a, ts <> [] -> age_from_headers h = Ok a ->
  sum (map (fun k => k * second) ts) + claimed a < 2 ^ 53 * second ->
  exists h', caches (map (fun k => k * second) ts) h = Ok h' /\
    age_from_headers h' = Ok (Some (from_secs (claimed a / second + sum ts))).
Proof.
  induction ts as [|k ts IH]; intros h a N A B; [congruence|]. clear N.
  cbn [map sum fold_right] in B. fold (sum (map (fun k => k * second) ts)) in B.
  destruct (kept_once h a (k * second) A) as [K R]; [lia|].
  assert (D : (claimed a + k * second) / second = claimed a / second + k) by (apply N.div_add; discriminate).
  rewrite D in R. cbn [map caches]. rewrite K. cbn [bind sum fold_right]. fold (sum ts).
  destruct ts as [|k' ts].
  - eexists. split; [reflexivity|]. rewrite R. cbn [sum fold_right]. do 3 f_equal. lia.
  - destruct (IH _ _ ltac:(discriminate) R) as (h' & E & A').
    { assert (M : claimed a / second * second <= claimed a) by (rewrite N.mul_comm; apply N.mul_div_le; discriminate).
      unfold claimed at 1, total. cbn [from_secs secs nanos]. lia. }
    exists h'. split; [exact E|]. rewrite A'. do 3 f_equal. unfold claimed at 1, total. cbn [from_secs secs nanos].
    rewrite N.add_0_r, N.div_mul by discriminate. lia.
Qed.

(** How long a response may be used: the first max-age of its directives, in seconds. *)
Fixpoint lifetime (l : list directive) : option N :=
  match l with [] => None | MaxAge d :: _ => Some (secs d) | _ :: l' => lifetime l' end.
(** A response is taken to be fresh if the age read from it is below the lifetime read from it. *)
Definition fresh (h : headers) : Prop :=
  exists l a n, cache_from_headers h = Ok (Some l) /\ lifetime l = Some n /\ age_from_headers h = Ok a /\ claimed a < n * second.

Lemma lifetime_survives : forall l, lifetime (flat_map survivor l) = lifetime l.
Proof. induction l as [|d l IH]; [reflexivity|]. destruct d as [|t|[t|]|t| | | | | | | | |t|t|t]; cbn; auto. Qed.

(** A server that gives a response a lifetime of [n] seconds: behind any chain of caches it is taken to be fresh for as long as it is,
    and when it is taken to be fresh it is stale by less than one second for each cache. *)
Theorem C111_fresh : forall h l n ts, Forall u64_secs l -> lifetime l = Some n -> age_from_headers h = Ok None ->
  sum ts < 2 ^ 53 * second ->
  exists h', caches ts (cache_apply h l) = Ok h' /\
    (sum ts < n * second -> fresh h') /\ (fresh h' -> sum ts < (n + N.of_nat (length ts)) * second).
Proof.
  intros h l n ts U L A B.
  assert (A0 : age_from_headers (cache_apply h l) = Ok None).
  { revert A. unfold age_from_headers, with_last, cache_apply. rewrite get_apply_other by discriminate. auto. }
  destruct (caches_from ts _ _ A0 B) as (h' & a' & E & A' & _ & Lo & Up & O). cbn [claimed] in Lo, Up. rewrite N.add_0_l in Lo, Up.
  assert (C : cache_from_headers h' = Ok (Some (flat_map survivor l))).
  { rewrite <- (C42_reads_back_as h l U). unfold cache_from_headers, with_all. rewrite O by discriminate. reflexivity. }
  exists h'. split; [exact E|]. split.
  - intros S. exists (flat_map survivor l), a', n. rewrite lifetime_survives. repeat split; auto. lia.
  - intros (l' & a & m & C' & L' & A'' & F). rewrite C in C'. injection C' as <-. rewrite lifetime_survives, L in L'. injection L' as <-.
    rewrite A' in A''. injection A'' as <-. unfold second in *. lia.
Qed.

(** The second allowed to each cache is needed: two caches that each keep a response of a one-second lifetime for 0.9 seconds leave
    it looking new. *)
Theorem C111_stale_refuted : exists ts h', caches ts (cache_apply [] [MaxAge (from_secs 1)]) = Ok h' /\ fresh h' /\ second < sum ts.
Proof.
  exists [900000000; 900000000]. eexists. split; [vm_compute; reflexivity|]. split; [|vm_compute; reflexivity].
  exists [MaxAge (from_secs 1)], (Some (from_secs 0)), 1. repeat split; vm_compute; reflexivity.
Qed.

(** A shared cache should prefer s-maxage to max-age. *)
Fixpoint shared_life (l : list directive) : option N :=
  match l with [] => None | SMaxAge d :: _ => Some (secs d) | _ :: l' => shared_life l' end.
Definition shared_lifetime (l : list directive) : option N := match shared_life l with Some n => Some n | None => lifetime l end.

(** A lifetime for shared caches is lost between two programs of this library: it is never seen, whatever the other directives. *)
Theorem C111_shared_lost : forall h l, Forall u64_secs l ->
  exists l', cache_from_headers (cache_apply h l) = Ok (Some l') /\ shared_lifetime l' = lifetime l.
Proof.
  intros h l U. exists (flat_map survivor l). split; [now apply C42_reads_back_as|].
  assert (S : shared_life (flat_map survivor l) = None).
  { clear U. induction l as [|d l IH]; [reflexivity|]. destruct d as [|t|[t|]|t| | | | | | | | |t|t|t]; cbn; auto. }
  unfold shared_lifetime. now rewrite S, lifetime_survives.
Qed.
Theorem C111_shared_refuted : exists l l', Forall u64_secs l /\ cache_from_headers (cache_apply [] l) = Ok (Some l') /\
  shared_lifetime l = Some 10 /\ shared_lifetime l' = Some 1000.
Proof.
  exists [MaxAge (from_secs 1000); SMaxAge (from_secs 10)], [MaxAge (from_secs 1000)].
  split; [repeat constructor; vm_compute; discriminate|]. repeat split; vm_compute; reflexivity.
Qed.

(** Without max-age the lifetime is the difference between Expires and Date; both lose the part of a second. *)
Theorem C111_expires : forall h t e, in_range t -> in_range e ->
  exists h' h'' t' e', date_apply DateHeader h t = Ok h' /\ date_apply Expires h' e = Ok h'' /\
    date_from_headers DateHeader h'' = Ok (Some t') /\ date_from_headers Expires h'' = Ok (Some e') /\
    (Z.abs ((e' - t') - (e - t)) < 1000000000)%Z /\ ((e - t) mod 1000000000 = 0 -> e' - t' = e - t)%Z /\ (e <= t -> e' <= t')%Z.
Proof.
  intros h t e T E. destruct (C72_round_trip DateHeader h t T) as (h' & W & R). destruct (C72_round_trip Expires h' e E) as (h'' & W' & R').
  exists h', h'', (whole_seconds t), (whole_seconds e). split; [exact W|]. split; [exact W'|]. split.
  { etransitivity; [|exact R]. unfold date_from_headers, with_last.
    revert W'. unfold date_apply. destruct (fmt_http_date e) as [v| |]; cbn [bind]; try discriminate. intros H. injection H as <-.
    rewrite get_apply_other by discriminate. reflexivity. }
  split; [exact R'|]. unfold whole_seconds. clear. split; [|split].
  - lia.
  - lia.
  - lia.
Qed.

Example C111_example :
  let h := cache_apply [] [Public; MaxAge (Dur 60 5); SMaxAge (from_secs 5)] in
  exists h', caches [1500000000; 20700000000; 3 * second] h = Ok h' /\ age_from_headers h' = Ok (Some (from_secs 24)) /\
    fresh h' /\ sum [1500000000; 20700000000; 3 * second] = 25200000000.
Proof.
  eexists. split; [vm_compute; reflexivity|]. split; [vm_compute; reflexivity|]. split; [|reflexivity].
  exists [Public; MaxAge (from_secs 60)], (Some (from_secs 24)), 60. repeat split; vm_compute; reflexivity.
Qed.
Example C111_hypotheses_example :
  Forall u64_secs [Public; MaxAge (Dur 60 5); SMaxAge (from_secs 5)] /\ lifetime [Public; MaxAge (Dur 60 5); SMaxAge (from_secs 5)] = Some 60 /\
  age_from_headers [(lit "age", [lit "7"])] = Ok (Some (from_secs 7)) /\
  (exists h', caches (map (fun k => k * second) [3; 4]) [(lit "age", [lit "7"])] = Ok h' /\ age_from_headers h' = Ok (Some (from_secs 14))) /\
  in_range 784111777500000000 /\ in_range 784112777600000000.
Proof.
  split; [repeat constructor; vm_compute; discriminate|]. split; [reflexivity|]. split; [vm_compute; reflexivity|].
  split; [eexists; split; [vm_compute; reflexivity|vm_compute; reflexivity]|]. unfold in_range; lia.
Qed.
Print Assumptions C111_age.
Print Assumptions C111_whole.
Print Assumptions C111_fresh.
Print Assumptions C111_stale_refuted.
Print Assumptions C111_shared_lost.
Print Assumptions C111_shared_refuted.
Print Assumptions C111_expires.
