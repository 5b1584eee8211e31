(** C118: what a browser that follows RFC 6797 does with the Strict-Transport-Security headers of many responses.  The browser
    is written down from the RFC; only [hsts_apply], [hsts_from_headers] and [security_default] are code of the crate. *)
From Coq Require Import ZifyBool ZifyNat ZifyN Lia ZArith.
From Verif Require Import Base BaseFacts Headers HeadersFacts HeadersProps Typed TypedFacts Cache Other OtherProps Security SecurityProps Rfc InteropProps.

(** ** The browser *)
(** A host, as the labels from the top-level domain down: [www.example.com] is [com; example; www]. *)
Definition host : Type := list str.
(** Section 5.3: a known host; instants in nanoseconds. *)
Record known : Type := Known { k_host : host; k_until : Z; k_sub : bool }.
(** Section 6.1: directives in any order, each at most once, empty ones allowed, names in any case, [max-age] required, others ignored. *)
Fixpoint unique (l : list str) : bool := match l with [] => true | x :: r => negb (existsb (seqb x) r) && unique r end.
Definition sts_number (s : str) : option N := match s with [] => None | _ => if forallb is_digit s then Some (dec_value s) else None end.
Definition read_sts (v : str) : option (N * bool) :=
  let bs := map (fun p => (to_lower (fst (binding p)), snd (binding p))) (parts v) in
  let bs := filter (fun b => negb (seqb (fst b) [])) bs in
  if unique (map fst bs) then
    match find (fun b => seqb (fst b) (lit "max-age")) bs with
    | Some (_, Some t) =>
        match sts_number t with
        | Some n => Some (n, existsb (fun b => seqb (fst b) (lit "includesubdomains")) bs)
        | None => None
        end
    | _ => None
    end
  else None.
Definition host_dec : forall a b : host, {a = b} + {a <> b} := list_eq_dec (list_eq_dec N.eq_dec).
Definition forget (x : host) (b : list known) : list known := filter (fun k => if host_dec (k_host k) x then false else true) b.
(** Section 8.1: the first field of a response over a secure transport counts; [max-age=0] removes the host. *)
Definition hear (b : list known) (r : host * Z * headers) : list known :=
  let '(x, t, h) := r in
  match h_get h (lit "strict-transport-security") with
  | Some (v :: _) =>
      match read_sts v with
      | Some (n, i) => if n =? 0 then forget x b else Known x (t + Z.of_N n * 1000000000)%Z i :: forget x b
      | None => b
      end
  | _ => b
  end.
Definition browse (rs : list (host * Z * headers)) : list known := fold_left hear rs [].
(** Sections 8.2 and 8.3: whether [x] is asked for securely at [now], whatever the link says. *)
Fixpoint above (y x : host) : bool :=
  match y, x with [], _ => true | a :: y, b :: x => seqb a b && above y x | _, _ => false end.
Definition secure (b : list known) (x : host) (now : Z) : bool :=
  existsb (fun k => (now <? k_until k)%Z && (if host_dec (k_host k) x then true else k_sub k && above (k_host k) x)) b.

(** ** The servers *)
(** A response of host [y] at [t]: with a policy put into headers [h], or headers without one. *)
Definition reply : Type := (host * Z * headers * option hsts)%type.
Definition sent (r : reply) : host * Z * headers :=
  let '(y, t, h, o) := r in (y, t, match o with Some s => hsts_apply h s | None => h end).
Definition honest (r : reply) : Prop := let '(y, t, h, o) := r in o = None -> h_get h (lit "strict-transport-security") = None.

Lemma above_ok : forall y x, above y x = true <-> exists l, x = y ++ l.
Proof.
  induction y as [|a y IH]; intros x; cbn [above].
  - split; [intros _; now exists x|reflexivity].
  - destruct x as [|b x]; [split; [discriminate|intros (l & E); discriminate E]|]. rewrite andb_true_iff, IH. split.
    + intros [E (l & ->)]. apply seqb_eq in E. subst b. now exists l.
    + intros (l & E). cbn [app] in E. inv E. split; [apply seqb_refl|now exists l].
Qed.
Lemma number_shown : forall n, sts_number (show_dec n) = Some n.
Proof.
  intros n. unfold sts_number. rewrite show_dec_digits. assert (E := parse_show_dec n n ltac:(lia)). apply parse_dec_spec in E as [(ds & D & N & F & ->) _].
  destruct (show_dec (dec_value ds)) as [|c s] eqn:Q; [now apply show_dec_nonempty in Q|]. f_equal. destruct D as [->| D]; [reflexivity|].
  assert (G := show_dec_digits (dec_value ds)). rewrite Q in G. inv D. discriminate G.
Qed.
Lemma policy_read : forall s, read_sts (hsts_value s) = Some (secs (max_age s), include_subdomains s).
Proof.
  intros [d i p]. unfold read_sts. rewrite (C102_hsts (Hsts d i p)). cbn [max_age include_subdomains preload].
  assert (N := number_shown (secs d)). generalize dependent (show_dec (secs d)). intros t N.
  destruct i, p; lazy -[sts_number]; rewrite N; reflexivity.
Qed.
Lemma hear_policy : forall b y t h s, hear b (sent (y, t, h, Some s)) =
  if secs (max_age s) =? 0 then forget y b else Known y (t + Z.of_N (secs (max_age s)) * 1000000000)%Z (include_subdomains s) :: forget y b.
Proof.
  intros b y t h s. unfold sent, hear, hsts_apply, apply_value. change STRICT_TRANSPORT_SECURITY with (lit "strict-transport-security").
  unfold h_get, h_insert, to_header_values. cbn [fst]. rewrite hm_get_insert_same, policy_read. reflexivity.
Qed.
Lemma hear_nothing : forall b y t h, honest (y, t, h, None) -> hear b (sent (y, t, h, None)) = b.
Proof. intros b y t h H. unfold sent, hear. unfold honest in H. rewrite (H eq_refl). reflexivity. Qed.
Lemma forget_in : forall x b k, In k (forget x b) <-> In k b /\ k_host k <> x.
Proof. intros x b k. unfold forget. rewrite filter_In. destruct (host_dec (k_host k) x); intuition congruence. Qed.

(** [y]'s last word in [rs] is the policy [s], said at [t]. *)
Definition last_word (rs : list reply) (y : host) (t : Z) (s : hsts) : Prop :=
  exists before h after, rs = before ++ (y, t, h, Some s) :: after /\ forall t' h' o, In (y, t', h', o) after -> o = None.

Lemma remembered : forall rs, Forall honest rs -> forall k, In k (browse (map sent rs)) <->
  exists t s, last_word rs (k_host k) t s /\ 0 < secs (max_age s) /\ k_until k = (t + Z.of_N (secs (max_age s)) * 1000000000)%Z /\ k_sub k = include_subdomains s.
Proof.
  intros rs. induction rs as [|r rs IH] using rev_ind; intros F k.
  - split; [intros []|]. intros (t & s & (b & h & a & E & _) & _). destruct b; discriminate E.
  - apply Forall_app in F as [F G]. inversion G as [|? ? Hr _]; subst. clear G. specialize (IH F). unfold browse in *. rewrite map_app, fold_left_app. cbn [map fold_left].
    assert (OLD : forall y t s, last_word (rs ++ [r]) y t s <->
      (exists h, r = (y, t, h, Some s)) \/ (last_word rs y t s /\ forall t' h' o, r = (y, t', h', o) -> o = None)).
    { intros y t s. split.
      - intros (b & h & a & E & A). destruct a as [|a0 a _] using rev_ind.
        + apply app_inj_tail in E as [_ E]. left. now exists h.
        + right. rewrite app_comm_cons, app_assoc in E. apply app_inj_tail in E as [E1 E2]. subst a0. split.
          * exists b, h, a. split; [exact E1|]. intros t' h' o I. apply (A t' h'). apply in_or_app. now left.
          * intros t' h' o E. apply (A t' h'). apply in_or_app. right. left. exact E.
      - intros [(h & ->)|[(b & h & a & -> & A) L]].
        + exists rs, h, []. split; [reflexivity|]. intros t' h' o [].
        + exists b, h, (a ++ [r]). split; [now rewrite <- app_assoc|]. intros t' h' o I. apply in_app_or in I as [I|[I|[]]]; [now apply (A t' h')|now apply (L t' h')]. }
    destruct r as [[[y t] h] [s|]].
    + rewrite hear_policy. split.
      * intros I. assert (C : (0 < secs (max_age s) /\ k = Known y (t + Z.of_N (secs (max_age s)) * 1000000000)%Z (include_subdomains s)) \/ In k (forget y (fold_left hear (map sent rs) []))).
        { destruct (N.eqb_spec (secs (max_age s)) 0); [now right|]. destruct I as [<-|I]; [left; split; [lia|reflexivity]|now right]. }
        destruct C as [[P ->]|I'].
        -- exists t, s. split; [apply OLD; left; now exists h|]. split; [exact P|]. split; reflexivity.
        -- apply forget_in in I' as [I' N]. apply IH in I' as (t0 & s0 & L & P & U & B). exists t0, s0. split; [|now split].
           apply OLD. right. split; [exact L|]. intros t' h' o E. inv E. congruence.
      * intros (t0 & s0 & L & P & U & B). apply OLD in L as [(h0 & E)|[L N]].
        -- inversion E; subst. destruct (N.eqb_spec (secs (max_age s0)) 0); [lia|]. left. destruct k as [kh ku kb]. cbn [k_host k_until k_sub] in *. now subst.
        -- assert (I : In k (forget y (fold_left hear (map sent rs) []))).
           { apply forget_in. split; [apply IH; exists t0, s0; split; [exact L|]; split; [exact P|]; split; [exact U|exact B]|]. intros E. specialize (N t h (Some s)). rewrite E in N. specialize (N eq_refl). discriminate N. }
           destruct (secs (max_age s) =? 0); [exact I|now right].
    + rewrite hear_nothing by exact Hr. rewrite IH. split; intros (t0 & s0 & L & R); exists t0, s0; split; try exact R.
      * apply OLD. right. split; [exact L|]. intros t' h' o E. now inv E.
      * apply OLD in L as [(h0 & E)|[L _]]; [discriminate E|exact L].
Qed.

(** After any responses of any hosts, the browser asks [x] securely exactly if the last word of [x], or of a host above it that
    asked for its subdomains, was a policy whose whole seconds have not passed. *)
Theorem C118_secure : forall rs x now, Forall honest rs ->
  (secure (browse (map sent rs)) x now = true <->
   exists y t s, last_word rs y t s /\ 0 < secs (max_age s) /\ (now < t + Z.of_N (secs (max_age s)) * 1000000000)%Z /\
     (x = y \/ (include_subdomains s = true /\ exists l, x = y ++ l))).
Proof.
  intros rs x now F. unfold secure. rewrite existsb_exists. split.
  - intros (k & I & C). apply (remembered rs F) in I as (t & s & L & P & U & B). exists (k_host k), t, s. split; [exact L|]. split; [exact P|].
    apply andb_prop in C as [C1 C2]. rewrite U in C1. split; [lia|]. destruct (host_dec (k_host k) x) as [E|E]; [now left|]. right.
    apply andb_prop in C2 as [C2 C3]. split; [congruence|now apply above_ok].
  - intros (y & t & s & L & P & C & D). exists (Known y (t + Z.of_N (secs (max_age s)) * 1000000000)%Z (include_subdomains s)). cbn [k_host k_until k_sub]. split.
    + apply (remembered rs F). exists t, s. cbn [k_host k_until k_sub]. split; [exact L|]. split; [exact P|]. split; reflexivity.
    + apply andb_true_intro. split; [lia|]. destruct (host_dec y x) as [E|E]; [reflexivity|]. destruct D as [->|[-> D]]; [congruence|]. now apply above_ok.
Qed.
Print Assumptions C118_secure.

(** A host that always sends the same policy of whole seconds is asked securely until they have passed since the last response. *)
Theorem C118_promise : forall rs y t s h after now, Forall honest (rs ++ (y, t, h, Some s) :: after) ->
  (forall t' h' o, In (y, t', h', o) after -> o = None) -> nanos (max_age s) = 0 -> (t <= now)%Z ->
  (now < t + Z.of_N (secs (max_age s) * 1000000000 + nanos (max_age s)))%Z ->
  secure (browse (map sent (rs ++ (y, t, h, Some s) :: after))) y now = true.
Proof.
  intros rs y t s h after now F A Z0 T L. apply C118_secure; [exact F|]. exists y, t, s. split; [exists rs, h, after; now split|]. rewrite Z0 in L.
  split; [lia|]. split; [lia|now left].
Qed.
Print Assumptions C118_promise.

(** FALSE for other durations: a policy of half a second is sent as [max-age=0], which makes the browser forget the year that
    was promised before. *)
Theorem C118_fraction_refuted : exists y before s, nanos (max_age s) = 500000000 /\ forall t h h' now,
  secure (browse (map sent [(y, t, h, Some before)])) y (t + 1)%Z = true /\
  secure (browse (map sent [(y, t, h, Some before); (y, (t + 1)%Z, h', Some s)])) y now = false.
Proof.
  exists [lit "com"; lit "example"], (Hsts (from_secs 31536000) true false), (Hsts (Dur 0 500000000) true false). split; [reflexivity|]. intros t h h' now. split.
  - apply C118_secure; [repeat constructor; intros E; discriminate E|]. eexists _, t, _. split; [exists [], h, []; split; [reflexivity|intros ? ? ? []]|].
    split; [reflexivity|]. split; [|now left]. cbn [max_age secs from_secs]. lia.
  - unfold browse. cbn [map fold_left]. rewrite !hear_policy. reflexivity.
Qed.
Print Assumptions C118_fraction_refuted.

(** A service that reads the header of a response and puts what it read into its own keeps the host's promise and drops the
    one for subdomains, always. *)
Theorem C118_relay : forall y t t' h h' s s' x now, secs (max_age s) <= u64_max -> hsts_from_headers (hsts_apply h s) = Ok (Some s') ->
  (secure (browse (map sent [(y, t', h', Some s')])) x now = true <->
   x = y /\ 0 < secs (max_age s) /\ (now < t' + Z.of_N (secs (max_age s)) * 1000000000)%Z) /\
  (secure (browse (map sent [(y, t, h, Some s)])) x now = true <->
   (x = y \/ (include_subdomains s = true /\ exists l, x = y ++ l)) /\ 0 < secs (max_age s) /\ (now < t + Z.of_N (secs (max_age s)) * 1000000000)%Z).
Proof.
  intros y t t' h h' s s' x now L R. rewrite C60_reads_back_partial in R by exact L. inv R.
  assert (ONE : forall t h s x, (secure (browse (map sent [(y, t, h, Some s)])) x now = true <->
    (x = y \/ (include_subdomains s = true /\ exists l, x = y ++ l)) /\ 0 < secs (max_age s) /\ (now < t + Z.of_N (secs (max_age s)) * 1000000000)%Z)).
  { clear. intros t h s x. rewrite C118_secure by (repeat constructor; intros E; discriminate E). split.
    - intros (y0 & t0 & s0 & (b & h0 & a & E & _) & P & C & D). destruct b as [|r b]; [|destruct b; discriminate E]. inv E. auto.
    - intros (D & P & C). exists y, t, s. split; [exists [], h, []; split; [reflexivity|intros ? ? ? []]|]. auto. }
  split; [|apply ONE]. rewrite ONE. cbn [max_age secs from_secs include_subdomains]. split; [intros ([D|[D _]] & P & C); [auto|discriminate D]|intros (D & P & C); auto].
Qed.
Print Assumptions C118_relay.
Theorem C118_relay_refuted : exists y x s s', hsts_from_headers (hsts_apply [] s) = Ok (Some s') /\ forall t h,
  secure (browse (map sent [(y, t, h, Some s)])) x (t + 1)%Z = true /\ secure (browse (map sent [(y, t, h, Some s')])) x (t + 1)%Z = false.
Proof.
  exists [lit "com"; lit "example"], [lit "com"; lit "example"; lit "www"], (Hsts (from_secs 31536000) true false), (Hsts (from_secs 31536000) false false).
  assert (R : hsts_from_headers (hsts_apply [] (Hsts (from_secs 31536000) true false)) = Ok (Some (Hsts (from_secs 31536000) false false))) by (vm_compute; reflexivity).
  assert (L : secs (max_age (Hsts (from_secs 31536000) true false)) <= u64_max) by (apply N.leb_le; reflexivity).
  split; [exact R|]. intros t h.
  destruct (C118_relay [lit "com"; lit "example"] t t [] h _ _ [lit "com"; lit "example"; lit "www"] (t + 1)%Z L R) as [A _].
  destruct (C118_relay [lit "com"; lit "example"] t t h h _ _ [lit "com"; lit "example"; lit "www"] (t + 1)%Z L (C60_reads_back_partial h _ L)) as [_ B].
  clear R L. split.
  - apply (proj2 B). split; [right; split; [reflexivity|exists [lit "www"]; reflexivity]|]. split; [reflexivity|]. cbn [max_age secs from_secs]. lia.
  - apply not_true_is_false. intros E. apply (proj1 A) in E as [E _]. apply (f_equal (@length str)) in E. discriminate E.
Qed.
Print Assumptions C118_relay_refuted.

(** The default set of security headers protects the host for sixty days and nothing below it. *)
Theorem C118_default : forall h, exists h', security_default h = Ok h' /\ forall y t x now,
  (secure (browse [(y, t, h')]) x now = true <-> x = y /\ (now < t + 60 * 86400 * 1000000000)%Z).
Proof.
  intros h. destruct (C62_default_partial h) as (h' & E & R). exists h'. split; [exact E|]. intros y t x now.
  assert (G : h_get h' (lit "strict-transport-security") = Some [lit "max-age=5184000"]).
  { apply (proj1 R). unfold documented. cbn [In]. tauto. }
  unfold browse. cbn [fold_left]. unfold hear. rewrite G.
  assert (P : read_sts (lit "max-age=5184000") = Some (5184000, false)) by (vm_compute; reflexivity).
  rewrite P. change (5184000 =? 0) with false. cbv iota. unfold secure. cbn [forget filter existsb k_until k_host k_sub andb]. rewrite orb_false_r, andb_true_iff.
  change (Z.of_N 5184000 * 1000000000)%Z with (60 * 86400 * 1000000000)%Z. destruct (host_dec y x) as [D|D]; [subst; intuition lia|intuition congruence].
Qed.
Print Assumptions C118_default.

(** Three responses: the later word of [example.com] counts, and the silence of its [www] says nothing. *)
Example C118_example : let com := [lit "com"; lit "example"] in let www := com ++ [lit "www"] in
  let rs := [(com, 0%Z, [], Some (Hsts (from_secs 100) false false)); (com, 50%Z, [], Some (Hsts (from_secs 100) true true)); (www, 60%Z, [], None)] in
  Forall honest rs /\ secure (browse (map sent rs)) www 100000000049 = true /\ secure (browse (map sent rs)) www 100000000050 = false /\
  secure (browse (map sent rs)) [lit "com"] 70 = false.
Proof. cbv zeta. split; [repeat constructor; intros E; discriminate E|]. vm_compute. repeat split. Qed.
