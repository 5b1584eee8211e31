(** C121: what a browser makes of any chain of calls of the security helpers.  The browser is written down from the HTML, Fetch
    and Referrer Policy standards and RFC 6797. *)
From Coq Require Import ZifyBool ZifyNat ZifyN Lia ZArith.
From Verif Require Import Base BaseFacts Headers HeadersFacts HeadersProps Typed TypedFacts Security SecurityProps Rfc InteropProps BrowserProps.

(** ** The browser *)
Definition field (h : headers) (n : str) : list str := match h_get h n with Some vs => flat_map (elements true) vs | None => [] end.
(** HTML, check of X-Frame-Options: values in any case, several different ones are refused if one of them is a known one. *)
Inductive framing : Type := Anybody | SamePages | Nobody.
Definition framing_of (h : headers) : framing :=
  match nodup (list_eq_dec N.eq_dec) (map to_lower (field h (lit "x-frame-options"))) with
  | [] => Anybody
  | [v] => if seqb v (lit "deny") then Nobody else if seqb v (lit "sameorigin") then SamePages else Anybody
  | vs => if existsb (fun v => existsb (seqb v) [lit "deny"; lit "allowall"; lit "sameorigin"]) vs then Nobody else Anybody
  end.
(** Fetch, X-Content-Type-Options: whether the type may be guessed; the first value counts. *)
Definition guesses (h : headers) : bool :=
  match field h (lit "x-content-type-options") with v :: _ => negb (seqb (to_lower v) (lit "nosniff")) | [] => true end.
(** Referrer Policy, 8.1: the last known word counts. *)
Definition policies : list str := map (fun s => lit s)
  ["no-referrer"; "no-referrer-when-downgrade"; "same-origin"; "origin"; "strict-origin"; "origin-when-cross-origin";
   "strict-origin-when-cross-origin"; "unsafe-url"]%string.
Definition referrer_of (h : headers) : option str :=
  fold_left (fun p t => if existsb (seqb t) policies then Some t else p) (field h (lit "referrer-policy")) None.

(** ** The calls *)
Inductive helper : Type :=
| Dns | Frames (g : option frame_options) | Powered (v : option str) | Sts | Sniff | Xss | Referrer (r : option referrer_options) | Defaults.
Definition help (h : headers) (k : helper) : outcome headers :=
  match k with
  | Dns => dns_prefetch_control h | Frames g => frameguard h g | Powered v => Ok (powered_by h v) | Sts => hsts_default h
  | Sniff => nosniff h | Xss => xss_filter h | Referrer r => referrer_policy h r | Defaults => security_default h
  end.
Fixpoint helps (h : headers) (ks : list helper) : outcome headers :=
  match ks with [] => Ok h | k :: ks => let* h := help h k in helps h ks end.

(** What a call asks for. *)
Definition frame_wish (k : helper) : list framing :=
  match k with Frames (Some FrameDeny) => [Nobody] | Frames _ | Defaults => [SamePages] | _ => [] end.
Definition sniff_wish (k : helper) : list bool := match k with Sniff | Defaults => [false] | _ => [] end.
Definition referrer_wish (k : helper) : list (option str) :=
  match k with
  | Referrer r => [Some (lit (match r with
      | None | Some NoReferrer => "no-referrer" | Some NoReferrerDowngrade => "no-referrer-when-downgrade" | Some ReferrerSameOrigin => "same-origin"
      | Some Origin => "origin" | Some StrictOrigin => "strict-origin" | Some CrossOrigin => "origin-when-cross-origin"
      | Some StrictCrossOrigin => "strict-origin-when-cross-origin" | Some UnsafeUrl => "unsafe-url" end))]
  | _ => []
  end.
Definition sts_wish (b : list known) (x : host) (t : Z) (k : helper) : list (list known) :=
  match k with Sts | Defaults => [Known x (t + 5184000 * 1000000000)%Z false :: forget x b] | _ => [] end.
Definition touched : list str := map (fun s => lit s)
  ["x-dns-prefetch-control"; "x-frame-options"; "strict-transport-security"; "x-content-type-options"; "x-xss-protection"; "referrer-policy"]%string.

(** A call, by the headers. *)
Definition lines (k : helper) (h : headers) (n : str) : option header_values :=
  let put n' v := if seqb n n' then Some [v] else h_get h n in
  match k with
  | Dns => put (lit "x-dns-prefetch-control") (lit "on")
  | Frames g => put (lit "x-frame-options") (match g with Some FrameDeny => lit "deny" | _ => lit "sameorigin" end)
  | Powered _ => h_get h n
  | Sts => put (lit "strict-transport-security") (lit "max-age=5184000")
  | Sniff => put (lit "x-content-type-options") (lit "nosniff")
  | Xss => put (lit "x-xss-protection") (lit "1; mode=block")
  | Referrer r => if seqb n (lit "referrer-policy") then Some (match h_get h n with Some vs => vs | None => [] end ++ [referrer_str r]) else h_get h n
  | Defaults => match find (fun e => seqb n (fst e)) documented with Some e => Some [snd e] | None => h_get h n end
  end.
Lemma put_lines : forall h n' v n, h_get (hm_insert h n' [v]) n = if seqb n n' then Some [v] else h_get h n.
Proof.
  intros h n' v n. unfold h_get. destruct (seqb n n') eqn:E; [apply seqb_eq in E; subst; apply hm_get_insert_same|].
  apply hm_get_insert_other. intros X. subst. now rewrite seqb_refl in E.
Qed.
Lemma help_lines : forall h k, exists h', help h k = Ok h' /\ forall n, n <> lit "X-Powered-By" -> h_get h' n = lines k h n.
Proof.
  assert (D : forall h n v, is_ascii n = true -> is_ascii v = true -> exists h', put h n v = Ok h' /\ forall m, m <> lit "X-Powered-By" -> h_get h' m = if seqb m (to_lower n) then Some [v] else h_get h m).
  { intros h n v N V. eexists. split; [now apply put_ok|]. intros m _. apply put_lines. }
  intros h [|g|v| | | |r|]; cbn [help lines].
  - apply D; reflexivity.
  - destruct (C62_frameguard h g) as (h' & E & G & O). exists h'. split; [exact E|]. intros n _. destruct (seqb n (lit "x-frame-options")) eqn:X.
    + apply seqb_eq in X. subst n. exact G.
    + apply O. intros Y. subst n. now rewrite seqb_refl in X.
  - exists (powered_by h v). split; [reflexivity|]. intros n N. destruct v as [v|]; cbn [powered_by]; unfold h_insert, h_remove, h_get; cbn [to_header_values fst].
    + now apply hm_get_insert_other.
    + now apply hm_get_remove_other.
  - apply D; reflexivity.
  - apply D; reflexivity.
  - apply D; reflexivity.
  - destruct (C62_referrer_policy h r) as (h' & E & G & O). exists h'. split; [exact E|]. intros n _. destruct (seqb n (lit "referrer-policy")) eqn:X.
    + apply seqb_eq in X. subst n. exact G.
    + apply O. intros Y. subst n. now rewrite seqb_refl in X.
  - destruct (C62_default_partial h) as (h' & E & G & O). exists h'. split; [exact E|]. intros n N.
    destruct (find (fun e => seqb n (fst e)) documented) as [[n' v]|] eqn:X.
    + apply find_some in X as [I X]. cbn [fst snd] in *. apply seqb_eq in X. subst n'. exact (G n v I).
    + apply O; [|exact N]. intros I. apply in_map_iff in I as (e & X1 & I). pose proof (find_none _ _ X e I) as Z. cbn beta in Z. subst n. now rewrite seqb_refl in Z.
Qed.

Lemma last_app' : forall A (a b : list A) d, last (a ++ b) d = last b (last a d).
Proof.
  intros A a. induction a as [|x a IH]; intros b d; [reflexivity|]. destruct b as [|y b]; [now rewrite app_nil_r|].
  change ((x :: a) ++ y :: b) with (x :: (a ++ y :: b)). 
  assert (L : forall (l : list A) z d, last (z :: l) d = last l z).
  { induction l as [|w l IHl]; intros z d'; [reflexivity|]. change (last (z :: w :: l) d') with (last (w :: l) d'). rewrite !IHl. reflexivity. }
  rewrite !L. rewrite IH. rewrite !L. reflexivity.
Qed.
Lemma chain_last : forall X (obs : headers -> X) (wish : helper -> list X),
  (forall h k h', help h k = Ok h' -> obs h' = last (wish k) (obs h)) ->
  forall ks h h', helps h ks = Ok h' -> obs h' = last (flat_map wish ks) (obs h).
Proof.
  intros X obs wish H ks. induction ks as [|k ks IH]; intros h h' E; cbn [helps flat_map] in *; [now inv E|].
  destruct (help h k) as [h1| |] eqn:K; cbn [bind] in E; try discriminate E. now rewrite last_app', <- (H h k h1 K), (IH h1 h' E).
Qed.
Lemma field_get : forall h h' n, h_get h n = h_get h' n -> field h n = field h' n.
Proof. intros h h' n E. unfold field. now rewrite E. Qed.

(** No call panics; of all calls of a kind the last one counts, whatever the headers were before; nothing else changes. *)
Theorem C121_last_counts : forall ks h, exists h', helps h ks = Ok h' /\
  framing_of h' = last (flat_map frame_wish ks) (framing_of h) /\
  guesses h' = last (flat_map sniff_wish ks) (guesses h) /\
  referrer_of h' = last (flat_map referrer_wish ks) (referrer_of h) /\
  (forall b x t, hear b (x, t, h') = last (flat_map (sts_wish b x t) ks) (hear b (x, t, h))) /\
  forall n, ~ In n touched -> n <> lit "X-Powered-By" -> h_get h' n = h_get h n.
Proof.
  intros ks h. assert (T : exists h', helps h ks = Ok h').
  { revert h. induction ks as [|k ks IH]; intros h; cbn [helps]; [now exists h|]. destruct (help_lines h k) as (h1 & E & _). rewrite E. cbn [bind]. apply IH. }
  destruct T as [h' T]. exists h'. refine (conj T (conj _ (conj _ (conj _ (conj _ _))))).
  - apply (chain_last _ framing_of frame_wish); [|exact T]. clear. intros h k h1 E. destruct (help_lines h k) as (h2 & E2 & L). rewrite E in E2. inv E2.
    specialize (L (lit "x-frame-options") ltac:(vm_compute; discriminate)). unfold framing_of, field. rewrite L.
    destruct k as [|[[]|]|v| | | |r|]; cbn [frame_wish last]; vm_compute; reflexivity.
  - apply (chain_last _ guesses sniff_wish); [|exact T]. clear. intros h k h1 E. destruct (help_lines h k) as (h2 & E2 & L). rewrite E in E2. inv E2.
    specialize (L (lit "x-content-type-options") ltac:(vm_compute; discriminate)). unfold guesses, field. rewrite L.
    destruct k as [|g|v| | | |r|]; cbn [sniff_wish last]; vm_compute; reflexivity.
  - apply (chain_last _ referrer_of referrer_wish); [|exact T]. clear. intros h k h1 E. destruct (help_lines h k) as (h2 & E2 & L). rewrite E in E2. inv E2.
    specialize (L (lit "referrer-policy") ltac:(vm_compute; discriminate)). destruct k as [|g|v| | | |r|];
      try (unfold referrer_of; rewrite (field_get h2 h); [reflexivity|exact L]).
    unfold referrer_of, field. rewrite L. unfold lines. change (seqb (lit "referrer-policy") (lit "referrer-policy")) with true. cbn match.
    rewrite flat_map_app, fold_left_app. cbn [flat_map]. rewrite app_nil_r. destruct r as [[]|]; vm_compute; reflexivity.
  - intros b x t. apply (chain_last _ (fun h => hear b (x, t, h)) (sts_wish b x t)); [|exact T]. clear T. clear. intros h k h1 E. destruct (help_lines h k) as (h2 & E2 & L). rewrite E in E2. inv E2.
    specialize (L (lit "strict-transport-security") ltac:(vm_compute; discriminate)). unfold hear. rewrite L.
    assert (R : read_sts (lit "max-age=5184000") = Some (5184000, false)) by (vm_compute; reflexivity).
    destruct k as [|g|v| | | |r|]; unfold lines;
      try (change (seqb (lit "strict-transport-security") (lit "x-dns-prefetch-control")) with false);
      try (change (seqb (lit "strict-transport-security") (lit "x-frame-options")) with false);
      try (change (seqb (lit "strict-transport-security") (lit "x-content-type-options")) with false);
      try (change (seqb (lit "strict-transport-security") (lit "x-xss-protection")) with false);
      try (change (seqb (lit "strict-transport-security") (lit "referrer-policy")) with false);
      try (change (seqb (lit "strict-transport-security") (lit "strict-transport-security")) with true);
      try (change (find (fun e => seqb (lit "strict-transport-security") (fst e)) documented) with (Some (lit "strict-transport-security", lit "max-age=5184000")));
      cbn match; cbn [snd sts_wish last]; try reflexivity; rewrite R; reflexivity.
  - intros n N P. revert h h' T. induction ks as [|k ks IH]; intros h h' T; cbn [helps] in T; [now inv T|].
    destruct (help_lines h k) as (h1 & E & L). rewrite E in T. cbn [bind] in T. rewrite (IH h1 h' T), (L n P).
    assert (NE : forall m, In m touched -> seqb n m = false).
    { intros m I. destruct (seqb n m) eqn:X; [|reflexivity]. apply seqb_eq in X. subst. contradiction. }
    cbn [touched map In] in NE. destruct k; cbn [lines documented find fst]; rewrite ?NE by intuition; reflexivity.
Qed.
Print Assumptions C121_last_counts.

(** Chains that end alike for every kind look alike. *)
Theorem C121_same : forall ks ks' h h1 h2, helps h ks = Ok h1 -> helps h ks' = Ok h2 ->
  flat_map frame_wish ks <> [] -> flat_map referrer_wish ks <> [] ->
  last (flat_map frame_wish ks) Anybody = last (flat_map frame_wish ks') Anybody ->
  last (flat_map referrer_wish ks) None = last (flat_map referrer_wish ks') None ->
  framing_of h1 = framing_of h2 /\ referrer_of h1 = referrer_of h2.
Proof.
  intros ks ks' h h1 h2 E1 E2 N1 N2 F R.
  destruct (C121_last_counts ks h) as (a & A & AF & _ & AR & _). rewrite E1 in A. inv A.
  destruct (C121_last_counts ks' h) as (b & B & BF & _ & BR & _). rewrite E2 in B. inv B.
  rewrite AF, BF, AR, BR.
  assert (G : forall X (P : X -> Prop) (l l' : list X) (d d' : X), Forall P l -> Forall P l' -> ~ P d -> l <> [] -> last l d = last l' d -> last l d' = last l' d').
  { intros X P l l' d d' Fl Fl' ND N E. destruct l' as [|y l'].
    - exfalso. cbn [last] in E. destruct (@exists_last _ l N) as (i & z & ->). rewrite last_last in E. subst z.
      apply Forall_app in Fl as [_ Fl]. inversion Fl; subst. contradiction.
    - destruct (@exists_last _ l N) as (i & z & ->). destruct (@exists_last _ (y :: l') ltac:(discriminate)) as (i' & z' & Y). rewrite Y in *. rewrite !last_last in *. exact E. }
  split.
  - apply (G _ (fun f => f <> Anybody) _ _ Anybody); try assumption; try (apply Forall_flat_map; apply Forall_forall; intros [| [[]|] | | | | | |] _; repeat constructor; discriminate). intros X; now apply X.
  - apply (G _ (fun f => f <> None) _ _ None); try assumption; try (apply Forall_flat_map; apply Forall_forall; intros [| | | | | | |] _; repeat constructor; discriminate). intros X; now apply X.
Qed.
Print Assumptions C121_same.

Example C121_example :
  let h := [(lit "referrer-policy", [lit "origin, what"]); (lit "x-frame-options", [lit "deny"; lit "Sameorigin"]); (lit "x-content-type-options", [lit "x"])] in
  framing_of h = Nobody /\ referrer_of h = Some (lit "origin") /\ guesses h = true /\
  exists h', helps h [Frames (Some FrameDeny); Referrer (Some UnsafeUrl); Defaults; Referrer (Some ReferrerSameOrigin); Powered (Some (lit "x"))] = Ok h' /\
    framing_of h' = SamePages /\ referrer_of h' = Some (lit "same-origin") /\ guesses h' = false /\
    h_get h' (lit "referrer-policy") = Some [lit "origin, what"; lit "unsafe-url"; lit "same-origin"] /\
    hear [] ([lit "com"], 0%Z, h') = [Known [lit "com"] 5184000000000000 false].
Proof. cbn zeta. do 3 (split; [vm_compute; reflexivity|]). eexists. split; [vm_compute; reflexivity|]. vm_compute. repeat split. Qed.
