(** C114: list headers extended along a chain of layers of middleware.  Each layer reads the header with [from_headers]
    (starting a new one when there is none), pushes its own entries, and writes it back with [apply]. *)
From Coq Require Import ZifyBool ZifyNat ZifyN Lia.
From Verif Require Import Base BaseFacts Headers HeadersFacts Typed TypedFacts Mime MimeFacts Float FloatFacts Method Negotiate NegotiateFacts NegotiateProps Other OtherProps
  Conditional ConditionalProps Cache CacheProps Timing TimingProps TimingExactProps Lists ExactProps LastProps OwnProps ListsProps ListsSentProps.
Import ListNotations.

Section Chain.
  Context {C : Type} (from : headers -> outcome (option C)) (write : headers -> C -> outcome headers) (empty : C) (add : C -> C -> C).
  (** One layer: what was there, with the layer's own entries pushed after it. *)
  Definition layer (own : C) (h : headers) : outcome headers :=
    let* o := from h in write h (add (match o with Some c => c | None => empty end) own).
  Fixpoint layers (owns : list C) (h : headers) : outcome headers :=
    match owns with [] => Ok h | own :: rest => let* h1 := layer own h in layers rest h1 end.

  Context (n : str) (fits : C -> Prop).
  Hypothesis back : forall c, fits c -> survives_o from write c.
  Hypothesis wr : writes_ok write n.
  Hypothesis closed : forall c d, c = empty \/ fits c -> fits d -> fits (add c d).

  Lemma chain : forall owns h o, from h = Ok o -> (forall c, o = Some c -> fits c) -> Forall fits owns -> owns <> [] ->
    exists h', layers owns h = Ok h' /\ from h' = Ok (Some (fold_left add owns (match o with Some c => c | None => empty end))) /\
      forall m, m <> n -> h_get h' m = h_get h m.
  Proof.
    induction owns as [|own rest IH]; intros h o R F O N; [congruence|]. inversion O as [|? ? O1 O2]; subst.
    set (c := match o with Some c => c | None => empty end).
    assert (Fc : fits (add c own)) by (apply closed; [unfold c; destruct o; auto|exact O1]).
    destruct (back _ Fc h) as (h1 & W & R1). cbn [layers fold_left]. unfold layer. rewrite R. cbn [bind]. fold c. rewrite W. cbn [bind].
    assert (K := proj2 (wr _ _ _ W)). destruct rest as [|o2 rest].
    - exists h1. cbn [layers fold_left]. auto.
    - destruct (IH h1 (Some (add c own)) R1) as (h' & L & R' & K'); [now intros ? [= <-]|exact O2|discriminate|].
      exists h'. split; [exact L|]. split; [exact R'|]. intros m M. rewrite K' by exact M. now apply K.
  Qed.
End Chain.

(** A header without a wildcard: the entries that were there, then those of each layer, in the order of the layers. *)
Definition extends {A} (from : headers -> outcome (option (list A))) (write : headers -> list A -> outcome headers) (n : str) (fit : A -> Prop) : Prop :=
  forall h o owns, from h = Ok o -> owns <> [] ->
    (forall l, o = Some l -> l <> [] /\ Forall fit l) -> Forall (fun l => l <> [] /\ Forall fit l) owns ->
    exists h', layers from write [] (@app A) owns h = Ok h' /\
      from h' = Ok (Some (match o with Some l => l | None => [] end ++ concat owns)) /\
      forall m, m <> n -> h_get h' m = h_get h m.
(** A header with a wildcard: the same, and the wildcard is set if it was set or a layer set it. *)
Definition push_all {A} (c d : list A * bool) : list A * bool := (fst c ++ fst d, orb (snd c) (snd d)).
Definition something {A} (fit : A -> Prop) (c : list A * bool) : Prop := Forall fit (fst c) /\ (fst c <> [] \/ snd c = true).
Definition extends_flagged {A} (from : headers -> outcome (option (list A * bool))) (write : headers -> list A * bool -> outcome headers) (n : str) (fit : A -> Prop) : Prop :=
  forall h o owns, from h = Ok o -> owns <> [] ->
    (forall c, o = Some c -> something fit c) -> Forall (something fit) owns ->
    exists h', layers from write ([], false) push_all owns h = Ok h' /\
      from h' = Ok (Some (match o with Some c => fst c | None => [] end ++ concat (map fst owns),
                          orb (match o with Some c => snd c | None => false end) (existsb snd owns))) /\
      forall m, m <> n -> h_get h' m = h_get h m.

Lemma fold_app : forall A (owns : list (list A)) l, fold_left (@app A) owns l = l ++ concat owns.
Proof. intros A. induction owns as [|o r IH]; intros l; cbn [fold_left concat]; [now rewrite app_nil_r|]. now rewrite IH, app_assoc. Qed.
Lemma fold_push : forall A (owns : list (list A * bool)) c, fold_left push_all owns c = (fst c ++ concat (map fst owns), orb (snd c) (existsb snd owns)).
Proof.
  intros A. induction owns as [|o r IH]; intros [l w]; cbn [fold_left map concat existsb fst snd]; [now rewrite app_nil_r, Bool.orb_false_r|].
  rewrite IH. unfold push_all. cbn [fst snd]. now rewrite <- app_assoc, Bool.orb_assoc.
Qed.

Lemma extends_if : forall A from write n (fit : A -> Prop), (forall l, l <> [] -> Forall fit l -> survives_o from write l) -> writes_ok write n ->
  extends from write n fit.
Proof.
  intros A from write n fit B W h o owns R N F O.
  destruct (chain from write [] (@app A) n (fun l => l <> [] /\ Forall fit l)) with (owns := owns) (h := h) (o := o) as (h' & L & R' & K); auto.
  - intros l [X Y]. now apply B.
  - intros c d [->|[C1 C2]] [D1 D2]; (split; [|apply Forall_app; auto]); [exact D1|destruct c; [congruence|discriminate]].
  - exists h'. split; [exact L|]. split; [|exact K]. rewrite R'. now rewrite fold_app.
Qed.
Lemma extends_flagged_if : forall A from write n (fit : A -> Prop), (forall l w, Forall fit l -> (l <> [] \/ w = true) -> survives_o from write (l, w)) ->
  writes_ok write n -> extends_flagged from write n fit.
Proof.
  intros A from write n fit B W h o owns R N F O.
  destruct (chain from write ([], false) push_all n (something fit)) with (owns := owns) (h := h) (o := o) as (h' & L & R' & K); auto.
  - intros [l w] [X Y]. now apply B.
  - intros [lc wc] [ld wd] Cc [D1 D2]. unfold something, push_all in *. cbn [fst snd] in *. destruct Cc as [[= -> ->]|[C1 C2]].
    + split; [exact D1|exact D2].
    + split; [apply Forall_app; auto|]. destruct C2 as [C2| ->]; [left; destruct lc; [congruence|discriminate]|right; reflexivity].
  - exists h'. split; [exact L|]. split; [|exact K]. rewrite R', fold_push. now destruct o as [[]|].
Qed.

(** Writers that cannot fail. *)
Definition always {A} (apply : headers -> A -> headers) (h : headers) (x : A) : outcome headers := Ok (apply h x).
Lemma survives_always : forall A from (apply : headers -> A -> headers) x, survives from apply x -> survives_o from (always apply) x.
Proof. intros A from apply x S h. exists (apply h x). split; [reflexivity|apply S]. Qed.
Lemma writes_always : forall A (apply : headers -> A -> headers) n, writes apply n -> writes_ok (always apply) n.
Proof. intros A apply n W h x h' [= <-]. apply W. Qed.

Theorem C114_if_match :
  extends_flagged (cond_from_headers IfMatch) (always (cond_apply IfMatch)) (lit "if-match") (fun e => Forall etagc (opaque e) /\ ~ In 44 (opaque e)) /\
  extends_flagged (cond_from_headers IfNoneMatch) (always (cond_apply IfNoneMatch)) (lit "if-none-match") (fun e => Forall etagc (opaque e) /\ ~ In 44 (opaque e)).
Proof.
  split; apply extends_flagged_if;
    try (intros l w F N; apply survives_always, C84_if_match; auto); apply writes_always; apply C83_conditional_cache_auth.
Qed.
Theorem C114_vary : extends_flagged vary_from_headers vary_apply (lit "vary")
  (fun x => is_ascii x = true /\ to_lower x = x /\ ~ In 44 x /\ trim x = x /\ x <> lit "*" /\ x <> []).
Proof.
  apply extends_flagged_if; [|apply C83_conditional_cache_auth]. intros l w F N. apply C84_vary; [eapply Forall_impl; [|exact F]; cbv beta; tauto|].
  split; [eapply Forall_impl; [|exact F]; cbv beta; tauto|]. split; [exact N|]. intros [-> _]. inversion F as [|? ? X]; subst. tauto.
Qed.
Theorem C114_clear_site_data : extends_flagged clear_from_headers (always clear_apply) (lit "clear-site-data") (fun _ => True).
Proof.
  apply extends_flagged_if; [|apply writes_always; apply C83_conditional_cache_auth]. intros l w _ N. apply survives_always. now apply C84_clear_site_data.
Qed.
Definition coding_fits (f : family) (p : proposal) : Prop := in_family f (p_coding p) = true /\ (p_weight p = None \/ thousandth (p_weight p)).
Theorem C114_codings :
  extends_flagged (accept_from_headers Content) (always (accept_apply Content)) (lit "accept-encoding") (coding_fits Content) /\
  extends_flagged (accept_from_headers Transfer) (always (accept_apply Transfer)) (lit "te") (coding_fits Transfer).
Proof.
  split; apply extends_flagged_if; try (intros l w F _; apply survives_always; now apply C84_codings); apply writes_always;
    apply (C83_content bool (fun _ _ => None) (fun _ => []) None).
Qed.
Theorem C114_accept : extends_flagged media_from_headers (always media_apply) (lit "accept")
  (fun p => (exists s, mime_parse s = Ok (mp_type p)) /\ thousandth (mp_weight p) /\ ~ In (lit "q") (map fst (params (mp_type p))) /\
            forall n v, In (n, v) (params (mp_type p)) -> ~ In 44 v).
Proof.
  apply extends_flagged_if; [|apply writes_always; apply (C83_content bool (fun _ _ => None) (fun _ => []) None)].
  intros l w F _. apply survives_always, C84_accept; (eapply Forall_impl; [|exact F]; cbv beta; tauto).
Qed.
Theorem C114_origins : forall (url : Type) (p : str -> option url) (j : url -> str -> option url) (s : url -> str), url_contract p j s ->
  extends_flagged (origins_from_headers p) (always (origins_apply s)) (lit "timing-allow-origin") (fun u => ~ In 44 (s u)).
Proof.
  intros url p j s Ct. apply extends_flagged_if; [|apply writes_always; intros h x; apply apply_replaced].
  intros l w F N. apply survives_always. now apply (C84_origins_partial url p j s Ct).
Qed.
Theorem C114_cache_control : extends cache_from_headers (always cache_apply) (lit "cache-control")
  (fun d => u64_secs d /\ (match dur_of d with Some t => nanos t = 0 | None => True end) /\ forall t, d <> SMaxAge t).
Proof.
  apply extends_if; [|apply writes_always; apply C83_conditional_cache_auth]. intros l _ F. apply survives_always, C84_cache_control;
    (eapply Forall_impl; [|exact F]; cbv beta; tauto).
Qed.
Theorem C114_server_timing : forall show_f64 nanos_of, show_contract show_f64 ->
  extends (timing_from_headers nanos_of) (always (timing_apply show_f64)) (lit "server-timing") (fun m => text_ok m /\ dur_back nanos_of (m_dur m)).
Proof.
  intros sh nn Ct. apply extends_if; [|apply writes_always; intros h x; apply apply_replaced].
  intros l N F. apply survives_always. intros h. apply C66_round_trip_iff; [exact Ct|]. auto.
Qed.
(** Allow, a hash set: each layer inserts its methods and writes the set in whatever order it is iterated. *)
Definition allow_layer (own : list method) (h h' : headers) : Prop :=
  exists o order, allow_from_headers h = Ok o /\ NoDup order /\
    (forall m, In m order <-> In m (match o with Some s => s | None => [] end) \/ In m own) /\ h' = allow_apply h order.
Fixpoint allow_layers (owns : list (list method)) (h h' : headers) : Prop :=
  match owns with [] => h' = h | own :: rest => exists h1, allow_layer own h h1 /\ allow_layers rest h1 h' end.
Theorem C114_allow : forall owns h h' o, allow_from_headers h = Ok o -> (exists own, hd_error owns = Some own /\ own <> []) -> allow_layers owns h h' ->
  (exists s, allow_from_headers h' = Ok (Some s) /\ NoDup s /\
     forall m, In m s <-> In m (match o with Some s => s | None => [] end) \/ exists own, In own owns /\ In m own) /\
  forall n, n <> lit "allow" -> h_get h' n = h_get h n.
Proof.
  assert (G : forall owns h h' o, allow_from_headers h = Ok o -> (match o with Some s => s | None => [] end ++ hd [] owns <> []) -> owns <> [] -> allow_layers owns h h' ->
    (exists s, allow_from_headers h' = Ok (Some s) /\ NoDup s /\
       forall m, In m s <-> In m (match o with Some s => s | None => [] end) \/ exists own, In own owns /\ In m own) /\
    forall n, n <> lit "allow" -> h_get h' n = h_get h n).
  { induction owns as [|own rest IH]; intros h h' o R E N L; [congruence|]. cbn [allow_layers] in L. destruct L as (h1 & (o' & order & R' & D & I & ->) & L).
    rewrite R in R'. injection R' as <-. assert (Q : order <> []).
    { intros ->. cbn [hd] in E. destruct (match o with Some s => s | None => [] end ++ own) as [|m l] eqn:X; [congruence|].
      apply (proj2 (I m)). apply in_app_iff. rewrite X. now left. }
    destruct (C59_round_trip_partial h order Q) as (s & Rs & Ds & Is).
    assert (K : forall n, n <> lit "allow" -> h_get (allow_apply h order) n = h_get h n) by (intros n X; now apply get_apply_other).
    destruct rest as [|o2 rest].
    - cbn [allow_layers] in L. subst h'. split; [|exact K]. exists s. split; [exact Rs|]. split; [exact Ds|]. intros m. rewrite Is, I. split.
      + intros [X|X]; [now left|right; exists own; split; [now left|exact X]].
      + intros [X|(x & [<-|[]] & X)]; auto.
    - destruct (IH _ h' (Some s) Rs) as [(t & Rt & Dt & It) K2]; [|discriminate|exact L|].
      + destruct order as [|m order]; [congruence|]. destruct s as [|y s]; [|discriminate]. exfalso. apply (proj2 (Is m)). now left.
      + split; [|intros n X; rewrite K2 by exact X; now apply K]. exists t. split; [exact Rt|]. split; [exact Dt|]. intros m. rewrite It, Is, I. split.
        * intros [[X|X]|(x & J & X)]; [now left|right; exists own; split; [now left|exact X]|right; exists x; split; [now right|exact X]].
        * intros [X|(x & [<-|J] & X)]; [auto|auto|right; exists x; auto]. }
  intros owns h h' o R (own & Eo & No) L. apply G; auto; destruct owns as [|a r]; try discriminate; injection Eo as ->. cbn [hd].
  destruct (match o with Some s => s | None => [] end); [exact No|discriminate].
Qed.
(** Whatever the order, every layer goes through. *)
Theorem C114_allow_goes_on : forall own h o order, allow_from_headers h = Ok o -> own <> [] -> NoDup order ->
  (forall m, In m order <-> In m (match o with Some s => s | None => [] end) \/ In m own) ->
  allow_layer own h (allow_apply h order) /\ exists s, allow_from_headers (allow_apply h order) = Ok (Some s).
Proof.
  intros own h o order R N D I. split; [exists o, order; auto|]. destruct (C59_round_trip_partial h order) as (s & Rs & _); [|eauto].
  intros ->. destruct own as [|m own]; [congruence|]. apply (proj2 (I m)). right. now left.
Qed.
Print Assumptions C114_allow.
Print Assumptions C114_allow_goes_on.
Example C114_allow_example : exists h', allow_layers [[M_Put; M_Get]; [M_Get; M_Head]] [] h' /\ h_get h' (lit "allow") = Some [lit "HEAD, PUT, GET"].
Proof.
  exists [(lit "allow", [lit "HEAD, PUT, GET"])]. split; [|reflexivity]. exists [(lit "allow", [lit "GET, PUT"])]. split.
  - exists None, [M_Get; M_Put]. split; [reflexivity|]. split; [repeat constructor; cbn; intuition discriminate|]. split; [cbn; tauto|reflexivity].
  - exists [(lit "allow", [lit "HEAD, PUT, GET"])]. split; [|reflexivity]. exists (Some [M_Put; M_Get]), [M_Head; M_Put; M_Get].
    split; [vm_compute; reflexivity|]. split; [repeat constructor; cbn; intuition discriminate|]. split; [cbn; tauto|vm_compute; reflexivity].
Qed.
Print Assumptions C114_if_match.
Print Assumptions C114_vary.
Print Assumptions C114_clear_site_data.
Print Assumptions C114_codings.
Print Assumptions C114_accept.
Print Assumptions C114_origins.
Print Assumptions C114_cache_control.
Print Assumptions C114_server_timing.

Example C114_vary_example :
  let h := [(lit "vary", [lit "accept"]); (lit "x", [lit "y"])] in
  vary_from_headers h = Ok (Some ([lit "accept"], false)) /\
  match layers vary_from_headers vary_apply ([], false) push_all [([lit "origin"], false); ([], true); ([lit "accept-encoding"; lit "origin"], false)] h with
  | Ok h' => vary_from_headers h' = Ok (Some ([lit "accept"; lit "origin"; lit "accept-encoding"; lit "origin"], true)) /\ h_get h' (lit "x") = Some [lit "y"]
  | _ => False
  end.
Proof. vm_compute. auto. Qed.
Example C114_if_match_example : let a := ([Weak (lit "a")], false) in let b := ([Strong (lit "b"); Weak (lit "a")], true) in
  Forall (something (fun e => Forall etagc (opaque e) /\ ~ In 44 (opaque e))) [a; b] /\
  exists h', layers (cond_from_headers IfMatch) (always (cond_apply IfMatch)) ([], false) push_all [a; b] [] = Ok h' /\
    h_get h' (lit "if-match") = Some [lit "W/""a"", ""b"", W/""a"", *"].
Proof.
  split; [|exists [(lit "if-match", [lit "W/""a"", ""b"", W/""a"", *"])]; split; vm_compute; reflexivity].
  repeat (constructor; cbn [fst snd]); try (left; discriminate); try (unfold etagc; cbn; lia); cbn; intuition discriminate.
Qed.
Example C114_cache_example :
  match layers cache_from_headers (always cache_apply) [] (@app directive) [[MaxAge (from_secs 60)]; [Private; NoTransform]] [] with
  | Ok h' => cache_from_headers h' = Ok (Some [MaxAge (from_secs 60); Private; NoTransform])
  | _ => False
  end.
Proof. vm_compute. reflexivity. Qed.

(** The shared lifetime an origin sends is lost on the way through any one layer that adds a directive: it is read, but
    written back under a name that nobody reads. *)
Theorem C114_shared_lifetime_refuted : exists h h',
  cache_from_headers h = Ok (Some [SMaxAge (from_secs 600)]) /\ h_get h (lit "cache-control") = Some [lit "s-maxage=600"] /\
  layer cache_from_headers (always cache_apply) [] (@app directive) [Public] h = Ok h' /\
  h_get h' (lit "cache-control") = Some [lit "s-max-age=600, public"] /\ cache_from_headers h' = Ok (Some [Public]).
Proof.
  exists [(lit "cache-control", [lit "s-maxage=600"])], [(lit "cache-control", [lit "s-max-age=600, public"])]. vm_compute. repeat split; reflexivity.
Qed.
Print Assumptions C114_shared_lifetime_refuted.
(** A layer that adds an entity tag holding a comma goes through; the layer after it fails, though its own tag is fine. *)
Theorem C114_comma_refuted : exists h1, let from := cond_from_headers IfNoneMatch in let w := always (cond_apply IfNoneMatch) in
  layer from w ([], false) push_all ([Strong (lit "a,b")], false) [] = Ok h1 /\
  layer from w ([], false) push_all ([Strong (lit "c")], false) h1 = Err 400.
Proof. exists [(lit "if-none-match", [lit """a,b"""])]. vm_compute. split; reflexivity. Qed.
Print Assumptions C114_comma_refuted.
(** A layer that adds nothing to a header that is not there writes an empty one, and what the layer after it writes is
    read with an empty name before its own. *)
Theorem C114_nothing_refuted : exists h1, let from := vary_from_headers in let w := vary_apply in
  layer from w ([], false) push_all ([], false) [] = Ok h1 /\ h_get h1 (lit "vary") = Some [[]] /\
  exists h2, layer from w ([], false) push_all ([lit "origin"], false) h1 = Ok h2 /\ vary_from_headers h2 = Ok (Some ([[]; lit "origin"], false)).
Proof.
  exists [(lit "vary", [[]])]. split; [vm_compute; reflexivity|]. split; [vm_compute; reflexivity|].
  exists [(lit "vary", [lit ", origin"])]. split; [vm_compute; reflexivity|]. vm_compute. reflexivity.
Qed.
Print Assumptions C114_nothing_refuted.
