(** C127: what a browser forgets.  The browser is written down from Clear Site Data (W3C), section 4: it reads the quoted names of all header
    lines and forgets the kinds of data they name, of the site that answered. *)
From Verif Require Import Base BaseFacts Headers HeadersFacts Typed TypedFacts Cache CacheProps RoundTripProps Rfc InteropProps.

Definition in_quotes (e : str) : bool := match e with c :: _ => c =? 34 | [] => false end.
Definition named (h : headers) : list str :=
  filter in_quotes
    (match h_get h (lit "clear-site-data") with Some vs => flat_map (elements true) vs | None => [] end).
Definition forgets (h : headers) (k : clear) : bool := existsb (fun e => seqb (unquote e) (clear_meaning k) || seqb (unquote e) (lit "*")) (named h).

(** Something is kept for a site, or a site answers. *)
Inductive moment : Type := Keeps (site : N) (k : clear) (item : N) | Answers (site : N) (h : headers).
Definition memory := list (N * clear * N).
Definition live (m : memory) (e : moment) : memory :=
  match e with
  | Keeps s k i => (s, k, i) :: m
  | Answers s h => filter (fun x => let '(s', k, _) := x in negb ((s =? s') && forgets h k)) m
  end.

Definition asked (l : list clear) (w : bool) (k : clear) : Prop := w = true \/ In k l.
Definition clear_eqb (a b : clear) : bool := seqb (clear_meaning a) (clear_meaning b).
Lemma clear_eqb_eq : forall a b, clear_eqb a b = true <-> a = b.
Proof. intros [] []; split; intros H; try reflexivity; discriminate H. Qed.

(** What a response names with [ClearSiteData] is what the browser forgets. *)
Theorem C127_forgets : forall h l w k, forgets (clear_apply h (l, w)) k = true <-> asked l w k.
Proof.
  intros h l w k. unfold forgets, named. unfold clear_apply. change CLEAR_SITE_DATA with (lit "clear-site-data"). rewrite get_apply. cbn [flat_map]. rewrite app_nil_r.
  assert (E : elements true (clear_value (l, w)) = map clear_str l ++ (if w then [lit """*"""] else [])).
  { unfold clear_value. cbn [fst snd]. apply elements_list.
    - split; [reflexivity|]. split; [reflexivity|discriminate].
    - apply Forall_forall. intros x X. apply in_map_iff in X as (m & <- & _). destruct m; (split; [reflexivity|]); (split; [reflexivity|discriminate]). }
  rewrite E. rewrite filter_app, existsb_app.
  assert (F : filter in_quotes (map clear_str l) = map clear_str l).
  { clear E. induction l as [|c l IH]; [reflexivity|]. cbn [map filter]. rewrite IH. destruct c; reflexivity. }
  rewrite F. unfold asked. rewrite orb_true_iff.
  assert (A : existsb (fun e => seqb (unquote e) (clear_meaning k) || seqb (unquote e) (lit "*")) (map clear_str l) = true <-> In k l).
  { rewrite existsb_exists. split.
    - intros (x & I & X). apply in_map_iff in I as (c & <- & I). assert (Y : clear_eqb c k = true) by (destruct c, k; vm_compute in X |- *; congruence). apply clear_eqb_eq in Y as ->. exact I.
    - intros I. exists (clear_str k). split; [now apply in_map|]. destruct k; reflexivity. }
  rewrite A. destruct w; cbn [existsb filter].
  - split; [now left|]. intros _. right. destruct k; reflexivity.
  - split; [intros [I|I]; [now right|discriminate I]|intros [X|I]; [discriminate X|now left]].
Qed.
Print Assumptions C127_forgets.
(** A response without the header makes it forget nothing. *)
Theorem C127_silent : forall h k, h_get h (lit "clear-site-data") = None -> forgets h k = false.
Proof. intros h k N. unfold forgets, named. rewrite N. reflexivity. Qed.
Print Assumptions C127_silent.

(** A whole life: what is known at the end was kept at some moment after which the site never answered with a header that names its kind. *)
Theorem C127_remembered : forall life m s k i, In (s, k, i) (fold_left live life m) <->
  (In (s, k, i) m /\ forall h, In (Answers s h) life -> forgets h k = false) \/
  exists before after, life = before ++ Keeps s k i :: after /\ forall h, In (Answers s h) after -> forgets h k = false.
Proof.
  intros life. induction life as [|e life IH]; intros m s k i; cbn [fold_left].
  - split; [intros I; left; split; [exact I|intros h []]|]. intros [[I _]|(b & a & E & _)]; [exact I|]. now destruct b.
  - rewrite IH. destruct e as [s1 k1 i1|s1 h1]; cbn [live].
    + split.
      * intros [[[E|I] F]|(b & a & -> & F)].
        -- injection E as -> -> ->. right. exists [], life. split; [reflexivity|exact F].
        -- left. split; [exact I|]. intros h [X|X]; [discriminate X|now apply F].
        -- right. exists (Keeps s1 k1 i1 :: b), a. split; [reflexivity|exact F].
      * intros [[I F]|(b & a & E & F)].
        -- left. split; [now right|]. intros h X. apply F. now right.
        -- destruct b as [|x b]; cbn [app] in E; inv E.
           ++ left. split; [now left|exact F].
           ++ right. exists b, a. split; [reflexivity|exact F].
    + rewrite filter_In. split.
      * intros [[[I G] F]|(b & a & -> & F)].
        -- left. split; [exact I|]. intros h [X|X]; [|now apply F]. injection X as -> ->. rewrite N.eqb_refl in G. cbn [andb] in G. now apply negb_true_iff.
        -- right. exists (Answers s1 h1 :: b), a. split; [reflexivity|exact F].
      * intros [[I F]|(b & a & E & F)].
        -- left. split; [split; [exact I|]|intros h X; apply F; now right].
           destruct (N.eqb_spec s1 s) as [->|]; [|reflexivity]. cbn [andb]. apply negb_true_iff, F. now left.
        -- destruct b as [|x b]; cbn [app] in E; [discriminate E|]. inv E. right. exists b, a. split; [reflexivity|exact F].
Qed.
Print Assumptions C127_remembered.

(** Layers of a service that each read the header, push their kinds and write it again: the browser forgets what any of them named. *)
Definition clear_layer (own : list clear * bool) (h : headers) : outcome headers :=
  let* o := clear_from_headers h in
  let '(l, w) := match o with Some c => c | None => ([], false) end in
  Ok (clear_apply h (l ++ fst own, w || snd own)).
Fixpoint clear_layers (owns : list (list clear * bool)) (h : headers) : outcome headers :=
  match owns with [] => Ok h | own :: owns' => let* h' := clear_layer own h in clear_layers owns' h' end.
Theorem C127_layers : forall owns h, h_get h (lit "clear-site-data") = None -> Forall (fun own => fst own <> [] \/ snd own = true) owns ->
  exists h', clear_layers owns h = Ok h' /\ forall k, forgets h' k = true <-> exists own, In own owns /\ asked (fst own) (snd own) k.
Proof.
  assert (G : forall owns l w g, Forall (fun own => fst own <> [] \/ snd own = true) owns -> l <> [] \/ w = true ->
    exists h', clear_layers owns (clear_apply g (l, w)) = Ok h' /\ forall k, forgets h' k = true <-> asked l w k \/ exists own, In own owns /\ asked (fst own) (snd own) k).
  { induction owns as [|own owns IH]; intros l w g F N; cbn [clear_layers].
    - eexists. split; [reflexivity|]. intros k. rewrite C127_forgets. split; [now left|]. intros [A|(x & [] & _)]. exact A.
    - inv F. unfold clear_layer. rewrite (proj2 (C44_round_trip_iff g l w) N). cbn [bind].
      destruct (IH (l ++ fst own) (w || snd own) (clear_apply g (l, w))) as (h' & E & R); [assumption| |].
      { destruct N as [N| ->]; [left|right; reflexivity]. destruct l; [congruence|discriminate]. }
      exists h'. split; [exact E|]. intros k. rewrite R. unfold asked. rewrite in_app_iff, orb_true_iff. split.
      + intros [[[A|A]|[A|A]]|(x & I & A)]; try (left; tauto); right; [exists own; split; [now left|tauto]..|]. exists x. split; [now right|exact A].
      + intros [A|(x & [->|I] & A)]; [left; tauto|left; tauto|]. right. exists x. auto. }
  intros owns h Z F. destruct owns as [|own owns]; cbn [clear_layers].
  - exists h. split; [reflexivity|]. intros k. rewrite (C127_silent h k Z). split; [discriminate|]. intros (x & [] & _).
  - inv F. unfold clear_layer, clear_from_headers, with_all. change CLEAR_SITE_DATA with (lit "clear-site-data"). rewrite Z. cbn [bind app orb].
    destruct (G owns (fst own) (snd own) h) as (h' & E & R); [assumption|assumption|]. exists h'. split; [exact E|]. intros k. rewrite R. split.
    + intros [A|(x & I & A)]; [exists own; split; [now left|exact A]|exists x; split; [now right|exact A]].
    + intros (x & [->|I] & A); [now left|right; eauto].
Qed.
Print Assumptions C127_layers.
(** False of layers that only apply what they want themselves: the last one replaces the header; and a layer that has nothing to say makes the
    next one panic. *)
Theorem C127_replaced_refuted : exists k, forgets (clear_apply (clear_apply [] ([k], false)) ([ClearCache], false)) k = false.
Proof. exists ClearCookies. vm_compute. reflexivity. Qed.
Theorem C127_nothing_refuted : exists owns, clear_layers owns [] = Panic /\ In ([ClearCookies], false) owns.
Proof. exists [([], false); ([ClearCookies], false)]. split; [vm_compute; reflexivity|]. right. now left. Qed.
Print Assumptions C127_replaced_refuted.
Print Assumptions C127_nothing_refuted.

(** Site 1 says goodbye to cookies and storage, then keeps a new cookie; site 2 says nothing. *)
Example C127_example :
  exists h, clear_layers [([ClearCookies], false); ([ClearStorage; ClearCookies], false)] [(lit "age", [lit "1"])] = Ok h /\
  h_get h (lit "clear-site-data") = Some [lit """cookies"", ""storage"", ""cookies"""] /\
  fold_left live [Keeps 1 ClearCookies 10; Keeps 2 ClearCookies 20; Keeps 1 ClearCache 11; Keeps 1 ClearStorage 12; Answers 2 []; Answers 1 h; Keeps 1 ClearCookies 13] [] =
  [(1, ClearCookies, 13); (1, ClearCache, 11); (2, ClearCookies, 20)] /\
  forgets [(lit "clear-site-data", [lit "cache, ""storage"""; lit """clientHints"""])] ClearCache = false.
Proof. eexists. split; [vm_compute; reflexivity|]. vm_compute. auto. Qed.
