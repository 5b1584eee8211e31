(** C119: who may see the timings of a response, as a browser decides it from a Timing-Allow-Origin header.  The check is written
    down from the Fetch standard ("TAO check"); the origins, and what the url crate prints, are what the URL standard says. *)
From Coq Require Import ZifyBool ZifyNat ZifyN Lia.
From Verif Require Import Base BaseFacts Headers HeadersFacts Typed TypedFacts Other OtherProps Rfc InteropProps.

(** The browser: the elements of all fields of the name; a star, or the origin of the page as it is written in the Origin header. *)
Definition passes (h : headers) (origin : str) : bool :=
  match h_get h (lit "timing-allow-origin") with
  | Some vs => existsb (fun e => seqb e (lit "*") || seqb e origin) (flat_map (elements true) vs)
  | None => false
  end.
(** The text of an origin: scheme, host and perhaps a port, and nothing behind them. *)
Definition origin_text (o : str) : Prop :=
  wordy o = true /\ exists scheme authority, o = scheme ++ lit "://" ++ authority /\ no_char 47 scheme = true /\ no_char 47 authority = true.

Definition slashes (s : str) : nat := length (filter (N.eqb 47) s).
Lemma slashes_app : forall a b, slashes (a ++ b) = (slashes a + slashes b)%nat.
Proof. intros a b. unfold slashes. now rewrite filter_app, app_length. Qed.
Lemma slashes_none : forall s, no_char 47 s = true -> slashes s = O.
Proof.
  induction s as [|c s IH]; intros H; [reflexivity|]. unfold no_char in H. cbn [forallb] in H. apply andb_prop in H as [A B]. unfold slashes. cbn [filter].
  destruct (N.eqb_spec 47 c) as [<-|D]; [discriminate A|]. now apply IH.
Qed.
Lemma slashes_origin : forall o, origin_text o -> slashes o = 2%nat.
Proof. intros o (_ & s & a & -> & A & B). rewrite !slashes_app, (slashes_none s A), (slashes_none a B). reflexivity. Qed.
Lemma origin_not_star : forall o, origin_text o -> o <> lit "*" /\ o <> [] /\ o <> lit """null""".
Proof. intros o H. apply slashes_origin in H. repeat split; intros ->; discriminate H. Qed.

Section Origins.
  Context {url : Type} (url_parse : str -> option url) (url_show : url -> str) (origin_of : url -> str).

  (** Exactly the listed texts, and everybody with the wildcard. *)
  Theorem C119_exactly : forall h us (w : bool) o, Forall (fun u => wordy (url_show u) = true /\ url_show u <> [] /\ url_show u <> lit "*") us ->
    (passes (origins_apply url_show h (us, w)) o = true <-> (w = true \/ In o (map url_show us))).
  Proof using url url_show.
    clear url_parse origin_of. intros h us w o F. unfold passes, origins_apply, apply_value. change TIMING_ALLOW_ORIGIN with (lit "timing-allow-origin").
    unfold h_get, h_insert, to_header_values. cbn [fst]. rewrite hm_get_insert_same. cbn [flat_map]. rewrite app_nil_r.
    unfold origins_value. cbn [fst snd]. rewrite elements_list.
    - rewrite existsb_app, orb_true_iff. assert (S : existsb (fun e => seqb e (lit "*") || seqb e o) (if w then [lit "*"] else []) = w) by (destruct w; [rewrite <- orb_true_l with (b := seqb (lit "*") o || false)|]; reflexivity).
      rewrite S. split.
      + intros [H|H]; [|now left]. right. apply existsb_exists in H as (e & I & E). apply orb_prop in E as [E|E]; apply seqb_eq in E; subst e; [|exact I].
        apply in_map_iff in I as (u & E & I). rewrite Forall_forall in F. destruct (F u I) as (_ & _ & X). congruence.
      + intros [H|H]; [now right|]. left. apply existsb_exists. exists o. split; [exact H|]. now rewrite seqb_refl, orb_true_r.
    - apply wordy_element; [reflexivity|discriminate].
    - rewrite Forall_forall in *. intros t I. apply in_map_iff in I as (u & <- & I). destruct (F u I) as (A & B & _). now apply wordy_element.
  Qed.

  (** What the url crate prints for an URL with a host (http, https, ws, wss, ftp): its origin and then a path, which begins with a
      slash even if the URL was written without one; commas and quotes in it are the caller's. *)
  Definition printed (u : url) : Prop := wordy (url_show u) = true /\ origin_text (origin_of u) /\ exists path, url_show u = origin_of u ++ 47 :: path.

  (** So no page is ever let in by name. *)
  Theorem C119_nobody_by_name : forall h us (w : bool) o, Forall printed us -> origin_text o ->
    (passes (origins_apply url_show h (us, w)) o = true <-> w = true).
  Proof using url url_show origin_of.
    clear url_parse. intros h us w o F O. assert (S : forall u, printed u -> (3 <= slashes (url_show u))%nat).
    { intros u (_ & T & p & ->). rewrite slashes_app, (slashes_origin _ T). unfold slashes. cbn [filter]. change (47 =? 47) with true. cbn [length]. lia. }
    rewrite C119_exactly.
    - split; [|now left]. intros [H|H]; [exact H|exfalso]. apply in_map_iff in H as (u & E & I). rewrite Forall_forall in F. specialize (S u (F u I)).
      rewrite E, (slashes_origin o O) in S. lia.
    - rewrite Forall_forall in *. intros u I. specialize (S u (F u I)). split; [apply (F u I)|]. split; intros E; rewrite E in S; apply Nat.leb_le in S; vm_compute in S; discriminate S.
  Qed.

  (** A service that reads the header of another program and writes it into its own response shuts out all the pages it named. *)
  Theorem C119_relay : (forall o, origin_text o -> exists u, url_parse o = Some u /\ origin_of u = o /\ printed u) ->
    forall h os, os <> [] -> Forall origin_text os -> Forall (fun o => no_edge is_ws o = true) os -> h_get h (lit "timing-allow-origin") = Some [join (lit ", ") os] ->
    (forall o, In o os -> passes h o = true) /\
    exists us, origins_from_headers url_parse h = Ok (Some (us, false)) /\ map origin_of us = os /\
      forall h' o, origin_text o -> passes (origins_apply url_show h' (us, false)) o = false.
  Proof.
    intros P h os N F W G. split.
    - intros o I. unfold passes. rewrite G. cbn [flat_map]. rewrite app_nil_r, elements_join.
      + apply existsb_exists. exists o. split; [exact I|]. now rewrite seqb_refl, orb_true_r.
      + eapply Forall_impl; [|exact F]. intros t T. apply wordy_element; [apply T|]. now apply origin_not_star.
    - assert (R : exists us, origins_read url_parse os = Ok (us, false) /\ map origin_of us = os /\ Forall printed us).
      { clear N G. induction os as [|o os IH]; [exists []; repeat split; constructor|]. inversion F as [|? ? O F']; subst. inversion W as [|? ? E W']; subst.
        destruct (IH F' W') as (us & A & B & C). destruct (P o O) as (u & U1 & U2 & U3). exists (u :: us). cbn [origins_read map]. replace (trim_start_matches is_ws o) with o.
        - destruct (origin_not_star o O) as (X & _ & Y). destruct (seqb o (lit "*")) eqn:Z; [apply seqb_eq in Z; congruence|].
          destruct (seqb o (lit """null""")) eqn:Z'; [apply seqb_eq in Z'; congruence|]. rewrite U1, A. cbn [ok_or bind]. split; [reflexivity|]. split; [congruence|]. now constructor.
        - destruct o as [|c o]; [reflexivity|]. unfold no_edge in E. apply andb_prop in E as [E _]. unfold trim_start_matches. cbn [drop_while]. destruct (is_ws c); [discriminate E|reflexivity]. }
      destruct R as (us & A & B & C). exists us. split; [|split; [exact B|]].
      + unfold origins_from_headers, with_all. change TIMING_ALLOW_ORIGIN with (lit "timing-allow-origin"). rewrite G. cbn [flat_map]. rewrite app_nil_r.
        destruct os as [|o os]; [congruence|]. change (lit ", ") with [c_comma; 32]. rewrite split_join_space; [|reflexivity|].
        * rewrite (origins_read_ext url_parse _ (o :: os)); [now rewrite A|]. cbn [map]. f_equal. rewrite map_map. reflexivity.
        * rewrite Forall_forall in *. intros t I. apply wordy_no; [apply (F t I)|reflexivity].
      + intros h' o O. apply not_true_is_false. intros X. apply C119_nobody_by_name in X; [discriminate X|exact C|exact O].
  Qed.
End Origins.
Print Assumptions C119_exactly.
Print Assumptions C119_nobody_by_name.
Print Assumptions C119_relay.

(** FALSE: the pages of an origin that was pushed see the timings.  Here an URL is an origin and a path. *)
Theorem C119_pushed_refuted : exists (show : str * str -> str) u, show u = lit "https://example.com/" /\ printed show fst u /\ forall h,
  passes (origins_apply show h ([u], false)) (fst u) = false /\ passes (origins_apply show h ([u], true)) (fst u) = true.
Proof.
  exists (fun u => fst u ++ 47 :: snd u), (lit "https://example.com", []). split; [reflexivity|].
  assert (O : origin_text (lit "https://example.com")).
  { split; [reflexivity|]. exists (lit "https"), (lit "example.com"). repeat split. }
  assert (P : printed (fun u : str * str => fst u ++ 47 :: snd u) fst (lit "https://example.com", [])).
  { split; [reflexivity|]. split; [exact O|]. now exists []. }
  split; [exact P|]. intros h. split.
  - apply not_true_is_false. intros X. apply (C119_nobody_by_name _ fst) in X; [discriminate X|repeat constructor; apply P|exact O].
  - apply (C119_nobody_by_name _ fst); [repeat constructor; apply P|exact O|reflexivity].
Qed.
Print Assumptions C119_pushed_refuted.

(** A library that meets the demands of [C119_relay]: it prints an origin with a slash and reads what it is given as an origin. *)
Example C119_library : forall o, origin_text o -> exists u, Some (o, @nil N) = Some u /\ fst u = o /\ printed (fun u : str * str => fst u ++ 47 :: snd u) fst u.
Proof.
  intros o O. exists (o, []). split; [reflexivity|]. split; [reflexivity|]. split; [|split; [exact O|now exists []]].
  cbn [fst snd]. destruct O as [W _]. unfold wordy in *. rewrite forallb_app, W. reflexivity.
Qed.
Example C119_relay_example : let os := [lit "https://example.com"; lit "http://a.example:8080"] in Forall origin_text os /\ Forall (fun o => no_edge is_ws o = true) os.
Proof.
  cbv zeta. split; [|repeat constructor]. constructor; [|constructor; [|constructor]].
  - split; [reflexivity|]. exists (lit "https"), (lit "example.com"). repeat split.
  - split; [reflexivity|]. exists (lit "http"), (lit "a.example:8080"). repeat split.
Qed.
