(** C98: which values of a typed header are written as the same text.  Two different values written alike cannot be told apart by
    the receiver, by a cache keyed on the text or by a signature over it. *)
From Coq Require Import ZifyBool ZifyNat ZifyN Lia.
From Verif Require Import Base BaseFacts Utf8 Headers HeadersFacts Typed TypedFacts Conditional Cache CacheProps Auth AuthProps AuthExactProps.
From Verif Require Import Float Mime MimeFacts MimeProps Negotiate Method EnumProps Other HttpDate DateSpec DateProps OtherProps.
Open Scope N_scope.

(** The header maps [a] and [b], made by writing two values into the same map, agree (so nothing a receiver does can tell them apart). *)
Lemma apply_value_inj : forall h n (u v : str), apply_value h n u = apply_value h n v -> u = v.
Proof. intros h n u v E. assert (G := get_apply h n u). rewrite E, get_apply in G. now injection G. Qed.

Lemma app_sep : forall (c : N) (x x' r r' : str), no_char c x = true -> no_char c x' = true ->
  (r = [] \/ exists t, r = c :: t) -> (r' = [] \/ exists t, r' = c :: t) -> x ++ r = x' ++ r' -> x = x' /\ r = r'.
Proof.
  intros c. induction x as [|a x IH]; intros [|a' x'] r r' N N' R R' E.
  - auto.
  - exfalso. cbn in E, N'. destruct R as [->|(t & ->)]; [discriminate E|]. injection E as -> _. rewrite N.eqb_refl in N'. discriminate N'.
  - exfalso. cbn in E, N. destruct R' as [->|(t & ->)]; [discriminate E|]. injection E as -> _. rewrite N.eqb_refl in N. discriminate N.
  - cbn in N, N'. apply andb_true_iff in N as [_ N], N' as [_ N']. cbn in E. injection E as -> E. destruct (IH x' r r' N N' R R' E) as [-> ->]. auto.
Qed.
Lemma show_dec_inj : forall n m, show_dec n = show_dec m -> n = m.
Proof.
  intros n m E. assert (A := parse_show_dec (N.max n m) n ltac:(lia)). rewrite E, (parse_show_dec (N.max n m) m) in A by lia. congruence.
Qed.
Lemma join_cons : forall sep x xs, join sep (x :: xs) = x ++ flat_map (fun y => sep ++ y) xs.
Proof.
  intros sep x xs. revert x. induction xs as [|y ys IH]; intros x; [cbn; now rewrite app_nil_r|].
  change (join sep (x :: y :: ys)) with (x ++ sep ++ join sep (y :: ys)). rewrite IH. cbn [flat_map]. now rewrite <- app_assoc.
Qed.

Section ListAlike.
  Context {A B : Type} (show : A -> str) (canon : A -> B) (good : A -> Prop) (star : str).
  (** What may follow an entry: nothing, or a comma and a space. *)
  Definition rest (r : str) : Prop := r = [] \/ exists t, r = 44 :: 32 :: t.
  Context (delimited : forall a b r r', good a -> good b -> rest r -> rest r' -> show a ++ r = show b ++ r' -> canon a = canon b /\ r = r').
  Context (not_star : forall a r, good a -> rest r -> show a ++ r <> star).
  Context (not_empty : forall a, good a -> show a <> []).
  Context (star_some : star <> []).

  Definition tail (es : list A) (w : bool) : str := flat_map (fun e => lit ", " ++ show e) es ++ (if w then lit ", " ++ star else []).
  Lemma tail_rest : forall es w, rest (tail es w).
  Proof. intros [|e es] [|]; unfold tail, rest; cbn; eauto. Qed.
  Lemma list_value_tail : forall es w, Forall good es ->
    list_value star (map show es) w = match es with [] => if w then star else [] | e :: es' => show e ++ tail es' w end.
  Proof.
    intros es w F. unfold list_value. destruct es as [|e es]; [destruct w; reflexivity|]. cbn [map]. rewrite join_cons. inv F.
    assert (M : flat_map (fun y => lit ", " ++ y) (map show es) = flat_map (fun e => lit ", " ++ show e) es).
    { clear. induction es as [|x es IH]; [reflexivity|]. cbn [map flat_map]. now rewrite IH. }
    rewrite M. unfold tail. destruct w; [|now rewrite app_nil_r].
    destruct (show e ++ _) eqn:E; [|rewrite <- E; now rewrite <- !app_assoc].
    exfalso. apply app_eq_nil in E as [E _]. exact (not_empty e H1 E).
  Qed.
  Lemma tail_inj : forall es es' w w', Forall good es -> Forall good es' -> tail es w = tail es' w' -> map canon es = map canon es' /\ w = w'.
  Proof.
    induction es as [|e es IH]; intros [|e' es'] w w' F F' E.
    - split; [reflexivity|]. destruct w, w'; unfold tail in E; cbn in E; try reflexivity; discriminate E.
    - exfalso. inv F'. unfold tail at 1 in E. destruct w; [|discriminate E].
      cbn [flat_map app] in E. unfold tail in E. cbn [flat_map] in E. rewrite <- !app_assoc in E. apply app_inv_head in E.
      exact (not_star e' (tail es' w') H1 (tail_rest es' w') (eq_sym E)).
    - exfalso. inv F. unfold tail at 2 in E. destruct w'; [|discriminate E].
      cbn [flat_map app] in E. unfold tail in E. cbn [flat_map] in E. rewrite <- !app_assoc in E. apply app_inv_head in E.
      exact (not_star e (tail es w) H1 (tail_rest es w) E).
    - inv F. inv F'. unfold tail in E. cbn [flat_map] in E. rewrite <- !app_assoc in E. apply app_inv_head in E.
      destruct (delimited e e' (tail es w) (tail es' w') H1 H3 (tail_rest _ _) (tail_rest _ _) E) as [C T].
      destruct (IH es' w w' H2 H4 T) as [M W]. cbn [map]. split; congruence.
  Qed.
  Lemma list_alike : forall es es' w w', Forall good es -> Forall good es' ->
    list_value star (map show es) w = list_value star (map show es') w' -> map canon es = map canon es' /\ w = w'.
  Proof.
    intros es es' w w' F F' E. rewrite !list_value_tail in E by assumption. destruct es as [|e es], es' as [|e' es'].
    - split; [reflexivity|]. destruct w, w'; try reflexivity; [elim (star_some E)|elim (star_some (eq_sym E))].
    - exfalso. inv F'. destruct w; [exact (not_star e' _ H1 (tail_rest _ _) (eq_sym E))|]. symmetry in E. apply app_eq_nil in E as [E _]. exact (not_empty e' H1 E).
    - exfalso. inv F. destruct w'; [exact (not_star e _ H1 (tail_rest _ _) E)|]. apply app_eq_nil in E as [E _]. exact (not_empty e H1 E).
    - inv F. inv F'. destruct (delimited e e' _ _ H1 H3 (tail_rest _ _) (tail_rest _ _) E) as [C T].
      destruct (tail_inj _ _ _ _ H2 H4 T) as [M W]. cbn [map]. split; congruence.
  Qed.
End ListAlike.

(** Entries without a comma. *)
Lemma comma_list_alike : forall {A B} (show : A -> str) (canon : A -> B) (good : A -> Prop) (star : str),
  (forall a, good a -> no_char 44 (show a) = true) -> (forall a b, good a -> good b -> show a = show b -> canon a = canon b) ->
  no_char 44 star = true -> (forall a, good a -> show a <> star) -> (forall a, good a -> show a <> []) -> star <> [] ->
  forall es es' w w', Forall good es -> Forall good es' ->
  list_value star (map show es) w = list_value star (map show es') w' -> map canon es = map canon es' /\ w = w'.
Proof.
  intros A B show canon good star C I CS NS NE SS.
  assert (R : forall r, rest r -> r = [] \/ exists t, r = 44 :: t) by (intros r [->|(t & ->)]; eauto).
  apply (list_alike show canon good star); [| |exact NE|exact SS].
  - intros a b r r' Ga Gb Hr Hr' E. destruct (app_sep 44 _ _ _ _ (C a Ga) (C b Gb) (R r Hr) (R r' Hr') E) as [E1 E2]. auto.
  - intros a r Ga Hr E. rewrite <- (app_nil_r star) in E.
    destruct (app_sep 44 _ _ _ _ (C a Ga) CS (R r Hr) (or_introl eq_refl) E) as [E1 _]. exact (NS a Ga E1).
Qed.
Lemma list_value_plain : forall star l, list_value star l false = join (lit ", ") l.
Proof. reflexivity. Qed.

(** ** Entity tags *)
(** No two entity tags are written alike, whatever their text. *)
Theorem C98_etag : forall h a b, etag_apply h a = etag_apply h b <-> a = b.
Proof.
  intros h a b. split; [|intros ->; reflexivity]. intros E. apply apply_value_inj in E.
  destruct a as [s|s], b as [t|t]; cbn in E; try discriminate E; injection E as E; apply app_inv_tail in E; congruence.
Qed.
Definition tag_text (e : etag) : str := match e with Strong s | Weak s => s end.
(** Lists of tags without double quotes are written alike only if they are the same list with the same wildcard. *)
Theorem C98_conditions : forall k h a b, Forall (fun e => ~ In 34 (tag_text e)) (fst a) -> Forall (fun e => ~ In 34 (tag_text e)) (fst b) ->
  (cond_apply k h a = cond_apply k h b <-> a = b).
Proof.
  intros k h [es w] [es' w'] F F'. cbn [fst] in F, F'. split; [|intros ->; reflexivity]. intros E. apply apply_value_inj in E.
  unfold cond_value in E. cbn [fst snd] in E.
  apply (list_alike etag_show (fun e => e) (fun e => ~ In 34 (tag_text e)) (lit "*")) in E; try assumption.
  - rewrite !map_id in E. destruct E as [-> ->]. reflexivity.
  - intros a b r r' A B _ _ X. destruct a as [s|s], b as [t|t]; cbn in X; try discriminate X; injection X as X; rewrite <- !app_assoc in X;
      destruct (app_sep 34 s t _ _ (proj1 (not_in_no_char 34 s) A) (proj1 (not_in_no_char 34 t) B) (or_intror (ex_intro _ r eq_refl)) (or_intror (ex_intro _ r' eq_refl)) X) as [-> Y];
      injection Y as ->; auto.
  - intros [s|s] r _ _ X; discriminate X.
  - intros [s|s] _ X; discriminate X.
  - discriminate.
Qed.
(** With double quotes in the tags two lists can be written alike. *)
Theorem C98_conditions_collision : exists k h a b, a <> b /\ cond_apply k h a = cond_apply k h b.
Proof.
  exists IfMatch, [], ([Strong (lit "a"", ""b")], false), ([Strong (lit "a"); Strong (lit "b")], false).
  split; [discriminate|vm_compute; reflexivity].
Qed.
Example C98_conditions_example :
  Forall (fun e => ~ In 34 (tag_text e)) [Strong (lit "a, W/b"); Weak []] /\
  cond_value ([Strong (lit "a, W/b"); Weak []], true) = lit """a, W/b"", W/"""", *".
Proof. split; [repeat constructor; cbn; intros H; repeat (destruct H as [H|H]; [discriminate H|]); exact H|reflexivity]. Qed.

(** ** Vary *)
Definition plain_name (n : str) : Prop := n <> [] /\ n <> lit "*" /\ ~ In 44 n.
Theorem C98_vary : forall h a b ha hb, Forall plain_name (fst a) -> Forall plain_name (fst b) -> vary_apply h a = Ok ha -> vary_apply h b = Ok hb ->
  (ha = hb <-> a = b).
Proof.
  intros h [es w] [es' w'] ha hb F F' A B. cbn [fst] in F, F'. split; [|intros X; rewrite X, B in A; congruence]. intros <-.
  assert (T : forall l r, vary_texts l = Ok r -> r = l).
  { induction l as [|x l IH]; cbn; intros r; [congruence|]. unfold value_from_str. destruct (is_ascii x); cbn [bind]; [|discriminate].
    destruct (vary_texts l) as [r'| |]; cbn [bind]; try discriminate. intros X. injection X as <-. f_equal. now apply IH. }
  unfold vary_apply, vary_value in A, B. cbn [fst snd] in A, B.
  destruct (vary_texts es) as [r| |] eqn:E; cbn [bind] in A; try discriminate A. destruct (vary_texts es') as [r'| |] eqn:E'; cbn [bind] in B; try discriminate B.
  apply T in E, E'. subst r r'. injection A as <-. injection B as B. symmetry in B. apply apply_value_inj in B.
  rewrite <- (map_id es), <- (map_id es') in B.
  apply (comma_list_alike (fun e : str => e) (fun e : str => e) plain_name (lit "*")) in B; try assumption.
  - rewrite !map_id in B. destruct B as [-> ->]. reflexivity.
  - intros x (_ & _ & X). now apply not_in_no_char.
  - auto.
  - reflexivity.
  - intros x (_ & X & _). exact X.
  - intros x (X & _). exact X.
  - discriminate.
Qed.
(** A name "*" and the wildcard, an empty name and none at all: written alike. *)
Theorem C98_vary_collision : exists a b h', a <> b /\ vary_apply [] a = Ok h' /\ vary_apply [] b = Ok h'.
Proof.
  exists ([lit "*"], false), ([], true). eexists. split; [discriminate|]. split; vm_compute; reflexivity.
Qed.
Theorem C98_vary_empty_collision : exists a b h', a <> b /\ vary_apply [] a = Ok h' /\ vary_apply [] b = Ok h'.
Proof.
  exists ([[]], false), ([], false). eexists. split; [discriminate|]. split; vm_compute; reflexivity.
Qed.
Example C98_vary_example : Forall plain_name [lit "accept"; lit "x y"] /\ exists h', vary_apply [] ([lit "accept"; lit "x y"], true) = Ok h'.
Proof.
  split; [|eexists; vm_compute; reflexivity].
  repeat constructor; try discriminate; cbn; intros H; repeat (destruct H as [H|H]; [discriminate H|]); exact H.
Qed.

(** ** Cache-Control, Age, Clear-Site-Data *)
(** A directive with its duration in whole seconds. *)
Definition in_seconds (d : directive) : directive :=
  match d with
  | MaxAge d => MaxAge (Dur (secs d) 0) | MaxStale (Some d) => MaxStale (Some (Dur (secs d) 0)) | MinFresh d => MinFresh (Dur (secs d) 0)
  | SMaxAge d => SMaxAge (Dur (secs d) 0) | StaleIfError d => StaleIfError (Dur (secs d) 0) | StaleWhileRevalidate d => StaleWhileRevalidate (Dur (secs d) 0)
  | d => d
  end.
Lemma directive_value_inj : forall a b, directive_value a = directive_value b -> in_seconds a = in_seconds b.
Proof.
  intros a b E.
  destruct a as [|d|[d|]|d| | | | | | | | |d|d|d], b as [|d'|[d'|]|d'| | | | | | | | |d'|d'|d'];
    try reflexivity; try discriminate E;
    cbn in E; repeat (injection E as E); try (apply show_dec_inj in E; cbn; congruence); try discriminate E;
    try (exfalso; revert E; clear; match goal with |- show_dec ?n = _ -> _ => pose proof (show_dec_digits n) as D; intros E; rewrite E in D; discriminate D end).
Qed.
(** Two lists of directives are written alike exactly if they are the same up to fractions of a second. *)
Theorem C98_cache_control : forall h a b, cache_apply h a = cache_apply h b <-> map in_seconds a = map in_seconds b.
Proof.
  intros h a b. split.
  - intros E. apply apply_value_inj in E. unfold cache_value in E. rewrite <- !(list_value_plain (lit "*")) in E.
    apply (comma_list_alike directive_value in_seconds (fun _ => True) (lit "*")) in E.
    + exact (proj1 E).
    + intros d _. destruct d as [|d|[d|]|d| | | | | | | | |d|d|d]; try reflexivity; cbn [directive_value]; rewrite no_char_app, show_dec_no_char by reflexivity; reflexivity.
    + intros x y _ _. apply directive_value_inj.
    + reflexivity.
    + intros d _. destruct d as [|d|[d|]|d| | | | | | | | |d|d|d]; discriminate.
    + intros d _. destruct d as [|d|[d|]|d| | | | | | | | |d|d|d]; discriminate.
    + discriminate.
    + now apply Forall_forall.
    + now apply Forall_forall.
  - intros E. unfold cache_apply, cache_value. replace (map directive_value a) with (map directive_value b); [reflexivity|].
    assert (M : forall l, map directive_value l = map directive_value (map in_seconds l)).
    { intros l. rewrite map_map. apply map_ext. intros d. destruct d as [|d|[d|]|d| | | | | | | | |d|d|d]; reflexivity. }
    rewrite (M a), (M b), E. reflexivity.
Qed.
Theorem C98_age : forall h a b, age_apply h a = age_apply h b <-> secs a = secs b.
Proof.
  intros h a b. split; [|intros E; unfold age_apply; now rewrite E]. intros E. now apply apply_value_inj, show_dec_inj in E.
Qed.
Theorem C98_clear_site_data : forall h a b, clear_apply h a = clear_apply h b <-> a = b.
Proof.
  intros h [es w] [es' w']. split; [|intros ->; reflexivity]. intros E. apply apply_value_inj in E. unfold clear_value in E. cbn [fst snd] in E.
  apply (comma_list_alike clear_str (fun c => c) (fun _ => True) (lit """*""")) in E;
    try (now apply Forall_forall); try discriminate; try reflexivity; try (intros []; first [reflexivity|discriminate]).
  - rewrite !map_id in E. destruct E as [-> ->]. reflexivity.
  - intros [] [] _ _ X; first [reflexivity|discriminate X].
Qed.

(** ** Credentials and challenges *)
Lemma scheme_show_inj : forall a b, scheme_show a = scheme_show b -> a = b.
Proof. intros a b E. assert (A := scheme_show_parse a). rewrite E, scheme_show_parse in A. congruence. Qed.
Theorem C98_authorization : forall h a b, auth_apply h a = auth_apply h b <-> a = b.
Proof.
  intros h [s c] [s' c']. split; [|intros ->; reflexivity]. intros E. apply apply_value_inj in E. unfold auth_value in E. cbn [fst snd] in E.
  destruct (app_sep 32 _ _ _ _ (show_no_space s) (show_no_space s') (or_intror (ex_intro _ c eq_refl)) (or_intror (ex_intro _ c' eq_refl)) E) as [S C].
  apply scheme_show_inj in S. injection C as ->. congruence.
Qed.
Theorem C98_challenge : forall h a b, www_apply h a = www_apply h b <-> a = b.
Proof.
  intros h [s r] [s' r']. split; [|intros ->; reflexivity]. intros E. apply apply_value_inj in E. unfold www_value in E. cbn [fst snd] in E.
  destruct (app_sep 32 _ _ _ _ (show_no_space s) (show_no_space s') (or_intror (ex_intro _ _ eq_refl)) (or_intror (ex_intro _ _ eq_refl)) E) as [S C].
  apply scheme_show_inj in S. injection C as C. apply app_inv_tail in C. congruence.
Qed.
(** Two pairs of user name and password are written alike exactly if they have the same text once joined with a colon ... *)
Theorem C98_basic : forall h u p u' p', valid_str (u ++ p) = true -> valid_str (u' ++ p') = true ->
  (basic_apply h (u, p) = basic_apply h (u', p') <-> u ++ lit ":" ++ p = u' ++ lit ":" ++ p').
Proof.
  intros h u p u' p' V V'. assert (W : forall x y, valid_str (x ++ y) = true -> valid_str (x ++ [58] ++ y) = true).
  { intros x y. unfold valid_str. rewrite !forallb_app. intros X. apply andb_true_iff in X as [-> ->]. reflexivity. }
  apply W in V, V'. change (lit ":") with [58]. split; [|intros E; unfold basic_apply; cbn [fst snd]; now rewrite E].
  intros E. unfold basic_apply in E. apply C98_authorization in E. cbn [fst snd] in E. assert (E' := f_equal snd E). cbn [snd] in E'. clear E.
  assert (D := b64_decode_encode _ (utf8_encode_bytes _ V)). rewrite E', (b64_decode_encode _ (utf8_encode_bytes _ V')) in D. assert (D' : utf8_encode (u' ++ [58] ++ p') = utf8_encode (u ++ [58] ++ p)) by congruence. clear D.
  assert (U := utf8_decode_encode _ V). rewrite <- D', (utf8_decode_encode _ V') in U. congruence.
Qed.
(** ... so user names without a colon are safe, and a colon in a user name is not. *)
Theorem C98_basic_no_colon : forall h u p u' p', valid_str (u ++ p) = true -> valid_str (u' ++ p') = true -> ~ In 58 u -> ~ In 58 u' ->
  (basic_apply h (u, p) = basic_apply h (u', p') <-> u = u' /\ p = p').
Proof.
  intros h u p u' p' V V' C C'. rewrite C98_basic by assumption. split; [|intros [-> ->]; reflexivity]. intros E.
  destruct (app_sep 58 u u' _ _ (proj1 (not_in_no_char 58 u) C) (proj1 (not_in_no_char 58 u') C') (or_intror (ex_intro _ p eq_refl)) (or_intror (ex_intro _ p' eq_refl)) E) as [A B].
  injection B as B. auto.
Qed.
Theorem C98_basic_collision : exists a b, a <> b /\ basic_apply [] a = basic_apply [] b.
Proof. exists (lit "a:b", lit "c"), (lit "a", lit "b:c"). split; [discriminate|vm_compute; reflexivity]. Qed.
Example C98_basic_example : valid_str (lit "aladdin" ++ [8364; 58]) = true /\ ~ In 58 (lit "aladdin").
Proof. split; [reflexivity|cbn; intros H; repeat (destruct H as [H|H]; [discriminate H|]); exact H]. Qed.

(** ** Codings *)
(** Weights that are printed as the same three decimals (C81_three_decimals says which). *)
Definition same_weight (a b : option float) : Prop :=
  match a, b with Some x, Some y => show3 f32 x = show3 f32 y | None, None => True | _, _ => False end.
Definition same_proposal (a b : proposal) : Prop := p_coding a = p_coding b /\ same_weight (p_weight a) (p_weight b).
Lemma show3_no : forall c x, In c [44; 59; 34] -> no_char c (show3 f32 x) = true.
Proof.
  intros c x H. assert (D : is_digit c = false /\ c <> 46 /\ c <> 45 /\ no_char c (lit "NaN") = true /\ no_char c (lit "inf") = true).
  { cbn in H. destruct H as [<-|[<-|[<-|[]]]]; repeat split; discriminate. }
  destruct D as (D & D1 & D2 & D3 & D4). destruct x as [n|n|n v]; cbn [show3]; [exact D3| |].
  - rewrite no_char_app, D4. destruct n; [|reflexivity]. change (lit "-") with [45]. cbn [no_char forallb app]. lia.
  - unfold show_milli. generalize (thousandths f32 v). intros k. unfold is_digit in D.
    assert (T : no_char c [46; 48 + k / 100 mod 10; 48 + k / 10 mod 10; 48 + k mod 10] = true).
    { pose proof (N.mod_upper_bound (k / 100) 10). pose proof (N.mod_upper_bound (k / 10) 10). pose proof (N.mod_upper_bound k 10).
      cbn [no_char forallb]. unfold no_char. cbn [forallb].
      generalize dependent ((k / 100) mod 10). generalize dependent ((k / 10) mod 10). generalize dependent (k mod 10). intros. lia. }
    assert (S := show_dec_no_char c (k / 1000) D).
    destruct n; cbn [app]; [change (45 :: show_dec (k / 1000) ++ [46; 48 + k / 100 mod 10; 48 + k / 10 mod 10; 48 + k mod 10]) with ([45] ++ show_dec (k / 1000) ++ [46; 48 + k / 100 mod 10; 48 + k / 10 mod 10; 48 + k mod 10])|];
      rewrite !no_char_app, S, T; [|reflexivity]. change (lit "-") with [45]. unfold no_char. cbn [forallb]. lia.
Qed.
Lemma coding_show_inj : forall a b, coding_show a = coding_show b -> a = b.
Proof. intros [] [] E; first [reflexivity|discriminate E]. Qed.
Lemma proposal_value_same : forall a b, proposal_value a = proposal_value b <-> same_proposal a b.
Proof.
  intros [c w] [c' w']. unfold proposal_value, same_proposal. cbn [p_coding p_weight]. split.
  - intros E. assert (N : forall x, no_char 59 (coding_show x) = true) by (intros []; reflexivity).
    apply (app_sep 59) in E; [|apply N|apply N|destruct w; cbn; eauto|destruct w'; cbn; eauto]. destruct E as [C W]. apply coding_show_inj in C. split; [exact C|].
    destruct w as [x|], w' as [y|]; cbn in W |- *; try discriminate W; [|exact I]. now injection W.
  - intros [-> W]. destruct w as [x|], w' as [y|]; cbn in W; try contradiction; [now rewrite W|reflexivity].
Qed.
Lemma Forall2_map_eq : forall A B (f : A -> B) l l', map f l = map f l' <-> Forall2 (fun a b => f a = f b) l l'.
Proof.
  intros A B f l. induction l as [|a l IH]; intros [|b l']; cbn [map]; split; intros H; try constructor; try discriminate H; try (inv H; fail); try reflexivity.
  - now injection H.
  - apply IH. now injection H.
  - inv H. f_equal; [assumption|]. now apply IH.
Qed.
(** Two Accept-Encoding or TE values are written alike exactly if they list the same codings, in the same order, with weights of the
    same three decimals, and the same wildcard. *)
Theorem C98_codings : forall k h a b,
  accept_apply k h a = accept_apply k h b <-> Forall2 same_proposal (fst a) (fst b) /\ snd a = snd b.
Proof.
  intros k h [es w] [es' w']. cbn [fst snd].
  assert (M : map proposal_value es = map proposal_value es' <-> Forall2 same_proposal es es').
  { rewrite Forall2_map_eq. split; intros H; induction H; constructor; auto; now apply proposal_value_same. }
  split.
  - intros E. apply apply_value_inj in E. unfold accept_value in E. cbn [fst snd] in E.
    apply (comma_list_alike proposal_value proposal_value (fun _ => True) (lit "*")) in E;
      try (now apply Forall_forall); try discriminate; try reflexivity; try (intros [[] ?]; discriminate).
    + destruct E as [E ->]. split; [now apply M|reflexivity].
    + intros [c x] _. unfold proposal_value. cbn [p_coding p_weight]. rewrite no_char_app.
      assert (N : no_char 44 (coding_show c) = true) by (destruct c; reflexivity). rewrite N.
      destruct x as [x|]; [|reflexivity]. rewrite no_char_app, (show3_no 44) by (cbn; auto). reflexivity.
    + auto.
  - intros [E ->]. unfold accept_apply, accept_value. cbn [fst snd]. apply M in E. now rewrite E.
Qed.
Theorem C98_applied_coding : forall k h a b, encoding_apply k h a = encoding_apply k h b <-> a = b.
Proof. intros k h a b. split; [|intros ->; reflexivity]. intros E. now apply apply_value_inj, coding_show_inj in E. Qed.
Example C98_codings_example :
  Forall2 same_proposal [Proposal Gzip (Some (Fin false (2 ^ 148))); Proposal Brotli None] [Proposal Gzip (Some (Fin false (2 ^ 148 + 1))); Proposal Brotli None].
Proof. repeat constructor. Qed.

(** ** Numbers, sets of methods, strict transport security *)
Theorem C98_content_length : forall h a b, length_apply h a = length_apply h b <-> a = b.
Proof. intros h a b. split; [|intros ->; reflexivity]. intros E. now apply apply_value_inj, show_dec_inj in E. Qed.
(** Two enumerations of sets of methods written alike are the same enumeration, so the sets are the same. *)
Theorem C98_allow : forall h a b, allow_apply h a = allow_apply h b <-> a = b.
Proof.
  intros h a b. split; [|intros ->; reflexivity]. intros E. apply apply_value_inj in E. unfold allow_value in E. rewrite <- !(list_value_plain (lit "*")) in E.
  apply (comma_list_alike method_str (fun m => m) (fun _ => True) (lit "*")) in E;
    try (now apply Forall_forall); try discriminate; try reflexivity; try (intros []; first [reflexivity|discriminate]).
  - rewrite !map_id in E. exact (proj1 E).
  - intros x y _ _. apply C07_method_names_distinct.
Qed.
Theorem C98_hsts : forall h a b, hsts_apply h a = hsts_apply h b <->
  secs (max_age a) = secs (max_age b) /\ include_subdomains a = include_subdomains b /\ preload a = preload b.
Proof.
  intros h [d s p] [d' s' p']. cbn [max_age include_subdomains preload]. split.
  - intros E. apply apply_value_inj in E. unfold hsts_value in E. cbn [max_age include_subdomains preload] in E. apply app_inv_head in E.
    apply (app_sep 59) in E; [|now apply show_dec_no_char|now apply show_dec_no_char|destruct s, p; cbn; eauto|destruct s', p'; cbn; eauto].
    destruct E as [D F]. apply show_dec_inj in D. split; [exact D|]. destruct s, p, s', p'; first [discriminate F|auto].
  - intros (A & -> & ->). unfold hsts_apply, hsts_value. cbn [max_age include_subdomains preload]. now rewrite A.
Qed.

(** ** Media types and dates *)
(** Media types that were read from some text. *)
Theorem C98_content_type : forall h s t a b, mime_parse s = Ok a -> mime_parse t = Ok b -> (ctype_apply h a = ctype_apply h b <-> a = b).
Proof.
  intros h s t a b A B. split; [|intros ->; reflexivity]. intros E. apply apply_value_inj in E.
  assert (R := C19_mime_round_trip _ _ A). rewrite E, (C19_mime_round_trip _ _ B) in R. congruence.
Qed.
Definition same_second (a b : Z) : Prop := (a / 1000000000 = b / 1000000000)%Z.
Lemma fmt_same : forall a b, (0 <= a < 253402300800 * 1000000000)%Z -> (0 <= b < 253402300800 * 1000000000)%Z ->
  exists s t, fmt_http_date a = Ok s /\ fmt_http_date b = Ok t /\ (s = t <-> same_second a b) /\ parse_http_date s <> Err 400.
Proof.
  intros a b A B. destruct (C01_date_round_trip a) as (s & F & P); [exact A|]. destruct (C01_date_round_trip b) as (t & F' & P'); [exact B|].
  exists s, t. split; [exact F|]. split; [exact F'|]. split; [|rewrite P; discriminate]. unfold same_second. split.
  - intros <-. rewrite P in P'. injection P' as P'. unfold DateProps.whole_seconds in P'. lia.
  - intros E. assert (W : fmt_http_date a = fmt_http_date b).
    { unfold fmt_http_date. assert (D : date_of_systime a = date_of_systime b); [|now rewrite D]. unfold date_of_systime. change NANOS with 1000000000%Z. rewrite E.
      assert (L : (a <? 0)%Z = (b <? 0)%Z) by lia. rewrite L. reflexivity. }
    congruence.
Qed.
(** Two times are written alike exactly if they are in the same second. *)
Theorem C98_dates : forall d h a b, in_range a -> in_range b ->
  exists ha hb, date_apply d h a = Ok ha /\ date_apply d h b = Ok hb /\ (ha = hb <-> same_second a b).
Proof.
  intros d h a b A B. destruct (fmt_same a b A B) as (s & t & F & G & I & _).
  exists (apply_value h (date_name d) s), (apply_value h (date_name d) t). unfold date_apply. rewrite F, G. split; [reflexivity|]. split; [reflexivity|].
  rewrite <- I. split; [|intros ->; reflexivity]. apply apply_value_inj.
Qed.
(** A delay is never written like a time. *)
Definition same_retry (a b : retry) : Prop :=
  match a, b with After d, After e => secs d = secs e | At t, At u => same_second t u | _, _ => False end.
Theorem C98_retry_after : forall h a b, (forall t, a = At t \/ b = At t -> in_range t) ->
  exists ha hb, retry_apply h a = Ok ha /\ retry_apply h b = Ok hb /\ (ha = hb <-> same_retry a b).
Proof.
  intros h a b R. unfold retry_apply.
  assert (D : forall d t, in_range t -> exists s, fmt_http_date t = Ok s /\ show_dec (secs d) <> s).
  { intros d t T. destruct (fmt_text t T) as (s & F & _ & _ & C). exists s. split; [exact F|]. intros E.
    rewrite <- E in C. apply (proj2 (not_in_no_char 44 (show_dec (secs d)))); [now apply show_dec_no_char|exact C]. }
  destruct a as [d|t], b as [e|u]; cbn [retry_value same_retry].
  - exists (apply_value h RETRY_AFTER (show_dec (secs d))), (apply_value h RETRY_AFTER (show_dec (secs e))). cbn [bind]. split; [reflexivity|]. split; [reflexivity|].
    split; [intros E; now apply apply_value_inj, show_dec_inj in E|intros ->; reflexivity].
  - destruct (D d u (R u (or_intror eq_refl))) as (s & F & N). rewrite F. cbn [bind]. do 2 eexists. split; [reflexivity|]. split; [reflexivity|].
    split; [intros E; now apply apply_value_inj in E|contradiction].
  - destruct (D e t (R t (or_introl eq_refl))) as (s & F & N). rewrite F. cbn [bind]. do 2 eexists. split; [reflexivity|]. split; [reflexivity|].
    split; [intros E; apply apply_value_inj in E; symmetry in E; contradiction|contradiction].
  - destruct (fmt_same t u (R t (or_introl eq_refl)) (R u (or_intror eq_refl))) as (s & s' & F & G & I & _). rewrite F, G. cbn [bind].
    do 2 eexists. split; [reflexivity|]. split; [reflexivity|]. rewrite <- I. split; [apply apply_value_inj|intros ->; reflexivity].
Qed.
Example C98_dates_example : in_range 951782399999999999 /\ in_range 951782399000000000 /\ same_second 951782399999999999 951782399000000000.
Proof. unfold in_range, same_second. split; [lia|]. split; [lia|]. reflexivity. Qed.

(** ** Accept *)
Lemma app_class : forall (P : N -> bool) (x x' r r' : str), forallb P x = true -> forallb P x' = true ->
  (r = [] \/ exists c t, r = c :: t /\ P c = false) -> (r' = [] \/ exists c t, r' = c :: t /\ P c = false) -> x ++ r = x' ++ r' -> x = x' /\ r = r'.
Proof.
  intros P. induction x as [|a x IH]; intros [|a' x'] r r' F F' R R' E.
  - auto.
  - exfalso. cbn in E, F'. destruct R as [->|(c & t & -> & Pc)]; [discriminate E|]. injection E as -> _. rewrite Pc in F'. discriminate F'.
  - exfalso. cbn in E, F. destruct R' as [->|(c & t & -> & Pc)]; [discriminate E|]. injection E as -> _. rewrite Pc in F. discriminate F.
  - cbn in F, F'. apply andb_true_iff in F as [_ F], F' as [_ F']. cbn in E. injection E as -> E. destruct (IH x' r r' F F' R R' E) as [-> ->]. auto.
Qed.
(** The inside of a quoted string ends at the first quote without a backslash. *)
Lemma escape_inj : forall v v' r r', escape_value v ++ 34 :: r = escape_value v' ++ 34 :: r' -> v = v' /\ r = r'.
Proof.
  unfold escape_value. induction v as [|c v IH]; intros [|c' v'] r r' E.
  - cbn in E. injection E as ->. auto.
  - exfalso. cbn [flat_map app] in E. destruct ((c' =? 34) || (c' =? 92)) eqn:Q; cbn [app] in E; injection E as E _; [discriminate E|]. rewrite <- E in Q. discriminate Q.
  - exfalso. cbn [flat_map app] in E. destruct ((c =? 34) || (c =? 92)) eqn:Q; cbn [app] in E; injection E as E _; [discriminate E|]. rewrite E in Q. discriminate Q.
  - cbn [flat_map] in E. rewrite <- !app_assoc in E.
    destruct ((c =? 34) || (c =? 92)) eqn:Q, ((c' =? 34) || (c' =? 92)) eqn:Q'; cbn [app] in E.
    + injection E as -> E. destruct (IH v' r r' E) as [-> ->]. auto.
    + exfalso. injection E as E _. rewrite <- E in Q'. discriminate Q'.
    + exfalso. injection E as E _. rewrite E in Q. discriminate Q.
    + injection E as -> E. destruct (IH v' r r' E) as [-> ->]. auto.
Qed.
Definition fps (items : list (str * str)) : str := flat_map (fun p => format_param (fst p) (snd p)) items.
Lemma fps_head : forall items r, rest r -> fps items ++ r = [] \/ exists c t, fps items ++ r = c :: t /\ is_token_cp c = false.
Proof.
  intros [|[n v] items] r R.
  - cbn. destruct R as [->|(t & ->)]; [auto|right; exists 44, (32 :: t); auto].
  - right. cbn. unfold format_param. destruct (forallb is_token_cp v && _); cbn; eexists; eexists; split; reflexivity.
Qed.
Lemma fps_inj : forall items items' r r', Forall (fun p => forallb is_token_cp (fst p) = true) items -> Forall (fun p => forallb is_token_cp (fst p) = true) items' ->
  rest r -> rest r' -> fps items ++ r = fps items' ++ r' -> items = items' /\ r = r'.
Proof.
  induction items as [|[n v] items IH]; intros [|[n' v'] items'] r r' F F' R R' E.
  - auto.
  - exfalso. cbn in E. unfold format_param in E. destruct R as [->|(t & ->)]; destruct (forallb is_token_cp v' && _); discriminate E.
  - exfalso. cbn in E. unfold format_param in E. destruct R' as [->|(t & ->)]; destruct (forallb is_token_cp v && _); discriminate E.
  - inv F. inv F'. cbn [fst] in H1, H3. cbn [fps flat_map fst snd] in E. fold (fps items) in E. fold (fps items') in E. rewrite <- !app_assoc in E.
    assert (HD := fps_head items r R). assert (HD' := fps_head items' r' R').
    assert (T : forall (x : str) (r0 : str), (exists t, r0 = 61 :: t) -> r0 = [] \/ exists c t, r0 = c :: t /\ is_token_cp c = false) by (intros _ r0 (t & ->); right; exists 61, t; auto).
    unfold format_param in E.
    destruct (forallb is_token_cp v && negb match v with [] => true | _ :: _ => false end) eqn:Q,
             (forallb is_token_cp v' && negb match v' with [] => true | _ :: _ => false end) eqn:Q'; cbn [app] in E; injection E as E; rewrite <- !app_assoc in E; cbn [app] in E;
    (apply (app_class is_token_cp) in E; [|assumption|assumption|apply (T []); eexists; reflexivity|apply (T []); eexists; reflexivity]); destruct E as [-> E]; injection E as E; rewrite <- ?app_assoc in E.
    + apply andb_true_iff in Q as [Q _], Q' as [Q' _]. apply (app_class is_token_cp) in E; [|assumption..]. destruct E as [-> E].
      destruct (IH items' r r' H2 H4 R R' E) as [-> ->]. auto.
    + exfalso. apply andb_true_iff in Q as [Q N]. destruct v as [|c v]; [discriminate N|]. cbn [app] in E. injection E as -> _. discriminate Q.
    + exfalso. apply andb_true_iff in Q' as [Q' N]. destruct v' as [|c v']; [discriminate N|]. cbn [app] in E. injection E as <- _. discriminate Q'.
    + cbn [app] in E. apply escape_inj in E as [-> E]. destruct (IH items' r r' H2 H4 R R' E) as [-> ->]. auto.
Qed.
(** Everything after the subtype: the charset flag, the parameters and the weight, as parameters. *)
Definition items (p : media_proposal) : list (str * str) :=
  (if is_utf8 (mp_type p) then [(lit "charset", lit "utf-8")] else []) ++ params (mp_type p) ++
  match mp_weight p with Some w => [(lit "q", show3 f32 w)] | None => [] end.
Lemma show3_token : forall x, forallb is_token_cp (show3 f32 x) && negb match show3 f32 x with [] => true | _ :: _ => false end = true.
Proof.
  intros [n|[|]|n v]; [reflexivity..|]. cbn [show3]. unfold show_milli. generalize (thousandths f32 v). intros k.
  pose proof (N.mod_upper_bound (k / 100) 10). pose proof (N.mod_upper_bound (k / 10) 10). pose proof (N.mod_upper_bound k 10).
  assert (T : forall d, is_digit d = true -> is_token_cp d = true) by (intros d D; unfold is_token_cp; rewrite D, orb_true_r; reflexivity).
  assert (S : forallb is_token_cp (show_dec (k / 1000)) = true) by (eapply forallb_impl; [|apply show_dec_digits]; exact T).
  assert (L : forallb is_token_cp [46; 48 + k / 100 mod 10; 48 + k / 10 mod 10; 48 + k mod 10] = true).
  { clear S. cbn [forallb]. unfold is_digit in T.
    generalize dependent ((k / 100) mod 10). generalize dependent ((k / 10) mod 10). generalize dependent (k mod 10). intros a A b B c C.
    rewrite (T (48 + a)), (T (48 + b)), (T (48 + c)) by lia. reflexivity. }
  assert (Z : forallb is_token_cp (show_dec (k / 1000) ++ [46; 48 + k / 100 mod 10; 48 + k / 10 mod 10; 48 + k mod 10]) = true) by (rewrite forallb_app, S, L; reflexivity).
  destruct n; cbn [app].
  - change (lit "-") with [45]. cbn [app forallb]. rewrite Z. reflexivity.
  - rewrite Z. destruct (show_dec (k / 1000)) eqn:E; [elim (show_dec_nonempty _ E)|reflexivity].
Qed.
Lemma media_value_items : forall p, media_value p = essence (mp_type p) ++ fps (items p).
Proof.
  intros [m w]. unfold media_value, mime_format, items, fps. cbn [mp_type mp_weight]. rewrite !flat_map_app, <- !app_assoc. f_equal. f_equal.
  - destruct (is_utf8 m); reflexivity.
  - f_equal. destruct w as [x|]; [|reflexivity]. cbn [flat_map fst snd]. rewrite app_nil_r. unfold format_param. rewrite (show3_token x). reflexivity.
Qed.

(** A media type that was read from some text and has no parameter called q. *)
Definition read_without_q (p : media_proposal) : Prop :=
  (exists s, mime_parse s = Ok (mp_type p)) /\ ~ In (lit "q") (map fst (params (mp_type p))).
Definition same_media (a b : media_proposal) : Prop := mp_type a = mp_type b /\ same_weight (mp_weight a) (mp_weight b).
Lemma media_good : forall p, read_without_q p -> good_mime (mp_type p).
Proof. intros p ((s & P) & _). destruct (mime_parse_good s) as [(m & E & G)|E]; congruence. Qed.
Lemma q_item : forall (ps ps' : list (str * str)) (w w' : option float), ~ In (lit "q") (map fst ps) -> ~ In (lit "q") (map fst ps') ->
  ps ++ match w with Some w => [(lit "q", show3 f32 w)] | None => [] end = ps' ++ match w' with Some w => [(lit "q", show3 f32 w)] | None => [] end ->
  ps = ps' /\ same_weight w w'.
Proof.
  intros ps ps' w w' N N' E. destruct w as [x|], w' as [y|].
  - apply app_inj_tail in E as [-> E]. split; [reflexivity|]. cbn. congruence.
  - exfalso. rewrite app_nil_r in E. apply N'. rewrite <- E, map_app. apply in_or_app. right. left. reflexivity.
  - exfalso. rewrite app_nil_r in E. apply N. rewrite E, map_app. apply in_or_app. right. left. reflexivity.
  - rewrite !app_nil_r in E. split; [exact E|exact I].
Qed.
Lemma media_delimited : forall a b r r', read_without_q a -> read_without_q b -> rest r -> rest r' -> media_value a ++ r = media_value b ++ r' -> same_media a b /\ r = r'.
Proof.
  intros a b r r' A B R R' E. assert (GA := media_good a A). assert (GB := media_good b B). destruct A as [_ QA], B as [_ QB].
  destruct GA as (_ & TA & _ & _ & SA & _ & EA & _ & PA), GB as (_ & TB & _ & _ & SB & _ & EB & _ & PB).
  assert (FI : forall p, (forall q, In q (params (mp_type p)) -> good_param q) -> Forall (fun q => forallb is_token_cp (fst q) = true) (items p)).
  { intros p G. unfold items. rewrite !Forall_app. split; [destruct (is_utf8 (mp_type p)); repeat constructor|]. split.
    - apply Forall_forall. intros q I. now destruct (G q I) as (_ & X & _).
    - destruct (mp_weight p); repeat constructor. }
  rewrite !media_value_items, EA, EB in E. rewrite <- !app_assoc in E.
  apply (app_class is_token_cp) in E; [|assumption|assumption|right; eexists; eexists; split; reflexivity|right; eexists; eexists; split; reflexivity].
  destruct E as [BT E]. injection E as E.
  apply (app_class is_token_cp) in E; [|assumption|assumption|apply fps_head; assumption|apply fps_head; assumption]. destruct E as [ST E].
  apply fps_inj in E; [|apply FI; assumption|apply FI; assumption|assumption|assumption]. destruct E as [I ->]. split; [|reflexivity].
  unfold items in I. unfold same_media.
  assert (X : forall l (w : option float) u, (forall q : str * str, In q l -> good_param q) ->
     (lit "charset", lit "utf-8") :: u = l ++ match w with Some w => [(lit "q", show3 f32 w)] | None => [] end -> False).
  { intros l w u G Y. destruct l as [|q l]; [destruct w; discriminate Y|]. cbn [app] in Y. injection Y as <- _.
    destruct (G _ (or_introl eq_refl)) as (_ & _ & _ & _ & N). now apply N. }
  destruct a as [[e1 b1 s1 u1 p1] w1], b as [[e2 b2 s2 u2 p2] w2]. cbn [mp_type mp_weight is_utf8 params essence basetype subtype] in *.
  assert (U : u1 = u2 /\ p1 = p2 /\ same_weight w1 w2).
  { destruct u1, u2; cbn [app] in I.
    - apply (f_equal (@List.tl _)) in I. cbn [List.tl] in I. apply q_item in I; tauto.
    - elim (X _ _ _ PB I).
    - elim (X _ _ _ PA (eq_sym I)).
    - apply q_item in I; tauto. }
  destruct U as (-> & -> & W). subst. auto.
Qed.
(** Two Accept values are written alike exactly if they list the same media types, in the same order, with weights of the same three
    decimals, and the same wildcard. *)
Theorem C98_accept : forall h a b, Forall read_without_q (fst a) -> Forall read_without_q (fst b) ->
  (media_apply h a = media_apply h b <-> Forall2 same_media (fst a) (fst b) /\ snd a = snd b).
Proof.
  intros h [es w] [es' w'] F F'. cbn [fst snd] in *.
  assert (SV : forall x y, same_media x y -> media_value x = media_value y).
  { intros [m x] [m' y] [T W]. cbn [mp_type mp_weight] in *. subst m'. unfold media_value. cbn [mp_type mp_weight].
    destruct x, y; cbn in W; try contradiction; [now rewrite W|reflexivity]. }
  split.
  - intros E. apply apply_value_inj in E. unfold media_list_value in E. cbn [fst snd] in E.
    assert (D : map media_value es = map media_value es' /\ w = w').
    { revert E. apply (list_alike media_value media_value read_without_q (lit "*")); try assumption.
      - intros a b r r' A B R R' X. destruct (media_delimited a b r r' A B R R' X) as [S ->]. split; [now apply SV|reflexivity].
      - intros a r A R X. destruct (media_good a A) as (NB & _ & _ & NS & _ & _ & EA & _). rewrite media_value_items, EA in X.
        apply (f_equal (@length N)) in X. rewrite !app_length in X. cbn in X. destruct (basetype (mp_type a)); [discriminate NB|]. cbn in X. lia.
      - intros a A X. destruct (media_good a A) as (NB & _ & _ & NS & _ & _ & EA & _). rewrite media_value_items, EA in X. destruct (basetype (mp_type a)); discriminate.
      - discriminate. }
    destruct D as [D ->]. split; [|reflexivity]. apply Forall2_map_eq in D. clear E.
    induction D as [|x y l l' X D IH]; constructor; inv F; inv F'; [|auto].
    apply (media_delimited x y [] []); [assumption|assumption|left; reflexivity|left; reflexivity|now rewrite !app_nil_r].
  - intros [E ->]. unfold media_apply, media_list_value. cbn [fst snd].
    assert (D : map media_value es = map media_value es') by (apply Forall2_map_eq; clear F F'; induction E; constructor; auto).
    now rewrite D.
Qed.
(** A weight and a parameter called q are written alike. *)
Theorem C98_accept_collision : exists m m' w, mime_parse (lit "a/b;q=0.500") = Ok m /\ mime_parse (lit "a/b") = Ok m' /\ m <> m' /\
  media_apply [] ([MediaProposal m None], false) = media_apply [] ([MediaProposal m' (Some w)], false).
Proof.
  exists (mkMime (lit "a/b") (lit "a") (lit "b") false [(lit "q", lit "0.500")]), (mkMime (lit "a/b") (lit "a") (lit "b") false []), (Fin false (2 ^ 148)).
  split; [vm_compute; reflexivity|]. split; [vm_compute; reflexivity|]. split; [discriminate|vm_compute; reflexivity].
Qed.
Example C98_accept_example : exists m, mime_parse (lit "text/html;a=""x, y/z;q=1""") = Ok m /\ Forall read_without_q [MediaProposal m None; MediaProposal m (Some (Fin false 0))] /\
  media_list_value ([MediaProposal m None; MediaProposal m (Some (Fin false 0))], true) = lit "text/html;a=""x, y/z;q=1"", text/html;a=""x, y/z;q=1"";q=0.000, *".
Proof.
  exists (mkMime (lit "text/html") (lit "text") (lit "html") false [(lit "a", lit "x, y/z;q=1")]). split; [vm_compute; reflexivity|].
  split; [|vm_compute; reflexivity]. repeat constructor; cbn [mp_type params map fst];
    try (exists (lit "text/html;a=""x, y/z;q=1"""); vm_compute; reflexivity); intros [H|[]]; discriminate H.
Qed.
Print Assumptions C98_etag.
Print Assumptions C98_conditions.
Print Assumptions C98_conditions_collision.
Print Assumptions C98_vary.
Print Assumptions C98_vary_collision.
Print Assumptions C98_vary_empty_collision.
Print Assumptions C98_cache_control.
Print Assumptions C98_age.
Print Assumptions C98_clear_site_data.
Print Assumptions C98_authorization.
Print Assumptions C98_challenge.
Print Assumptions C98_basic.
Print Assumptions C98_basic_no_colon.
Print Assumptions C98_basic_collision.
Print Assumptions C98_codings.
Print Assumptions C98_applied_coding.
Print Assumptions C98_content_length.
Print Assumptions C98_allow.
Print Assumptions C98_hsts.
Print Assumptions C98_content_type.
Print Assumptions C98_dates.
Print Assumptions C98_retry_after.
Print Assumptions C98_accept.
Print Assumptions C98_accept_collision.
