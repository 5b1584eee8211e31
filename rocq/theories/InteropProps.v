(** C102: what a program that follows the RFCs reads in the headers written by this crate. *)
From Coq Require Import ZifyBool ZifyNat ZifyN Lia.
From Verif Require Import Base BaseFacts Headers Typed Mime MimeFacts Method Conditional Cache Auth Negotiate NegotiateFacts ParseUtils ParseUtilsFacts Forwarded ForwardedExactProps Other Timing TimingProps AlikeProps Rfc FloatProps Float.

(** ** The reader *)
Fixpoint walk (esc : bool) (sep : N) (p : place) (s : str) : option place :=
  match s with
  | [] => Some p
  | c :: t => match p with
              | Plain => if c =? sep then None else walk esc sep (step esc p c) t
              | _ => walk esc sep (step esc p c) t
              end
  end.
(** Quotes are closed and no separator stands outside them. *)
Definition calm (esc : bool) (sep : N) (s : str) : Prop := walk esc sep Plain s = Some Plain.
Lemma walk_app : forall esc sep a p b, walk esc sep p (a ++ b) = match walk esc sep p a with Some q => walk esc sep q b | None => None end.
Proof. intros esc sep. induction a as [|c a IH]; intros p b; [reflexivity|]. cbn [app walk]. destruct p; [destruct (c =? sep); [reflexivity|]|..]; apply IH. Qed.
Lemma cut_whole : forall esc sep a p q, walk esc sep p a = Some q -> cut esc sep p a = [a].
Proof.
  intros esc sep. induction a as [|c a IH]; intros p q W; [reflexivity|]. cbn [cut walk] in *.
  destruct p; [destruct (c =? sep); [discriminate W|]|..]; rewrite (IH _ _ W); reflexivity.
Qed.
Lemma cut_app : forall esc sep a p b, walk esc sep p a = Some Plain -> cut esc sep p (a ++ sep :: b) = a :: cut esc sep Plain b.
Proof.
  intros esc sep. induction a as [|c a IH]; intros p b W.
  - cbn in W. inv W. cbn [app cut]. now rewrite N.eqb_refl.
  - cbn [app cut walk] in *. destruct p; [destruct (c =? sep); [discriminate W|]|..]; rewrite (IH _ _ W); reflexivity.
Qed.
Lemma calm_plain : forall esc sep s, no_char 34 s = true -> no_char sep s = true -> calm esc sep s.
Proof.
  intros esc sep s Q S. unfold calm. induction s as [|c s IH]; [reflexivity|]. unfold no_char in Q, S. cbn [forallb] in Q, S.
  apply andb_true_iff in Q as [Q Q'], S as [S S']. apply negb_true_iff in Q, S. cbn [walk step]. rewrite S, Q. now apply IH.
Qed.
Lemma calm_app : forall esc sep a b, calm esc sep a -> calm esc sep b -> calm esc sep (a ++ b).
Proof. intros esc sep a b A B. unfold calm in *. now rewrite walk_app, A. Qed.
Lemma walk_quoted : forall esc sep s, no_char 34 s = true -> (esc = true -> no_char 92 s = true) -> walk esc sep Quoted s = Some Quoted.
Proof.
  intros esc sep s Q E. induction s as [|c s IH]; [reflexivity|]. unfold no_char in Q, E. cbn [forallb] in Q, E.
  apply andb_true_iff in Q as [Q Q']. apply negb_true_iff in Q. cbn [walk step]. rewrite Q.
  assert (esc && (c =? 92) = false) as ->. { destruct esc; [|reflexivity]. specialize (E eq_refl). apply andb_true_iff in E as [E _]. apply negb_true_iff in E. exact E. }
  apply IH; [exact Q'|]. intros X. specialize (E X). apply andb_true_iff in E. apply E.
Qed.
Lemma calm_quoted : forall esc sep s, sep <> 34 -> no_char 34 s = true -> (esc = true -> no_char 92 s = true) -> calm esc sep (34 :: s ++ [34]).
Proof.
  intros esc sep s S Q E. unfold calm. cbn [walk step]. rewrite (proj2 (N.eqb_neq 34 sep)) by congruence. rewrite N.eqb_refl, walk_app, walk_quoted by assumption. reflexivity.
Qed.
Definition shielded (f : N -> str) : Prop := forall c, f c = if (c =? 34) || (c =? 92) then [92; c] else [c].
Lemma walk_escaped : forall f sep s, shielded f -> walk true sep Quoted (flat_map f s) = Some Quoted.
Proof.
  intros f sep s F. induction s as [|c s IH]; [reflexivity|]. cbn [flat_map]. rewrite F. destruct ((c =? 34) || (c =? 92)) eqn:E.
  - cbn. exact IH.
  - apply orb_false_iff in E as [A B]. cbn [app walk step]. rewrite A, B. exact IH.
Qed.
Lemma calm_escaped : forall f sep s, shielded f -> sep <> 34 -> calm true sep (34 :: flat_map f s ++ [34]).
Proof. intros f sep s F S. unfold calm. cbn [walk step]. rewrite (proj2 (N.eqb_neq 34 sep)) by congruence. rewrite N.eqb_refl, walk_app, walk_escaped by assumption. reflexivity. Qed.
Lemma unescape_shielded : forall f s r, shielded f -> unescape (flat_map f s ++ 34 :: r) = s.
Proof.
  intros f s r F. induction s as [|c s IH]; [reflexivity|]. cbn [flat_map]. rewrite F, <- app_assoc. destruct ((c =? 34) || (c =? 92)) eqn:E.
  - cbn. now rewrite IH.
  - apply orb_false_iff in E as [A B]. cbn [app unescape]. rewrite A, B. now rewrite IH.
Qed.
Lemma unescape_plain : forall s r, no_char 34 s = true -> no_char 92 s = true -> unescape (s ++ 34 :: r) = s.
Proof.
  intros s r Q E. induction s as [|c s IH]; [reflexivity|]. unfold no_char in Q, E. cbn [forallb] in Q, E.
  apply andb_true_iff in Q as [Q Q'], E as [E E']. apply negb_true_iff in Q, E. cbn [app unescape]. rewrite Q, E. now rewrite IH.
Qed.
(** What is left alone by [strip]. *)
Definition tight (s : str) : Prop := no_edge blank s = true.
Lemma strip_tight : forall s, tight s -> strip s = s.
Proof. intros s T. now apply trim_matches_id. Qed.
Lemma strip_space : forall s, tight s -> strip (32 :: s) = s.
Proof.
  intros s T. unfold strip. assert (E := trim_matches_pad blank [32] s [] eq_refl eq_refl). rewrite app_nil_r in E. cbn [app] in E.
  rewrite E. now apply trim_matches_id.
Qed.
Lemma cut_join : forall esc sep x l, sep <> 32 -> Forall (calm esc sep) (x :: l) -> cut esc sep Plain (join [sep; 32] (x :: l)) = x :: map (cons 32) l.
Proof.
  intros esc sep x l S. revert x. induction l as [|y l IH]; intros x F; inv F.
  - cbn [join map]. eapply cut_whole. eassumption.
  - change (join [sep; 32] (x :: y :: l)) with (x ++ sep :: (32 :: join [sep; 32] (y :: l))). rewrite cut_app by assumption. f_equal.
    cbn [cut step]. rewrite (proj2 (N.eqb_neq 32 sep)) by congruence. change (32 =? 34) with false. cbv iota. rewrite IH by assumption. reflexivity.
Qed.
Definition element (esc : bool) (e : str) : Prop := calm esc 44 e /\ tight e /\ e <> [].
Lemma elements_join : forall esc l, Forall (element esc) l -> elements esc (join (lit ", ") l) = l.
Proof.
  intros esc l F. destruct l as [|x l]; [reflexivity|]. unfold elements. change (lit ", ") with [44; 32].
  rewrite cut_join; [|discriminate|eapply Forall_impl; [|exact F]; intros a A; apply A].
  cbn [map]. inv F. rewrite map_map. match goal with H : element esc x |- _ => destruct H as (_ & T & N) end. rewrite strip_tight by exact T.
  assert (E : map (fun s => strip (32 :: s)) l = l).
  { rewrite <- (map_id l) at 2. apply map_ext_in. intros a A. match goal with H : Forall _ l |- _ => rewrite Forall_forall in H; apply H in A end. apply strip_space, A. }
  rewrite E. cbn [filter]. destruct x as [|c x]; [congruence|]. f_equal.
  match goal with H : Forall _ l |- _ => rename H into G end. clear - G. induction G as [|y l (_ & _ & Y) G IH]; [reflexivity|]. cbn [filter]. destruct y; [congruence|]. now rewrite IH.
Qed.
Lemma elements_list : forall esc star l w, element esc star -> Forall (element esc) l ->
  elements esc (list_value star l w) = l ++ (if w then [star] else []).
Proof.
  intros esc star l w S F. unfold list_value. destruct w; [|rewrite app_nil_r; now apply elements_join].
  destruct l as [|x l]; [cbn [join]; apply (elements_join esc [star]); now constructor|].
  assert (N : join (lit ", ") (x :: l) <> []).
  { inv F. match goal with H : element esc x |- _ => destruct H as (_ & _ & H); destruct x as [|c x]; [congruence|] end. destruct l; discriminate. }
  assert (J : join (lit ", ") ((x :: l) ++ [star]) = join (lit ", ") (x :: l) ++ lit ", " ++ star).
  { clear. revert x. induction l as [|y l IH]; intros x; [reflexivity|]. change (join (lit ", ") ((x :: y :: l) ++ [star])) with (x ++ lit ", " ++ join (lit ", ") ((y :: l) ++ [star])).
    rewrite IH. change (join (lit ", ") (x :: y :: l)) with (x ++ lit ", " ++ join (lit ", ") (y :: l)). now rewrite <- !app_assoc. }
  destruct (join (lit ", ") (x :: l)) as [|c j] eqn:E; [congruence|]. rewrite <- E in J |- *. rewrite <- J. apply elements_join. apply Forall_app. auto.
Qed.
(** Text without quotes, commas and blanks is an element. *)
Definition wordy (s : str) : bool := forallb (fun c => negb ((c =? 34) || (c =? 44) || blank c)) s.
Lemma wordy_no : forall s c, wordy s = true -> (c =? 34) || (c =? 44) || blank c = true -> no_char c s = true.
Proof.
  intros s c W B. unfold no_char, wordy in *. rewrite forallb_forall in *. intros x X. apply W in X. apply negb_true_iff. apply N.eqb_neq. intros ->.
  rewrite B in X. discriminate X.
Qed.
Lemma wordy_tight : forall s, wordy s = true -> tight s.
Proof. intros s W. apply no_edge_all. eapply forallb_impl; [|exact W]. intros c C. cbv beta in *. apply negb_true_iff in C. apply orb_false_iff in C as [_ C]. now rewrite C. Qed.
Lemma wordy_element : forall esc s, wordy s = true -> s <> [] -> element esc s.
Proof. intros esc s W N. split; [|split; [now apply wordy_tight|exact N]]. apply calm_plain; apply wordy_no; try exact W; reflexivity. Qed.

(** ** Cache-Control: RFC 9111, section 5.2 *)
Definition directive_meaning (d : directive) : str * option str :=
  match d with
  | Immutable => (lit "immutable", None) | MaxAge d => (lit "max-age", Some (show_dec (secs d)))
  | MaxStale (Some d) => (lit "max-stale", Some (show_dec (secs d))) | MaxStale None => (lit "max-stale", None)
  | MinFresh d => (lit "min-fresh", Some (show_dec (secs d))) | MustRevalidate => (lit "must-revalidate", None)
  | NoCache => (lit "no-cache", None) | NoStore => (lit "no-store", None) | NoTransform => (lit "no-transform", None)
  | OnlyIfCached => (lit "only-if-cached", None) | Private => (lit "private", None) | ProxyRevalidate => (lit "proxy-revalidate", None)
  | Public => (lit "public", None) | SMaxAge d => (lit "s-maxage", Some (show_dec (secs d)))
  | StaleIfError d => (lit "stale-if-error", Some (show_dec (secs d))) | StaleWhileRevalidate d => (lit "stale-while-revalidate", Some (show_dec (secs d)))
  end.
Lemma show_dec_wordy : forall n, wordy (show_dec n) = true.
Proof. intros n. eapply forallb_impl; [|apply show_dec_digits]. intros c D. unfold is_digit, blank in *. lia. Qed.
Lemma wordy_app : forall a b, wordy (a ++ b) = wordy a && wordy b.
Proof. intros. apply forallb_app. Qed.
Lemma unquote_word : forall s, no_char 34 s = true -> unquote s = s.
Proof. intros [|c s] N; [reflexivity|]. unfold no_char in N. cbn [forallb] in N. apply andb_true_iff in N as [N _]. apply negb_true_iff in N. cbn [unquote]. now rewrite N. Qed.
Lemma binding_app : forall n v, no_char 61 n = true -> binding (n ++ 61 :: v) = (n, Some (unquote v)).
Proof. intros n v N. unfold binding. now rewrite split_once_app. Qed.
Lemma binding_alone : forall n, no_char 61 n = true -> binding n = (n, None).
Proof. intros n N. unfold binding. apply split_once_none in N. now rewrite N. Qed.
Lemma directive_wordy : forall d, wordy (directive_value d) = true /\ directive_value d <> [].
Proof. intros d. destruct d as [|d|[d|]|d| | | | | | | | |d|d|d]; cbn [directive_value]; rewrite ?wordy_app, ?show_dec_wordy; split; first [reflexivity|discriminate]. Qed.
Lemma timed_binding : forall n d, no_char 61 n = true -> binding (n ++ lit "=" ++ show_dec d) = (n, Some (show_dec d)).
Proof. intros n d N. change (lit "=" ++ show_dec d) with (61 :: show_dec d). rewrite binding_app by exact N. rewrite unquote_word; [reflexivity|]. now apply show_dec_no_char. Qed.
(** Every directive is read with the name and the argument the RFC gives it - except the maximum age for shared caches ... *)
Theorem C102_cache_control : forall l, (forall d, ~ In (SMaxAge d) l) -> map binding (elements true (cache_value l)) = map directive_meaning l.
Proof.
  intros l N. unfold cache_value. rewrite elements_join.
  - rewrite map_map. apply map_ext_in. intros d I. destruct d as [|d|[d|]|d| | | | | | | | |d|d|d]; try reflexivity; try (elim (N d); exact I).
    all: cbn [directive_value directive_meaning]; match goal with |- _ = (?n, _) => exact (timed_binding n (secs d) eq_refl) end.
  - apply Forall_forall. intros x X. apply in_map_iff in X as (d & <- & _). destruct (directive_wordy d). now apply wordy_element.
Qed.
(** ... which other programs do not know by the name it is given here. *)
Theorem C102_shared_age : forall d l, In (SMaxAge d) l ->
  ~ In (lit "s-maxage") (map fst (map binding (elements true (cache_value l)))) /\ In (lit "s-max-age", Some (show_dec (secs d))) (map binding (elements true (cache_value l))).
Proof.
  intros d l I. unfold cache_value. rewrite elements_join.
  - split.
    + rewrite !map_map. intros J. apply in_map_iff in J as (x & E & _). destruct x as [|x|[x|]|x| | | | | | | | |x|x|x]; try discriminate E.
      all: cbn [directive_value] in E; match type of E with fst (binding (?n ++ _)) = _ => let m := eval vm_compute in (firstn (length n - 1) n) in
        assert (Z := timed_binding m (secs x) eq_refl); change (n ++ show_dec (secs x)) with (m ++ lit "=" ++ show_dec (secs x)) in E; rewrite Z in E; discriminate E end.
    + apply in_map_iff. exists (directive_value (SMaxAge d)). split; [exact (timed_binding (lit "s-max-age") (secs d) eq_refl)|]. apply in_map. exact I.
  - apply Forall_forall. intros x X. apply in_map_iff in X as (x' & <- & _). destruct (directive_wordy x'). now apply wordy_element.
Qed.
Theorem C102_shared_age_refuted : exists l, map binding (elements true (cache_value l)) <> map directive_meaning l.
Proof. exists [SMaxAge (Dur 60 0)]. vm_compute. discriminate. Qed.

Example C102_cache_control_example : (forall d, ~ In (SMaxAge d) [MaxAge (Dur 60 5); NoCache; MaxStale None]) /\
  map binding (elements true (cache_value [MaxAge (Dur 60 5); NoCache; MaxStale None])) = [(lit "max-age", Some (lit "60")); (lit "no-cache", None); (lit "max-stale", None)].
Proof. split; [|vm_compute; reflexivity]. intros d [H|[H|[H|[]]]]; discriminate H. Qed.

(** ** If-Match, If-None-Match: RFC 9110, sections 8.8.3 and 13.1 *)
Definition read_tag (s : str) : option (bool * str) :=
  let '(weak, t) := match strip_prefix (lit "W/") s with Some t => (true, t) | None => (false, s) end in
  match strip_prefix [34] t with
  | Some u => match strip_suffix [34] u with Some o => Some (weak, o) | None => None end
  | None => None
  end.
Definition tag_meaning (e : etag) : bool * str := match e with Strong s => (false, s) | Weak s => (true, s) end.
Lemma tag_read : forall e, read_tag (etag_show e) = Some (tag_meaning e).
Proof.
  assert (S : forall s, strip_suffix [34] (s ++ [34]) = Some s).
  { intros s. apply strip_suffix_app. }
  intros [s|s]; unfold read_tag, etag_show, tag_meaning.
  - change (strip_prefix (lit "W/") ([34] ++ s ++ [34])) with (@None str). cbv iota beta. rewrite strip_prefix_app. now rewrite S.
  - rewrite strip_prefix_app. cbv iota beta. rewrite strip_prefix_app. now rewrite S.
Qed.
Lemma tag_element : forall e, no_char 34 (tag_text e) = true -> element false (etag_show e).
Proof.
  intros e Q. destruct e as [s|s]; cbn [tag_text etag_show] in *.
  - split; [apply calm_quoted; [discriminate|exact Q|discriminate]|]. split; [|discriminate].
    unfold tight, no_edge. cbn [app rev]. rewrite rev_app_distr. reflexivity.
  - split; [apply calm_app; [reflexivity|apply calm_quoted; [discriminate|exact Q|discriminate]]|]. split; [|discriminate].
    unfold tight, no_edge. change (lit "W/" ++ [34] ++ s ++ [34]) with ((87 :: 47 :: 34 :: s) ++ [34]). rewrite rev_app_distr. reflexivity.
Qed.
(** The tags are read with their strength and text, and then the wildcard; a tag cannot hold a double quote. *)
Theorem C102_conditions : forall es w, Forall (fun e => ~ In 34 (tag_text e)) es ->
  map read_tag (elements false (cond_value (es, w))) = map (fun e => Some (tag_meaning e)) es ++ (if w then [None] else []) /\
  elements false (cond_value (es, w)) = map etag_show es ++ (if w then [lit "*"] else []).
Proof.
  intros es w F. assert (E : elements false (cond_value (es, w)) = map etag_show es ++ (if w then [lit "*"] else [])).
  { unfold cond_value. cbn [fst snd]. apply elements_list; [now apply wordy_element|]. apply Forall_forall. intros x X. apply in_map_iff in X as (e & <- & I).
    rewrite Forall_forall in F. apply tag_element. apply forallb_forall. intros c C. apply negb_true_iff. apply N.eqb_neq. intros ->. apply F in I. now apply I. }
  split; [|exact E]. rewrite E, map_app, map_map. f_equal; [|destruct w; reflexivity]. apply map_ext. apply tag_read.
Qed.
Example C102_conditions_example :
  Forall (fun e => ~ In 34 (tag_text e)) [Strong (lit "a, \b"); Weak []] /\
  map read_tag (elements false (cond_value ([Strong (lit "a, \b"); Weak []], false))) = [Some (false, lit "a, \b"); Some (true, [])].
Proof. split; [|vm_compute; reflexivity]. repeat constructor; cbn; intros H; repeat (destruct H as [H|H]; [discriminate H|]); exact H. Qed.
(** False of the code: a tag with a double quote is read as the tag it is. *)
Theorem C102_tag_refuted : exists e, map read_tag (elements false (cond_value ([e], false))) = [Some (false, lit "a"); Some (false, lit "b")] /\ e = Strong (lit "a"", ""b").
Proof. eexists. split; [|reflexivity]. vm_compute. reflexivity. Qed.

(** ** Vary and Allow: lists of tokens *)
Definition rfc_token (s : str) : bool := negb (seqb s []) && forallb (fun c => (33 <=? c) && (c <=? 126) && negb (existsb (N.eqb c) (lit """(),/:;<=>?@[\]{}"))) s.
Lemma rfc_wordy : forall s, rfc_token s = true -> wordy s = true /\ s <> [] /\ no_char 61 s = true /\ no_char 59 s = true.
Proof.
  intros s T. unfold rfc_token in T. apply andb_true_iff in T as [N F]. apply negb_true_iff in N.
  assert (G : forall c, In c s -> 33 <= c <= 126 /\ c <> 34 /\ c <> 44 /\ c <> 61 /\ c <> 59).
  { intros c C. rewrite forallb_forall in F. apply F in C. apply andb_true_iff in C as [C D]. apply negb_true_iff in D. split; [lia|].
    repeat split; intros ->; vm_compute in D; discriminate D. }
  repeat split.
  - apply forallb_forall. intros c C. apply G in C. unfold blank. lia.
  - intros ->. discriminate N.
  - apply forallb_forall. intros c C. apply G in C. lia.
  - apply forallb_forall. intros c C. apply G in C. lia.
Qed.
Theorem C102_vary : forall names w v, Forall (fun n => rfc_token n = true) names -> vary_value (names, w) = Ok v ->
  elements true v = names ++ (if w then [lit "*"] else []).
Proof.
  intros names w v F V. unfold vary_value in V. cbn [fst snd] in V.
  assert (T : forall l r, vary_texts l = Ok r -> r = l).
  { induction l as [|x l IH]; cbn; intros r; [congruence|]. unfold value_from_str. destruct (is_ascii x); cbn [bind]; [|discriminate].
    destruct (vary_texts l) as [r'| |]; cbn [bind]; try discriminate. intros X. injection X as <-. f_equal. now apply IH. }
  destruct (vary_texts names) as [ts| |] eqn:E; cbn [bind] in V; try discriminate V. apply T in E. subst ts. injection V as <-.
  apply elements_list; [now apply wordy_element|]. eapply Forall_impl; [|exact F]. intros n N. apply rfc_wordy in N as (W & NE & _). now apply wordy_element.
Qed.
Example C102_vary_example : exists v, vary_value ([lit "accept"; lit "x-y"], true) = Ok v /\ forallb rfc_token [lit "accept"; lit "x-y"] = true /\ v = lit "accept, x-y, *".
Proof. eexists. split; [vm_compute; reflexivity|]. vm_compute. auto. Qed.
Theorem C102_allow : forall ms, elements true (allow_value ms) = map method_str ms /\ forallb rfc_token (map method_str ms) = true.
Proof.
  intros ms. split.
  - apply elements_join. apply Forall_forall. intros x X. apply in_map_iff in X as (m & <- & _). apply wordy_element; destruct m; first [reflexivity|discriminate].
  - rewrite forallb_forall. intros x X. apply in_map_iff in X as (m & <- & _). destruct m; reflexivity.
Qed.

(** ** Clear-Site-Data: quoted strings *)
Definition clear_meaning (c : clear) : str :=
  match c with ClearCache => lit "cache" | ClearCookies => lit "cookies" | ClearStorage => lit "storage" | ClearExecutionContexts => lit "executionContexts" end.
Theorem C102_clear_site_data : forall l w, map unquote (elements true (clear_value (l, w))) = map clear_meaning l ++ (if w then [lit "*"] else []).
Proof.
  intros l w. unfold clear_value. cbn [fst snd]. rewrite elements_list.
  - rewrite map_app, map_map. f_equal; [|destruct w; reflexivity]. apply map_ext. intros []; reflexivity.
  - split; [reflexivity|]. split; [reflexivity|discriminate].
  - apply Forall_forall. intros x X. apply in_map_iff in X as (m & <- & _). destruct m; (split; [reflexivity|]); (split; [reflexivity|discriminate]).
Qed.

(** ** Parameters *)
Lemma cut_marked : forall esc sep l x, calm esc sep x -> Forall (calm esc sep) l -> cut esc sep Plain (x ++ flat_map (cons sep) l) = x :: l.
Proof.
  intros esc sep. induction l as [|y l IH]; intros x X F.
  - cbn [flat_map]. rewrite app_nil_r. eapply cut_whole. exact X.
  - inv F. cbn [flat_map]. change ((sep :: y) ++ flat_map (cons sep) l) with (sep :: (y ++ flat_map (cons sep) l)). rewrite cut_app by exact X. now rewrite IH.
Qed.
Lemma calm_marked : forall esc sep mark l x, mark <> sep -> mark <> 34 -> calm esc sep x -> Forall (calm esc sep) l -> calm esc sep (x ++ flat_map (cons mark) l).
Proof.
  intros esc sep mark l x S Q X F. apply calm_app; [exact X|]. clear X. induction F as [|y l Y F IH]; [reflexivity|]. cbn [flat_map].
  apply (calm_app esc sep (mark :: y)); [|exact IH]. unfold calm. cbn [walk step]. rewrite (proj2 (N.eqb_neq mark sep) S), (proj2 (N.eqb_neq mark 34) Q). exact Y.
Qed.
Lemma parts_marked : forall l x, calm true 59 x -> tight x -> Forall (fun y => calm true 59 y /\ tight y) l -> parts (x ++ flat_map (cons 59) l) = x :: l.
Proof.
  intros l x X T F. unfold parts. rewrite cut_marked; [|exact X|eapply Forall_impl; [|exact F]; intros a A; apply A]. cbn [map]. rewrite strip_tight by exact T. f_equal.
  rewrite <- (map_id l) at 2. apply map_ext_in. intros a A. rewrite Forall_forall in F. apply F in A. apply strip_tight, A.
Qed.
Lemma ends_tight : forall c s d u, c :: s = u ++ [d] -> blank c = false -> blank d = false -> tight (c :: s).
Proof. intros c s d u E C D. unfold tight, no_edge. rewrite C. rewrite E, rev_app_distr. cbn [rev app]. rewrite D. reflexivity. Qed.
Lemma tight_join : forall a b, tight a -> tight b -> a <> [] -> b <> [] -> tight (a ++ b).
Proof.
  intros a b A B NA NB. unfold tight, no_edge in *. apply andb_true_iff in A as [A _], B as [_ B]. apply andb_true_iff. split.
  - destruct a as [|c a]; [congruence|]. exact A.
  - rewrite rev_app_distr. destruct (rev b) as [|c r] eqn:E; [|exact B]. apply (f_equal (@rev N)) in E. rewrite rev_involutive in E. contradiction.
Qed.
Lemma wordy_calm : forall esc s, wordy s = true -> no_char 59 s = true -> calm esc 59 s.
Proof. intros esc s W N. apply calm_plain; [|exact N]. now apply wordy_no. Qed.

(** ** Quality values *)
(** The thousandths nearest to a weight; no weight counts as 1. *)
Definition close (w : option float) (k : N) : Prop :=
  match w with
  | None => k = 1000
  | Some (Fin false v) => (2 * Z.abs (Z.of_N (1000 * v) - Z.of_N (k * 2 ^ 149)) <= 2 ^ 149)%Z
  | _ => False
  end.
Lemma weight_read : forall v, v <= 2 ^ 149 -> exists k, quality (show3 f32 (Fin false v)) = Some k /\ close (Some (Fin false v)) k /\ k <= 1000.
Proof.
  intros v V. destruct (C81_three_decimals f32 false v) as (k & a & b & c & E & D & W & NEAR). exists k. rewrite E. cbn [app]. clear E.
  change (unit f32) with 149 in NEAR. cbn [close].
  assert (Z.of_N (2 ^ 149) = 2 ^ 149)%Z as U by reflexivity. assert (POS : 0 < 2 ^ 149) by reflexivity.
  rewrite <- U. clear U. remember (2 ^ 149) as u eqn:HU. clear HU.
  assert (K : k <= 1000).
  { destruct (N.le_gt_cases k 1000) as [L|L]; [exact L|]. exfalso. destruct (NEAR 1000) as [X|[X _]]; [lia| |]; nia. }
  split; [|split; [|exact K]].
  - unfold all_digits in D. cbn [forallb] in D. cbn [value length] in W. change (10 ^ N.of_nat 2) with 100 in W. change (10 ^ N.of_nat 1) with 10 in W. change (10 ^ N.of_nat 0) with 1 in W.
    apply andb_true_iff in D as [DA D]. apply andb_true_iff in D as [DB D]. apply andb_true_iff in D as [DC _].
    destruct (N.eq_dec k 1000) as [->|N].
    + change (1000 mod 1000) with 0 in W. unfold is_digit in *. assert (a = 48) by lia. assert (b = 48) by lia. assert (c = 48) by lia. subst. reflexivity.
    + rewrite N.div_small by lia. change (show_dec 0 ++ lit "." ++ [a; b; c]) with ([48; 46; a; b; c]). cbn [quality]. unfold decimals. cbn [forallb]. rewrite DA, DB, DC. cbn [andb].
      rewrite N.mod_small in W by lia. f_equal. lia.
  - destruct (NEAR (k + 1)) as [X|[X _]]; [lia| |]; (destruct (N.eq_dec k 0) as [->|N]; [nia|]; destruct (NEAR (k - 1)) as [Y|[Y _]]; [lia| |]); nia.
Qed.

(** ** Accept-Encoding and TE: RFC 9110, sections 12.5.3 and 10.1.4 *)
Lemma show3_wordy : forall x, wordy (show3 f32 x) = true /\ no_char 59 (show3 f32 x) = true /\ show3 f32 x <> [] /\ no_char 34 (show3 f32 x) = true.
Proof.
  intros x. assert (T := show3_token x). apply andb_true_iff in T as [T N]. split; [|split; [apply show3_no; cbn; auto|split; [|apply show3_no; cbn; auto]]].
  - eapply forallb_impl; [|exact T]. intros c C. apply negb_true_iff. destruct ((c =? 34) || (c =? 44) || blank c) eqn:E; [|reflexivity]. exfalso.
    unfold blank in E. assert (c = 34 \/ c = 44 \/ c = 32 \/ c = 9) as [->|[->|[->| ->]]] by lia; discriminate C.
  - destruct (show3 f32 x); [discriminate N|discriminate].
Qed.
Lemma weight_text : forall x, let t := lit "q=" ++ show3 f32 x in
  (forall esc, calm esc 44 t) /\ calm true 59 t /\ tight t /\ binding t = (lit "q", Some (show3 f32 x)).
Proof.
  intros x t. destruct (show3_wordy x) as (W & S & _ & Q). assert (WT : wordy t = true) by (unfold t; rewrite wordy_app, W; reflexivity).
  split; [intros esc; apply calm_plain; apply wordy_no; try exact WT; reflexivity|]. split; [apply wordy_calm; [exact WT|unfold t; rewrite no_char_app, S; reflexivity]|].
  split; [now apply wordy_tight|]. unfold t. change (lit "q=" ++ show3 f32 x) with (lit "q" ++ 61 :: show3 f32 x). rewrite binding_app by reflexivity. now rewrite unquote_word.
Qed.
Lemma proposal_text : forall p, proposal_value p = coding_show (p_coding p) ++ flat_map (cons 59) match p_weight p with Some w => [lit "q=" ++ show3 f32 w] | None => [] end.
Proof. intros [c [w|]]; unfold proposal_value; cbn [p_coding p_weight flat_map]; rewrite ?app_nil_r; reflexivity. Qed.
Lemma coding_words : forall c, wordy (coding_show c) = true /\ no_char 59 (coding_show c) = true /\ coding_show c <> [].
Proof. intros []; repeat split; discriminate. Qed.
Lemma proposal_element : forall p, element true (proposal_value p).
Proof.
  intros [c w]. rewrite proposal_text. cbn [p_coding p_weight]. destruct (coding_words c) as (W & S & N).
  assert (C : calm true 44 (coding_show c)) by (apply calm_plain; apply wordy_no; try exact W; reflexivity).
  destruct w as [w|]; cbn [flat_map]; rewrite app_nil_r; [|now apply wordy_element].
  destruct (weight_text w) as (A & _ & T & _). split; [|split].
  - apply calm_app; [exact C|]. exact (A true).
  - apply tight_join; [now apply wordy_tight| |exact N|discriminate]. apply (tight_join [59]); [reflexivity|exact T|discriminate|discriminate].
  - destruct (coding_show c); [congruence|discriminate].
Qed.
Lemma proposal_ranked : forall p, good_weight (p_weight p) -> exists k, ranked (proposal_value p) = (coding_show (p_coding p), [], Some k) /\ close (p_weight p) k.
Proof.
  intros [c w] G. cbn [p_weight p_coding] in *. destruct (coding_words c) as (W & S & N). assert (T := wordy_tight _ W).
  assert (P : parts (proposal_value (Proposal c w)) = coding_show c :: match w with Some w => [lit "q=" ++ show3 f32 w] | None => [] end).
  { rewrite proposal_text. apply parts_marked; [now apply wordy_calm|exact T|]. cbn [p_weight]. destruct w as [w|]; repeat constructor; apply weight_text. }
  unfold ranked. rewrite P. cbn [hd tl map]. destruct w as [w|].
  - destruct G as (v & -> & V). destruct (weight_read v V) as (k & Q & C & _). exists k. split; [|exact C]. cbn [map].
    destruct (weight_text (Fin false v)) as (_ & _ & _ & B). rewrite B. cbn [filter]. change (is_weight (lit "q", Some (show3 f32 (Fin false v)))) with true. cbv iota beta. cbn [negb]. now rewrite Q.
  - exists 1000. split; reflexivity.
Qed.
(** Every coding is read with the nearest thousandths of its weight, in order; a proposal without a weight counts as 1. *)
Theorem C102_codings : forall l w, Forall (fun p => good_weight (p_weight p)) l ->
  exists rs, map ranked (elements true (accept_value (l, w))) = rs ++ (if w then [(lit "*", [], Some 1000)] else []) /\
    Forall2 (fun p r => exists k, r = (coding_show (p_coding p), [], Some k) /\ close (p_weight p) k) l rs.
Proof.
  intros l w F. unfold accept_value. cbn [fst snd]. rewrite elements_list; [|now apply wordy_element|apply Forall_forall; intros x X; apply in_map_iff in X as (p & <- & _); apply proposal_element].
  rewrite map_app, map_map. exists (map (fun p => ranked (proposal_value p)) l). split; [destruct w; reflexivity|].
  induction F as [|p l G F IH]; constructor; [|exact IH]. now apply proposal_ranked.
Qed.
Example C102_codings_example :
  Forall (fun p => good_weight (p_weight p)) [Proposal Gzip (Some (Fin false (2 ^ 148))); Proposal Brotli None] /\
  map ranked (elements true (accept_value ([Proposal Gzip (Some (Fin false (2 ^ 148))); Proposal Brotli None], true))) =
    [(lit "gzip", [], Some 500); (lit "br", [], Some 1000); (lit "*", [], Some 1000)].
Proof.
  split; [|vm_compute; reflexivity]. constructor; [|constructor; [exact I|constructor]]. exists (2 ^ 148). split; [reflexivity|]. apply N.leb_le. vm_compute. reflexivity.
Qed.

(** ** Content-Type and Accept: RFC 9110, sections 8.3.1 and 12.5.1 *)
Definition param_text (p : str * str) : str := tl (format_param (fst p) (snd p)).
Lemma format_text : forall p, format_param (fst p) (snd p) = 59 :: param_text p.
Proof. intros [n v]. unfold param_text, format_param. cbn [fst snd]. destruct (forallb is_token_cp v && _); reflexivity. Qed.
Lemma tokens_wordy : forall s, forallb is_token_cp s = true -> wordy s = true /\ no_char 59 s = true /\ no_char 61 s = true /\ no_char 34 s = true.
Proof.
  intros s T. split; [|split; [|split]].
  - eapply forallb_impl; [|exact T]. intros c C. apply negb_true_iff. destruct ((c =? 34) || (c =? 44) || blank c) eqn:E; [|reflexivity]. exfalso.
    unfold blank in E. assert (c = 34 \/ c = 44 \/ c = 32 \/ c = 9) as [->|[->|[->| ->]]] by lia; discriminate C.
  - apply (no_char_forallb 59 _ s eq_refl T).
  - apply (no_char_forallb 61 _ s eq_refl T).
  - apply (no_char_forallb 34 _ s eq_refl T).
Qed.
Lemma escape_shielded : shielded (fun c => if (c =? 34) || (c =? 92) then [92; c] else [c]).
Proof. intros c. reflexivity. Qed.
Lemma param_reads : forall n v, forallb is_token_cp n = true -> n <> [] ->
  let t := param_text (n, v) in calm true 44 t /\ calm true 59 t /\ tight t /\ t <> [] /\ binding t = (n, Some v).
Proof.
  intros n v T NE t. destruct (tokens_wordy n T) as (W & S & E & Q). unfold t, param_text, format_param. cbn [fst snd].
  assert (CN : forall sep, sep = 44 \/ sep = 59 -> calm true sep (n ++ [61])).
  { intros sep [-> | ->]; (apply calm_plain; rewrite no_char_app); rewrite ?Q, ?S; try reflexivity. rewrite (wordy_no n 44 W eq_refl). reflexivity. }
  destruct (forallb is_token_cp v && negb match v with [] => true | _ :: _ => false end) eqn:V.
  - apply andb_true_iff in V as [V NV]. destruct (tokens_wordy v V) as (W' & S' & E' & Q'). change (tl ([59] ++ n ++ [61] ++ v)) with (n ++ [61] ++ v).
    assert (WT : wordy (n ++ [61] ++ v) = true) by (rewrite !wordy_app, W, W'; reflexivity).
    assert (VN : v <> []) by (destruct v; [discriminate NV|discriminate]).
    split; [apply calm_plain; apply wordy_no; try exact WT; reflexivity|]. split; [apply wordy_calm; [exact WT|rewrite !no_char_app, S, S'; reflexivity]|].
    split; [now apply wordy_tight|]. split; [destruct n; discriminate|]. change (n ++ [61] ++ v) with (n ++ 61 :: v). rewrite binding_app by exact E. now rewrite unquote_word.
  - clear V. change (tl ([59] ++ n ++ [61; 34] ++ escape_value v ++ [34])) with (n ++ [61; 34] ++ escape_value v ++ [34]).
    assert (X : n ++ [61; 34] ++ escape_value v ++ [34] = (n ++ [61]) ++ (34 :: escape_value v ++ [34])) by (rewrite <- app_assoc; reflexivity).
    split; [rewrite X; apply calm_app; [apply CN; auto|apply calm_escaped; [exact escape_shielded|discriminate]]|].
    split; [rewrite X; apply calm_app; [apply CN; auto|apply calm_escaped; [exact escape_shielded|discriminate]]|].
    split; [|split; [destruct n; discriminate|]].
    + apply tight_join; [now apply wordy_tight| |exact NE|discriminate]. cbn [app]. eapply (ends_tight 61 _ 34 (61 :: 34 :: escape_value v)); reflexivity.
    + change (n ++ [61; 34] ++ escape_value v ++ [34]) with (n ++ 61 :: (34 :: (escape_value v ++ [34]))). rewrite binding_app by exact E. apply (f_equal (fun z => (n, Some z))).
      exact (unescape_shielded _ v [] escape_shielded).
Qed.
Lemma params_text : forall l, fps l = flat_map (cons 59) (map param_text l).
Proof. induction l as [|p l IH]; [reflexivity|]. cbn [fps flat_map map]. rewrite format_text. fold (fps l). now rewrite IH. Qed.
(** What the media type says: its essence, then the character set and the parameters. *)
Definition mime_items (m : mime) : list (str * str) := (if is_utf8 m then [(lit "charset", lit "utf-8")] else []) ++ params m.
Lemma mime_items_good : forall m, good_mime m -> Forall (fun p => forallb is_token_cp (fst p) = true /\ fst p <> []) (mime_items m).
Proof.
  intros m G. destruct G as (_ & _ & _ & _ & _ & _ & _ & _ & G). unfold mime_items. apply Forall_app. split; [destruct (is_utf8 m); [constructor; [split; [reflexivity|discriminate]|constructor]|constructor]|].
  apply Forall_forall. intros [n v] I. destruct (G _ I) as (N & T & _). cbn [fst] in *. split; [exact T|]. intros ->. discriminate N.
Qed.
Lemma essence_words : forall m, good_mime m -> wordy (essence m) = true /\ no_char 59 (essence m) = true /\ essence m <> [].
Proof.
  intros m (NB & TB & _ & _ & TS & _ & E & _). rewrite E. destruct (tokens_wordy _ TB) as (WB & SB & _), (tokens_wordy _ TS) as (WS & SS & _).
  rewrite !wordy_app, !no_char_app, WB, WS, SB, SS. split; [reflexivity|]. split; [reflexivity|]. intros X. apply app_eq_nil in X as [X _]. rewrite X in NB. discriminate NB.
Qed.
Lemma reads_all : forall l, Forall (fun p : str * str => forallb is_token_cp (fst p) = true /\ fst p <> []) l ->
  Forall (calm true 44) (map param_text l) /\ Forall (fun y => calm true 59 y /\ tight y) (map param_text l) /\ map binding (map param_text l) = map (fun p => (fst p, Some (snd p))) l.
Proof.
  intros l F. induction F as [|[n v] l [T N] F (A & B & C)]; [repeat constructor|]. cbn [fst] in *. destruct (param_reads n v T N) as (X & Y & Z & _ & W). cbn [map].
  split; [now constructor|]. split; [now constructor|]. apply f_equal2; [exact W|exact C].
Qed.
Lemma tight_marked : forall l x, tight x -> x <> [] -> Forall (fun y => tight y) l -> Forall (fun y : str => y <> []) l -> tight (x ++ flat_map (cons 59) l).
Proof.
  intros l. induction l as [|y l IH]; intros x T N F G; [cbn; now rewrite app_nil_r|]. inv F. inv G. cbn [flat_map]. rewrite app_assoc. apply IH; try assumption.
  - apply tight_join; [exact T| |exact N|discriminate]. apply (tight_join [59]); [reflexivity|assumption|discriminate|assumption].
  - destruct x; [congruence|discriminate].
Qed.
Lemma mime_text : forall m, mime_format m = essence m ++ flat_map (cons 59) (map param_text (mime_items m)).
Proof.
  intros m. rewrite <- params_text. unfold mime_format, mime_items, fps. rewrite flat_map_app. destruct (is_utf8 m); reflexivity.
Qed.
Theorem C102_content_type : forall s m, mime_parse s = Ok m ->
  item (mime_format m) = (essence m, map (fun p => (fst p, Some (snd p))) (mime_items m)).
Proof.
  intros s m P. assert (G : good_mime m) by (destruct (mime_parse_good s) as [(m' & E & G)|E]; congruence).
  destruct (essence_words m G) as (W & S & N). destruct (reads_all _ (mime_items_good m G)) as (_ & B & C).
  unfold item. rewrite mime_text, parts_marked; [|now apply wordy_calm|now apply wordy_tight|exact B]. cbn [hd tl]. now rewrite C.
Qed.
Example C102_content_type_example : exists m, mime_parse (lit "Text/HTML; charset=utf-8; A=""x;\"", y""") = Ok m /\
  item (mime_format m) = (lit "text/html", [(lit "charset", Some (lit "utf-8")); (lit "a", Some (lit "x;"", y"))]).
Proof. eexists. split; [vm_compute; reflexivity|]. vm_compute. reflexivity. Qed.
Lemma media_text : forall p, media_value p = essence (mp_type p) ++ flat_map (cons 59) (map param_text (items p)).
Proof. intros p. rewrite media_value_items. now rewrite params_text. Qed.
Lemma media_items_good : forall p, good_mime (mp_type p) -> Forall (fun q => forallb is_token_cp (fst q) = true /\ fst q <> []) (items p).
Proof.
  intros p G. unfold items. rewrite app_assoc. apply Forall_app. split; [exact (mime_items_good _ G)|]. destruct (mp_weight p); [constructor; [split; [reflexivity|discriminate]|constructor]|constructor].
Qed.
Lemma media_element : forall p, good_mime (mp_type p) -> element true (media_value p).
Proof.
  intros p G. destruct (essence_words _ G) as (W & S & N). assert (I := media_items_good p G). destruct (reads_all _ I) as (A & B & _). rewrite media_text.
  split; [|split].
  - apply calm_marked; [discriminate|discriminate|apply calm_plain; apply wordy_no; try exact W; reflexivity|exact A].
  - apply tight_marked; [now apply wordy_tight|exact N|eapply Forall_impl; [|exact B]; intros a X; apply X|].
    apply Forall_forall. intros y Y. apply in_map_iff in Y as ([n v] & <- & J). rewrite Forall_forall in I. apply I in J as [T E]. now destruct (param_reads n v T E) as (_ & _ & _ & Z & _).
  - destruct (essence (mp_type p)); [congruence|discriminate].
Qed.
(** Every media type is read with its parameters and the nearest thousandths of its weight, in order. *)
Theorem C102_accept : forall l w, Forall (fun p => read_without_q p /\ good_weight (mp_weight p)) l ->
  exists rs, map ranked (elements true (media_list_value (l, w))) = rs ++ (if w then [(lit "*", [], Some 1000)] else []) /\
    Forall2 (fun p r => exists k, r = (essence (mp_type p), map (fun q => (fst q, Some (snd q))) (mime_items (mp_type p)), Some k) /\ close (mp_weight p) k) l rs.
Proof.
  intros l w F. unfold media_list_value. cbn [fst snd].
  rewrite elements_list; [|now apply wordy_element|apply Forall_forall; intros x X; apply in_map_iff in X as (p & <- & I); rewrite Forall_forall in F; apply F in I as [R _]; now apply media_element, media_good].
  rewrite map_app, map_map. exists (map (fun p => ranked (media_value p)) l). split; [destruct w; reflexivity|].
  induction F as [|p l [R GW] F IH]; constructor; [|exact IH]. clear IH F l w.
  assert (G := media_good p R). destruct (essence_words _ G) as (W & S & N). destruct (reads_all _ (media_items_good p G)) as (_ & B & C).
  unfold ranked. rewrite media_text, parts_marked; [|now apply wordy_calm|now apply wordy_tight|exact B]. cbn [hd tl]. rewrite C. clear C B.
  assert (Q : forall q, In q (mime_items (mp_type p)) -> is_weight (fst q, Some (snd q)) = false).
  { intros q I. unfold is_weight. cbn [fst]. destruct R as [_ R]. apply in_app_or in I as [I|I].
    - destruct (is_utf8 (mp_type p)); [|contradiction]. destruct I as [<-|[]]. reflexivity.
    - destruct G as (_ & _ & _ & _ & _ & _ & _ & _ & G). destruct (G q I) as (_ & _ & L & _). rewrite L. destruct (seqb (fst q) (lit "q")) eqn:E; [|reflexivity].
      exfalso. apply seqb_eq in E. apply R. rewrite <- E. now apply in_map. }
  assert (X : items p = mime_items (mp_type p) ++ match mp_weight p with Some w => [(lit "q", show3 f32 w)] | None => [] end) by (unfold items, mime_items; now rewrite app_assoc).
  rewrite X, map_app, !filter_app. clear X.
  assert (FA : filter is_weight (map (fun q : str * str => (fst q, Some (snd q))) (mime_items (mp_type p))) = [] /\
               filter (fun q => negb (is_weight q)) (map (fun q : str * str => (fst q, Some (snd q))) (mime_items (mp_type p))) = map (fun q => (fst q, Some (snd q))) (mime_items (mp_type p))).
  { revert Q. generalize (mime_items (mp_type p)). intros ps Q. induction ps as [|q ps IH]; [split; reflexivity|]. cbn [map filter]. rewrite (Q q (or_introl eq_refl)). cbn [negb].
    destruct IH as [I1 I2]; [intros q' J; apply Q; now right|]. rewrite I1, I2. auto. }
  destruct FA as [-> ->]. cbn [app]. destruct (mp_weight p) as [x|].
  - destruct GW as (v & -> & V). destruct (weight_read v V) as (k & K & CL & _). exists k. split; [|exact CL]. cbn [map fst snd filter].
    change (is_weight (lit "q", Some (show3 f32 (Fin false v)))) with true. cbv iota beta. cbn [negb]. rewrite K, app_nil_r. reflexivity.
  - exists 1000. split; [|reflexivity]. cbn [map filter]. rewrite app_nil_r. reflexivity.
Qed.
Example C102_accept_example : exists m, mime_parse (lit "text/html;a=""x, y/z;q=1""") = Ok m /\
  Forall (fun p => read_without_q p /\ good_weight (mp_weight p)) [MediaProposal m None; MediaProposal m (Some (Fin false 0))] /\
  map ranked (elements true (media_list_value ([MediaProposal m None; MediaProposal m (Some (Fin false 0))], false))) =
    [(lit "text/html", [(lit "a", Some (lit "x, y/z;q=1"))], Some 1000); (lit "text/html", [(lit "a", Some (lit "x, y/z;q=1"))], Some 0)].
Proof.
  exists (mkMime (lit "text/html") (lit "text") (lit "html") false [(lit "a", lit "x, y/z;q=1")]). split; [vm_compute; reflexivity|].
  split; [|vm_compute; reflexivity]. assert (R : forall w, read_without_q (MediaProposal (mkMime (lit "text/html") (lit "text") (lit "html") false [(lit "a", lit "x, y/z;q=1")]) w)).
  { intros w. split; [exists (lit "text/html;a=""x, y/z;q=1"""); vm_compute; reflexivity|]. intros [H|[]]. discriminate H. }
  constructor; [split; [apply R|exact I]|]. constructor; [split; [apply R|]|constructor]. exists 0. split; [reflexivity|]. apply N.leb_le. reflexivity.
Qed.
(** False of the code: the wildcard of Accept is a media range; the code writes one that has no slash. *)
Definition media_range (e : str) : Prop := exists a b, hd [] (parts e) = a ++ [47] ++ b /\ rfc_token a = true /\ rfc_token b = true.
Theorem C102_media_wildcard_refuted : exists a, snd a = true /\ ~ Forall media_range (elements true (media_list_value a)).
Proof.
  exists ([], true). split; [reflexivity|]. assert (E : elements true (media_list_value ([], true)) = [[42]]) by (vm_compute; reflexivity). rewrite E. intros F. inv F.
  match goal with H : media_range _ |- _ => destruct H as (a & b & X & A & B) end. change (hd [] (parts [42])) with ([42] : str) in X.
  apply (f_equal (@length N)) in X. rewrite !app_length in X. destruct a; [discriminate A|]. destruct b; [discriminate B|]. cbn in X. lia.
Qed.

(** ** Authorization and WWW-Authenticate: RFC 9110, section 11 *)
Lemma scheme_words : forall s, no_char 32 (scheme_show s) = true /\ rfc_token (scheme_show s) = true.
Proof. intros []; split; reflexivity. Qed.
Theorem C102_authorization : forall s c, split_once 32 (auth_value (s, c)) = Some (scheme_show s, c) /\ rfc_token (scheme_show s) = true.
Proof. intros s c. destruct (scheme_words s) as [N T]. split; [|exact T]. unfold auth_value. cbn [fst snd]. change ([32] ++ c) with (32 :: c). now apply split_once_app. Qed.
(** A realm without double quotes and backslashes is read as it is ... *)
Theorem C102_challenge : forall s r, ~ In 34 r -> ~ In 92 r ->
  challenge (www_value (s, r)) = Some (scheme_show s, [(lit "realm", Some r); (lit "charset", Some (lit "UTF-8"))]).
Proof.
  intros s r Q E. assert (Q' : no_char 34 r = true) by (apply forallb_forall; intros c C; apply negb_true_iff, N.eqb_neq; intros ->; contradiction).
  assert (E' : no_char 92 r = true) by (apply forallb_forall; intros c C; apply negb_true_iff, N.eqb_neq; intros ->; contradiction).
  unfold challenge, www_value. cbn [fst snd]. change (lit " realm=""" ++ r ++ lit """, charset=""UTF-8""") with (32 :: (lit "realm=""" ++ r ++ lit """, charset=""UTF-8""")).
  rewrite split_once_app by apply scheme_words.
  assert (X : lit "realm=""" ++ r ++ lit """, charset=""UTF-8""" = join (lit ", ") [lit "realm=" ++ 34 :: r ++ [34]; lit "charset=""UTF-8"""]).
  { cbn [join]. rewrite <- app_assoc. cbn [app]. rewrite <- app_assoc. reflexivity. }
  rewrite X, elements_join.
  - cbn [map]. change (lit "realm=" ++ 34 :: r ++ [34]) with (lit "realm" ++ 61 :: (34 :: r ++ [34])). rewrite binding_app by reflexivity.
    assert (U : unquote (34 :: r ++ [34]) = r) by (exact (unescape_plain r [] Q' E')). rewrite U. reflexivity.
  - constructor; [|constructor; [split; [reflexivity|split; [reflexivity|discriminate]]|constructor]]. split; [|split; [|discriminate]].
    + apply calm_app; [reflexivity|]. apply calm_quoted; [discriminate|exact Q'|auto].
    + apply tight_join; [reflexivity|eapply (ends_tight 34 _ 34 (34 :: r)); reflexivity|discriminate|discriminate].
Qed.
Example C102_challenge_example : challenge (www_value (Digest, lit "a, b=c")) = Some (lit "Digest", [(lit "realm", Some (lit "a, b=c")); (lit "charset", Some (lit "UTF-8"))]).
Proof. apply C102_challenge; cbn; intros H; repeat (destruct H as [H|H]; [discriminate H|]); exact H. Qed.
(** ... and any other may be read as something else, with parameters of the caller's own. *)
Theorem C102_challenge_refuted : exists s r, challenge (www_value (s, r)) = Some (scheme_show s, [(lit "realm", Some (lit "a")); (lit "error", Some (lit "b")); (lit "charset", Some (lit "UTF-8"))]) /\ r <> lit "a".
Proof. exists Bearer, (lit "a"", error=""b"). split; [vm_compute; reflexivity|discriminate]. Qed.
(** Exactly those realms are read as they are. *)
Fixpoint inside (s : str) : bool :=
  match s with
  | [] => true
  | c :: t => if c =? 34 then false else if c =? 92 then match t with _ :: u => inside u | [] => false end else inside t
  end.
Lemma two_steps : forall P : str -> Prop, P [] -> (forall c, P [c]) -> (forall c d t, P t -> P (d :: t) -> P (c :: d :: t)) -> forall s, P s.
Proof.
  intros P A B C s. assert (H : P s /\ forall c, P (c :: s)); [|apply H].
  induction s as [|d t [I J]]; [auto|]. split; [apply J|]. intros c. apply C; [exact I|apply J].
Qed.
Lemma unescape_inside : forall q x y, inside q = true -> unescape (q ++ 34 :: x) = unescape (q ++ 34 :: y).
Proof.
  intros q x y. induction q as [|c|c d t I J] using two_steps; cbn [inside app unescape]; intros H.
  - reflexivity.
  - destruct (c =? 34); [reflexivity|]. destruct (c =? 92); [discriminate|reflexivity].
  - destruct (c =? 34); [reflexivity|]. destruct (c =? 92); [rewrite I by exact H; reflexivity|].
    f_equal. apply J, H.
Qed.
Lemma cut_inside : forall q t, inside q = true ->
  exists x ps, cut true 44 Quoted (q ++ 34 :: t) = (q ++ 34 :: x) :: ps.
Proof.
  assert (A : forall c l x ps, l = x :: ps -> add_char c l = (c :: x) :: ps) by (intros c l x ps ->; reflexivity).
  intros q t. induction q as [|c|c d u I J] using two_steps; cbn [inside]; intros H.
  - cbn [app cut]. change (step true Quoted 34) with Plain.
    destruct (cut true 44 Plain t) as [|x ps] eqn:E; [exists [], []; reflexivity|]. exists x, ps. reflexivity.
  - destruct (c =? 34) eqn:Q; [discriminate|]. destruct (c =? 92) eqn:B; [discriminate|].
    cbn [app cut]. assert (S : step true Quoted c = Quoted) by (unfold step; rewrite Q, B; reflexivity). rewrite S.
    change (step true Quoted 34) with Plain. destruct (cut true 44 Plain t) as [|x ps] eqn:E; [exists [], []; reflexivity|]. exists x, ps. reflexivity.
  - destruct (c =? 34) eqn:Q; [discriminate|]. destruct (c =? 92) eqn:B.
    + destruct (I H) as (x & ps & E). exists x, ps. cbn [app cut].
      assert (S : step true Quoted c = Escaped) by (unfold step; rewrite Q, B; reflexivity). rewrite S. change (step true Escaped d) with Quoted.
      rewrite E. reflexivity.
    + destruct (J H) as (x & ps & E). exists x, ps. change ((c :: d :: u) ++ 34 :: t) with (c :: ((d :: u) ++ 34 :: t)). cbn [cut].
      assert (S : step true Quoted c = Quoted) by (unfold step; rewrite Q, B; reflexivity). rewrite S.
      rewrite E. reflexivity.
Qed.
(** What the reader takes for the realm. *)
Definition after_realm : str := lit ", charset=""UTF-8""".
Lemma closing : forall r : str, exists q t : str, r ++ 34 :: after_realm = q ++ 34 :: t /\ inside q = true /\
  ((length (unescape (q ++ [34%N])) <= length r)%nat \/ exists r' u, r = r' ++ [92] /\ unescape (q ++ [34]) = u ++ [61]).
Proof.
  induction r as [|c|c d r I J] using two_steps.
  - exists [], after_realm. split; [reflexivity|]. split; [reflexivity|]. left. apply Nat.le_0_l.
  - destruct (N.eq_dec c 34) as [->|Q]; [exists [], (34 :: after_realm); split; [reflexivity|]; split; [reflexivity|]; left; apply Nat.le_0_l|].
    destruct (N.eq_dec c 92) as [->|B].
    + exists (92 :: 34 :: lit ", charset="), (lit "UTF-8"""). split; [reflexivity|]. split; [reflexivity|]. right.
      exists [], (34 :: lit ", charset"). split; reflexivity.
    + exists [c], after_realm. split; [reflexivity|]. apply N.eqb_neq in Q, B. split; [cbn [inside]; rewrite Q, B; reflexivity|]. left.
      cbn [app unescape]. rewrite Q, B. apply le_n.
  - destruct (N.eq_dec c 34) as [->|Q]; [exists [], (d :: r ++ 34 :: after_realm); split; [reflexivity|]; split; [reflexivity|]; left; apply Nat.le_0_l|].
    destruct (N.eq_dec c 92) as [->|B].
    + destruct I as (q & t & E & H & K). exists (92 :: d :: q), t. cbn [app]. rewrite E. split; [reflexivity|]. split; [exact H|].
      cbn [unescape]. change (92 =? 34) with false. change (92 =? 92) with true. cbv iota.
      destruct K as [K|(r' & u & K & L)]; [left; cbn [length]; lia|]. right. exists (92 :: d :: r'), (d :: u). rewrite K, L. split; reflexivity.
    + destruct J as (q & t & E & H & K). exists (c :: q), t. split; [cbn [app] in *; rewrite E; reflexivity|]. apply N.eqb_neq in Q, B.
      split; [cbn [inside]; rewrite Q, B; exact H|]. cbn [app unescape]. rewrite Q, B.
      destruct K as [K|(r' & u & K & L)]; [left; cbn [length] in *; lia|]. right. exists (c :: r'), (c :: u). rewrite K, L. split; reflexivity.
Qed.
Lemma kept_realm : forall r q t, r ++ 34 :: after_realm = q ++ 34 :: t -> inside q = true -> unescape (q ++ [34]) = r -> ~ In 34 r /\ ~ In 92 r.
Proof.
  intros r q t E H K.
  assert (U : unescape (r ++ 34 :: after_realm) = r) by (rewrite E, (unescape_inside q t [] H); exact K). clear q t E H K.
  assert (A : forall a b, (~ In 34 a) -> (~ In 92 a) -> unescape (a ++ b) = a ++ unescape b).
  { induction a as [|c a I]; intros b X Y; [reflexivity|]. cbn [app unescape].
    destruct (N.eqb_spec c 34) as [->|_]; [destruct X; left; reflexivity|]. destruct (N.eqb_spec c 92) as [->|_]; [destruct Y; left; reflexivity|].
    f_equal. apply I; intros Z; [apply X|apply Y]; right; exact Z. }
  assert (S : forall s : str, (~ In 34 s /\ ~ In 92 s) \/ exists a c b, s = a ++ c :: b /\ ~ In 34 a /\ ~ In 92 a /\ (c = 34 \/ c = 92)).
  { induction s as [|c s I]; [left; split; intros []|].
    destruct (N.eq_dec c 34) as [->|X]; [right; exists [], 34, s; repeat split; auto; intros []|].
    destruct (N.eq_dec c 92) as [->|Y]; [right; exists [], 92, s; repeat split; auto; intros []|].
    destruct I as [[I J]|(a & d & b & -> & I & J & K)].
    - left. split; intros [Z|Z]; auto.
    - right. exists (c :: a), d, b. split; [reflexivity|]. split; [intros [Z|Z]; auto|]. split; [intros [Z|Z]; auto|exact K]. }
  destruct (S r) as [C|(a & c & b & -> & Qa & Ba & C)]; [exact C|]. exfalso. clear S.
  rewrite <- app_assoc in U. rewrite A in U by assumption. apply app_inv_head in U. destruct C as [->| ->]; [discriminate U|].
  cbn [app unescape] in U. change (92 =? 34) with false in U. change (92 =? 92) with true in U. cbv iota in U.
  destruct b as [|d b]; [discriminate U|]. cbn [app] in U. injection U as -> U.
  destruct (closing b) as (q & t & E & H & K). rewrite E, (unescape_inside q t [] H) in U. rewrite U in K.
  destruct K as [K|(r' & u & -> & K)]; [cbn in K; lia|]. rewrite app_comm_cons in K. apply app_inj_tail in K. destruct K as [_ K]. discriminate K.
Qed.

Lemma strip_quote : forall c a x, blank c = false -> exists y, strip (c :: a ++ 34 :: x) = c :: a ++ 34 :: y.
Proof.
  intros c a x C. unfold strip, trim_matches, trim_end_matches, trim_start_matches. cbn [drop_while]. rewrite C.
  assert (D : forall l k, exists m, drop_while blank (l ++ 34 :: k) = m ++ 34 :: k).
  { induction l as [|d l I]; intros k; [exists []; reflexivity|]. cbn [app drop_while].
    destruct (blank d); [apply I|exists (d :: l); reflexivity]. }
  replace (rev (c :: a ++ 34 :: x)) with (rev x ++ 34 :: rev (c :: a)).
  2:{ change (c :: a ++ 34 :: x) with ((c :: a) ++ 34 :: x). rewrite rev_app_distr. cbn [rev]. rewrite <- !app_assoc. reflexivity. }
  destruct (D (rev x) (rev (c :: a))) as [m ->]. exists (rev m).
  rewrite rev_app_distr. cbn [rev]. rewrite rev_app_distr, rev_involutive, <- app_assoc. reflexivity.
Qed.
Theorem C102_challenge_iff : forall s r,
  challenge (www_value (s, r)) = Some (scheme_show s, [(lit "realm", Some r); (lit "charset", Some (lit "UTF-8"))]) <-> ~ In 34 r /\ ~ In 92 r.
Proof.
  intros s r. split; [|intros [Q B]; apply C102_challenge; assumption].
  unfold challenge, www_value. cbn [fst snd]. change (lit " realm=""" ++ r ++ lit """, charset=""UTF-8""") with (32 :: (lit "realm=""" ++ r ++ 34 :: after_realm)).
  rewrite split_once_app by apply scheme_words. intros H.
  apply (f_equal (fun o : option (str * list (str * option str)) => match o with Some (_, l) => l | None => [] end)) in H. cbv beta iota in H.
  destruct (closing r) as (q & t & E & I & _).
  rewrite E in H. destruct (cut_inside q t I) as (x & ps & C).
  assert (X : cut true 44 Plain (lit "realm=""" ++ q ++ 34 :: t) = (lit "realm=""" ++ q ++ 34 :: x) :: ps).
  { change (lit "realm=""" ++ q ++ 34 :: t) with (114 :: 101 :: 97 :: 108 :: 109 :: 61 :: 34 :: q ++ 34 :: t).
    cbn [cut]. repeat match goal with |- context [?a =? 44] => change (a =? 44) with false end. cbv iota.
    repeat match goal with |- context [step true Plain ?a] => first [change (step true Plain a) with Plain | change (step true Plain a) with Quoted] end. cbv iota.
    rewrite C. reflexivity. }
  unfold elements in H. rewrite X in H. cbn [map] in H.
  destruct (strip_quote 114 (lit "ealm=""" ++ q) x eq_refl) as [y Y].
  change (114 :: (lit "ealm=""" ++ q) ++ 34 :: x) with (lit "realm=""" ++ q ++ 34 :: x) in Y.
  change (114 :: (lit "ealm=""" ++ q) ++ 34 :: y) with (lit "realm" ++ 61 :: (34 :: q ++ 34 :: y)) in Y.
  rewrite Y in H. cbn [filter] in H. change (lit "realm" ++ 61 :: 34 :: q ++ 34 :: y) with (114 :: (lit "ealm" ++ 61 :: (34 :: q ++ 34 :: y))) in H. cbv iota in H.
  change (114 :: (lit "ealm" ++ 61 :: (34 :: q ++ 34 :: y))) with (lit "realm" ++ 61 :: (34 :: q ++ 34 :: y)) in H.
  cbn [map] in H. rewrite binding_app in H by reflexivity.
  apply (kept_realm r q t E I).
  match type of H with (_, Some ?u) :: _ = _ => assert (K : u = r) by congruence end. change (unescape (q ++ 34 :: y) = r) in K.
  rewrite <- K. apply unescape_inside, I.
Qed.
Example C102_challenge_iff_example : challenge (www_value (Basic, lit "a\b")) = Some (lit "Basic", [(lit "realm", Some (lit "ab")); (lit "charset", Some (lit "UTF-8"))])
  /\ challenge (www_value (Basic, lit "a\")) = Some (lit "Basic", [(lit "realm", Some (lit "a"", charset="))]).
Proof. split; vm_compute; reflexivity. Qed.

(** ** Strict-Transport-Security: RFC 6797, section 6.1; names of directives are not case-sensitive *)
Theorem C102_hsts : forall s, map (fun p => (to_lower (fst (binding p)), snd (binding p))) (parts (hsts_value s)) =
  (lit "max-age", Some (show_dec (secs (max_age s)))) :: (if include_subdomains s then [(lit "includesubdomains", None)] else []) ++ (if preload s then [(lit "preload", None)] else []).
Proof.
  intros [d i p]. unfold hsts_value. cbn [max_age include_subdomains preload].
  assert (A : calm true 59 (lit "max-age=" ++ show_dec (secs d)) /\ tight (lit "max-age=" ++ show_dec (secs d))).
  { assert (W : wordy (lit "max-age=" ++ show_dec (secs d)) = true) by (rewrite wordy_app, show_dec_wordy; reflexivity). split; [|now apply wordy_tight].
    apply wordy_calm; [exact W|]. rewrite no_char_app, (show_dec_no_char 59) by reflexivity. reflexivity. }
  assert (X : lit "max-age=" ++ show_dec (secs d) ++ (if i then lit ";includeSubdomains" else []) ++ (if p then lit ";preload" else []) =
    (lit "max-age=" ++ show_dec (secs d)) ++ flat_map (cons 59) ((if i then [lit "includeSubdomains"] else []) ++ (if p then [lit "preload"] else []))).
  { rewrite <- app_assoc. do 2 f_equal. destruct i, p; reflexivity. }
  rewrite X, parts_marked; [|apply A|apply A|destruct i, p; repeat constructor].
  cbn [map]. assert (B := timed_binding (lit "max-age") (secs d) eq_refl). change (lit "max-age" ++ lit "=" ++ show_dec (secs d)) with (lit "max-age=" ++ show_dec (secs d)) in B. rewrite B.
  cbn [fst snd]. change (to_lower (lit "max-age")) with (lit "max-age"). f_equal. destruct i, p; reflexivity.
Qed.

Example C102_hsts_example : hsts_value (Hsts (Dur 31536000 0) true true) = lit "max-age=31536000;includeSubdomains;preload".
Proof. vm_compute. reflexivity. Qed.

(** ** Server-Timing *)
Lemma tight_lead : forall c x q, blank c = false -> tight q -> q <> [] -> tight ((c :: x) ++ q).
Proof.
  intros c x q C T NE. unfold tight, no_edge in *. apply andb_true_iff in T as [_ T]. cbn [app]. rewrite C. cbn [negb andb].
  change (c :: x ++ q) with ((c :: x) ++ q). rewrite rev_app_distr. destruct (rev q) as [|d r] eqn:E; [|exact T].
  apply (f_equal (@rev N)) in E. rewrite rev_involutive in E. contradiction.
Qed.
Section ServerTiming.
  Context (show_f64 : N -> str).
  Definition metric_meaning (m : metric) : str * list (str * option str) :=
    (m_name m, match m_dur m with Some d => [(lit "dur", Some (show_f64 (as_millis d)))] | None => [] end ++
               match m_desc m with Some t => [(lit "desc", Some t)] | None => [] end).
  (** A token for a name, and a description without double quotes and backslashes; unlike this crate's own reader, others find commas, semicolons
      and equals signs in a description. *)
  Definition plain_metric (m : metric) : Prop := rfc_token (m_name m) = true /\ forall t, m_desc m = Some t -> ~ In 34 t /\ ~ In 92 t.
  Definition metric_parts (m : metric) : list str :=
    match m_dur m with Some d => [lit " dur=" ++ show_f64 (as_millis d)] | None => [] end ++ match m_desc m with Some t => [lit " desc=" ++ 34 :: t ++ [34]] | None => [] end.
  Lemma metric_text : forall m, metric_value show_f64 m = m_name m ++ flat_map (cons 59) (metric_parts m).
  Proof.
    intros [n d t]. unfold metric_value, metric_parts. cbn [m_name m_dur m_desc]. f_equal. destruct d as [d|], t as [t|]; cbn [app flat_map]; rewrite ?app_nil_r; try reflexivity.
  Qed.
  Theorem C102_server_timing : show_contract show_f64 -> forall l, Forall plain_metric l -> map item (elements true (timing_value show_f64 l)) = map metric_meaning l.
  Proof.
    intros SC l F. unfold timing_value.
    assert (DT : forall d, wordy (show_f64 (as_millis d)) = true /\ no_char 59 (show_f64 (as_millis d)) = true /\ show_f64 (as_millis d) <> []).
    { intros d. destruct (SC d) as (NE & D & _). split; [|split; [exact (no_char_forallb 59 _ _ eq_refl D)|exact NE]]. eapply forallb_impl; [|exact D]. intros c C. unfold is_digit, blank in *. lia. }
    assert (P : forall m, plain_metric m -> Forall (fun p => calm true 44 p /\ calm true 59 p /\ exists q, p = 32 :: q /\ tight q /\ q <> []) (metric_parts m) /\
      map binding (map strip (metric_parts m)) = snd (metric_meaning m)).
    { intros [n d t] [_ T]. unfold metric_parts, metric_meaning. cbn [m_dur m_desc snd] in *. rewrite !map_app, Forall_app.
      assert (A : Forall (fun p => calm true 44 p /\ calm true 59 p /\ exists q, p = 32 :: q /\ tight q /\ q <> []) match d with Some d => [lit " dur=" ++ show_f64 (as_millis d)] | None => [] end /\
        map binding (map strip match d with Some d => [lit " dur=" ++ show_f64 (as_millis d)] | None => [] end) = match d with Some d => [(lit "dur", Some (show_f64 (as_millis d)))] | None => [] end).
      { destruct d as [d|]; [|split; [constructor|reflexivity]]. destruct (DT d) as (W & S & NE). assert (WQ : wordy (lit "dur=" ++ show_f64 (as_millis d)) = true) by (rewrite wordy_app, W; reflexivity).
        assert (TI := wordy_tight _ WQ). split.
        - constructor; [|constructor]. split; [apply calm_app; [reflexivity|apply calm_plain; apply wordy_no; try exact W; reflexivity]|].
          split; [apply calm_app; [reflexivity|now apply wordy_calm]|]. exists (lit "dur=" ++ show_f64 (as_millis d)). split; [reflexivity|]. split; [exact TI|discriminate].
        - cbn [map]. change (lit " dur=" ++ show_f64 (as_millis d)) with (32 :: (lit "dur=" ++ show_f64 (as_millis d))). rewrite strip_space by exact TI.
          change (lit "dur=" ++ show_f64 (as_millis d)) with (lit "dur" ++ 61 :: show_f64 (as_millis d)). rewrite binding_app by reflexivity. rewrite unquote_word; [reflexivity|]. now apply wordy_no. }
      assert (B : Forall (fun p => calm true 44 p /\ calm true 59 p /\ exists q, p = 32 :: q /\ tight q /\ q <> []) match t with Some t => [lit " desc=" ++ 34 :: t ++ [34]] | None => [] end /\
        map binding (map strip match t with Some t => [lit " desc=" ++ 34 :: t ++ [34]] | None => [] end) = match t with Some t => [(lit "desc", Some t)] | None => [] end).
      { destruct t as [t|]; [|split; [constructor|reflexivity]]. destruct (T t eq_refl) as [Q E].
        assert (Q' : no_char 34 t = true) by (apply forallb_forall; intros c C; apply negb_true_iff, N.eqb_neq; intros ->; contradiction).
        assert (E' : no_char 92 t = true) by (apply forallb_forall; intros c C; apply negb_true_iff, N.eqb_neq; intros ->; contradiction).
        assert (TI : tight (lit "desc=" ++ 34 :: t ++ [34])) by (apply tight_join; [reflexivity|eapply (ends_tight 34 _ 34 (34 :: t)); reflexivity|discriminate|discriminate]). split.
        - constructor; [|constructor]. split; [apply calm_app; [reflexivity|apply calm_quoted; [discriminate|exact Q'|auto]]|].
          split; [apply calm_app; [reflexivity|apply calm_quoted; [discriminate|exact Q'|auto]]|]. exists (lit "desc=" ++ 34 :: t ++ [34]). split; [reflexivity|]. split; [exact TI|discriminate].
        - cbn [map]. change (lit " desc=" ++ 34 :: t ++ [34]) with (32 :: (lit "desc=" ++ 34 :: t ++ [34])). rewrite strip_space by exact TI.
          change (lit "desc=" ++ 34 :: t ++ [34]) with (lit "desc" ++ 61 :: (34 :: t ++ [34])). rewrite binding_app by reflexivity.
          assert (U : unquote (34 :: t ++ [34]) = t) by exact (unescape_plain t [] Q' E'). rewrite U. reflexivity. }
      destruct A as [A1 A2], B as [B1 B2]. split; [split; assumption|]. exact (f_equal2 (@app _) A2 B2). }
    assert (M : forall m, plain_metric m -> element true (metric_value show_f64 m) /\ item (metric_value show_f64 m) = metric_meaning m).
    { intros m PM. destruct (P m PM) as [PF PB]. destruct PM as [TN _]. destruct (rfc_wordy _ TN) as (W & NE & _ & S). rewrite metric_text. split; [split; [|split]|].
      - apply calm_marked; [discriminate|discriminate|apply calm_plain; apply wordy_no; try exact W; reflexivity|]. eapply Forall_impl; [|exact PF]. intros a A. apply A.
      - clear PB. assert (TM := wordy_tight _ W). revert NE TM. clear - PF. generalize (m_name m). induction PF as [|y l (_ & _ & q & -> & TQ & NQ) PF IH]; intros x NE TM; [cbn; now rewrite app_nil_r|].
        cbn [flat_map]. rewrite app_assoc. apply IH; [destruct x; [congruence|discriminate]|]. apply tight_join; [exact TM| |exact NE|discriminate].
        exact (tight_lead 59 [32] q eq_refl TQ NQ).
      - destruct (m_name m); [congruence|discriminate].
      - unfold item, parts. rewrite cut_marked; [|now apply wordy_calm|eapply Forall_impl; [|exact PF]; intros a A; apply A].
        cbn [map hd tl]. rewrite strip_tight by now apply wordy_tight. rewrite PB. reflexivity. }
    rewrite elements_join.
    - rewrite map_map. apply map_ext_in. intros m I. rewrite Forall_forall in F. now apply M, F.
    - apply Forall_forall. intros x X. apply in_map_iff in X as (m & <- & I). rewrite Forall_forall in F. now apply M, F.
  Qed.
End ServerTiming.
Example C102_server_timing_example : plain_metric (Metric (lit "db") None (Some (lit "a, b; c=d"))) /\
  map item (elements true (timing_value (fun _ => []) [Metric (lit "db") None (Some (lit "a, b; c=d"))])) = [(lit "db", [(lit "desc", Some (lit "a, b; c=d"))])].
Proof.
  split; [|vm_compute; reflexivity]. split; [reflexivity|]. intros t T. cbn [m_desc] in T. injection T as <-.
  split; cbn; intros H; repeat (destruct H as [H|H]; [discriminate H|]); exact H.
Qed.
Theorem C102_server_timing_refuted : exists show m, map item (elements true (timing_value show [m])) = [(lit "db", [(lit "desc", Some (lit "a"))]); (lit "x", [(lit "desc", Some (lit "b"))])] /\ m_name m = lit "db".
Proof. exists (fun _ => []), (Metric (lit "db") None (Some (lit "a"", x; desc=""b"))). split; [vm_compute|]; reflexivity. Qed.

(** ** Forwarded: RFC 7239 *)
Definition pieces (f : forwarded) : list str * list str :=
  (match fw_by f with Some v => [lit "by=" ++ v] | None => [] end,
   match fw_host f with Some v => [lit "host=" ++ v] | None => [] end ++ match fw_proto f with Some v => [lit "proto=" ++ v] | None => [] end).
Lemma pop_semi : forall l, l <> [] -> removelast (flat_map (fun s => s ++ [59]) l) = join [59] l.
Proof.
  intros l. induction l as [|x l IH]; intros NE; [congruence|]. destruct l as [|y l].
  - cbn [flat_map join]. rewrite app_nil_r. apply removelast_last.
  - change (flat_map (fun s => s ++ [59]) (x :: y :: l)) with ((x ++ [59]) ++ flat_map (fun s => s ++ [59]) (y :: l)).
    rewrite removelast_app; [rewrite IH by discriminate; cbn [join]; now rewrite <- app_assoc|]. cbn [flat_map]. destruct y; discriminate.
Qed.
Lemma forwarded_text : forall f, fw_value f = Ok (join [59] (fst (pieces f) ++ [fors_of (fw_for f)] ++ snd (pieces f))).
Proof.
  intros f. unfold fw_value.
  assert (M : forall l, map_outcome (fun v => let* t := format_value v in Ok (lit "for=" ++ t)) l = Ok (map (fun v => lit "for=" ++ fmt v) l)).
  { induction l as [|v l IH]; [reflexivity|]. cbn [map_outcome map]. rewrite format_fmt. cbn [bind]. rewrite IH. reflexivity. }
  rewrite M. cbn [bind]. f_equal. fold (fors_of (fw_for f)). rewrite <- pop_semi.
  - f_equal. destruct f as [b fs h p]. unfold pieces, opt_part. cbn [fw_by fw_for fw_host fw_proto fst snd].
    destruct b as [b|], h as [h|], p as [p|]; cbn [flat_map app]; change (lit ";") with [59]; rewrite ?app_nil_r, <- ?app_assoc; reflexivity.
  - destruct (fst (pieces f)); discriminate.
Qed.
(** The elements: each [for] has one of its own; what is before the first and after the last goes with those. *)
Fixpoint groups (pre suf fs : list str) : list (list str) :=
  match fs with
  | [] => [pre ++ [[]] ++ suf]
  | x :: r => match r with [] => [pre ++ [x] ++ suf] | _ :: _ => (pre ++ [x]) :: groups [] suf r end
  end.
Lemma join_split : forall s p u v q, join s (p ++ [u ++ v] ++ q) = join s (p ++ [u]) ++ join s ([v] ++ q).
Proof.
  intros s p u v q. induction p as [|x p IH].
  - cbn [app join]. destruct q; [reflexivity|]. now rewrite <- app_assoc.
  - destruct p as [|y p].
    + cbn [app join] in *. rewrite IH. now rewrite <- !app_assoc.
    + change (join s ((x :: y :: p) ++ [u ++ v] ++ q)) with (x ++ s ++ join s ((y :: p) ++ [u ++ v] ++ q)). rewrite IH.
      change (join s ((x :: y :: p) ++ [u])) with (x ++ s ++ join s ((y :: p) ++ [u])). now rewrite <- !app_assoc.
Qed.
Lemma groups_text : forall suf fs pre, join [59] (pre ++ [join (lit ", ") fs] ++ suf) = join (lit ", ") (map (join [59]) (groups pre suf fs)).
Proof.
  intros suf fs. induction fs as [|x fs IH]; intros pre; [reflexivity|]. destruct fs as [|y fs]; [reflexivity|].
  change (join (lit ", ") (x :: y :: fs)) with (x ++ lit ", " ++ join (lit ", ") (y :: fs)). rewrite join_split.
  cbn [groups map]. change (groups [] suf (y :: fs)) with (groups [] suf (y :: fs)).
  assert (NE : groups [] suf (y :: fs) <> []) by (cbn; destruct fs; discriminate).
  specialize (IH []). cbn [app] in IH. cbn [groups] in IH, NE. destruct (match fs with [] => [[] ++ [y] ++ suf] | _ :: _ => ([] ++ [y]) :: groups [] suf fs end) as [|g gs] eqn:G; [congruence|].
  change (join (lit ", ") (map (join [59]) ((pre ++ [x]) :: g :: gs))) with (join [59] (pre ++ [x]) ++ lit ", " ++ join (lit ", ") (map (join [59]) (g :: gs))).
  refine (f_equal (app (join [59] (pre ++ [x]))) _). transitivity (lit ", " ++ join [59] (join (lit ", ") (y :: fs) :: suf)); [|exact (f_equal (app (lit ", ")) IH)]. cbn [app join]. destruct suf; reflexivity.
Qed.
Lemma join_marked : forall x l, join [59] (x :: l) = x ++ flat_map (cons 59) l.
Proof. intros x l. revert x. induction l as [|y l IH]; intros x; [cbn; now rewrite app_nil_r|]. change (join [59] (x :: y :: l)) with (x ++ [59] ++ join [59] (y :: l)). rewrite IH. reflexivity. Qed.
(** One pair as it is written. *)
Definition pair_text (p : str) : Prop := calm true 44 p /\ calm true 59 p /\ tight p.
Lemma group_reads : forall g, g <> [] -> Forall pair_text g -> parts (join [59] g) = g.
Proof.
  intros [|x l] NE F; [congruence|]. inv F. rewrite join_marked. match goal with H : pair_text x |- _ => destruct H as (_ & A & B) end.
  apply parts_marked; [exact A|exact B|]. eapply Forall_impl; [|eassumption]. intros a (_ & P). exact P.
Qed.
Lemma tight_app : forall a b, tight a -> tight b -> tight (a ++ b).
Proof.
  intros a b A B. destruct a as [|c a]; [exact B|]. destruct b as [|d b]; [now rewrite app_nil_r|]. apply tight_join; [exact A|exact B|discriminate|discriminate].
Qed.
Lemma group_element : forall g, Forall pair_text g -> join [59] g <> [] -> element true (join [59] g).
Proof.
  intros [|x l] F NE; [elim NE; reflexivity|]. inv F. rewrite join_marked in *. match goal with H : pair_text x |- _ => destruct H as (A & _ & B) end. split; [|split; [|exact NE]].
  - apply calm_marked; [discriminate|discriminate|exact A|]. eapply Forall_impl; [|eassumption]. intros a (P & _). exact P.
  - match goal with H : Forall pair_text l |- _ => revert H end. clear NE A. revert x B. induction l as [|y l IH]; intros x B F; [cbn; now rewrite app_nil_r|].
    inv F. cbn [flat_map]. rewrite app_assoc. apply IH; [|assumption]. apply tight_app; [exact B|]. apply (tight_app [59]); [reflexivity|]. match goal with H : pair_text y |- _ => apply H end.
Qed.
Lemma join_empty : forall g, join [59] g = [] -> g = [] \/ g = [[]].
Proof.
  intros [|x [|y l]] E; [auto| |]; rewrite join_marked in E; apply app_eq_nil in E as [-> E]; [auto|discriminate E].
Qed.
Lemma escape_shields : shielded escape.
Proof. intros c. unfold escape. now rewrite orb_comm. Qed.
Lemma for_text : forall v, pair_text (lit "for=" ++ fmt v) /\ binding (lit "for=" ++ fmt v) = (lit "for", Some v).
Proof.
  intros v. assert (B : unquote (fmt v) = v -> binding (lit "for=" ++ fmt v) = (lit "for", Some v)).
  { intros U. change (lit "for=" ++ fmt v) with (lit "for" ++ 61 :: fmt v). rewrite binding_app by reflexivity. now rewrite U. }
  unfold fmt in *. destruct (forallb tchar v) eqn:T.
  - assert (W : wordy v = true).
    { eapply forallb_impl; [|exact T]. intros c C. apply negb_true_iff. destruct ((c =? 34) || (c =? 44) || blank c) eqn:E; [|reflexivity]. exfalso.
      unfold blank in E. assert (c = 34 \/ c = 44 \/ c = 32 \/ c = 9) as [->|[->|[->| ->]]] by lia; discriminate C. }
    assert (S : no_char 59 v = true) by exact (no_char_forallb 59 _ v eq_refl T). assert (WF : wordy (lit "for=" ++ v) = true) by (rewrite wordy_app, W; reflexivity).
    split; [split; [|split]|].
    + apply calm_plain; apply wordy_no; try exact WF; reflexivity.
    + apply wordy_calm; [exact WF|]. rewrite no_char_app, S. reflexivity.
    + now apply wordy_tight.
    + apply B. apply unquote_word. now apply wordy_no.
  - split; [split; [|split]|].
    + apply calm_app; [reflexivity|]. apply calm_escaped; [exact escape_shields|discriminate].
    + apply calm_app; [reflexivity|]. apply calm_escaped; [exact escape_shields|discriminate].
    + apply tight_join; [reflexivity|eapply (ends_tight 34 _ 34 (34 :: flat_map escape v)); reflexivity|discriminate|discriminate].
    + apply B. exact (unescape_shielded escape v [] escape_shields).
Qed.
(** Values that are written without quotes whatever they are: no quotes, separators or blanks. *)
Definition unquoted_ok (v : str) : Prop := wordy v = true /\ no_char 59 v = true.
Lemma plain_text : forall n v, wordy n = true -> no_char 59 n = true -> no_char 61 n = true -> unquoted_ok v ->
  pair_text (n ++ lit "=" ++ v) /\ binding (n ++ lit "=" ++ v) = (n, Some v).
Proof.
  intros n v W S E [WV SV]. assert (WT : wordy (n ++ lit "=" ++ v) = true) by (rewrite !wordy_app, W, WV; reflexivity). split; [split; [|split]|].
  - apply calm_plain; apply wordy_no; try exact WT; reflexivity.
  - apply wordy_calm; [exact WT|]. rewrite !no_char_app, S, SV. reflexivity.
  - now apply wordy_tight.
  - change (n ++ lit "=" ++ v) with (n ++ 61 :: v). rewrite binding_app by exact E. rewrite unquote_word; [reflexivity|]. now apply wordy_no.
Qed.
Definition opt_pair (n : str) (o : option str) : list (str * option str) := match o with Some v => [(n, Some v)] | None => [] end.
Definition is_for (p : str * option str) : bool := seqb (fst p) (lit "for").
Definition full (p : str) : bool := match p with [] => false | _ => true end.
Lemma groups_all : forall (P : str -> Prop) suf fs pre, Forall P pre -> Forall P suf -> Forall P fs -> P [] -> Forall (Forall P) (groups pre suf fs).
Proof.
  intros P suf fs. induction fs as [|x fs IH]; intros pre A B C D.
  - cbn [groups]. constructor; [|constructor]. rewrite !Forall_app. auto.
  - inv C. cbn [groups]. destruct fs as [|y fs].
    + constructor; [|constructor]. rewrite !Forall_app. auto.
    + constructor; [rewrite Forall_app; auto|]. apply IH; auto.
Qed.
Lemma groups_concat : forall suf fs pre, concat (map (filter full) (groups pre suf fs)) = filter full (pre ++ fs ++ suf).
Proof.
  intros suf fs. induction fs as [|x fs IH]; intros pre; cbn [groups].
  - cbn [map concat]. rewrite app_nil_r, !filter_app. reflexivity.
  - destruct fs as [|y fs].
    + cbn [map concat]. rewrite app_nil_r. reflexivity.
    + cbn [map concat]. rewrite IH. rewrite <- filter_app, <- app_assoc. reflexivity.
Qed.
Lemma filter_all : forall A (p : A -> bool) l, Forall (fun x => p x = true) l -> filter p l = l.
Proof. intros A p l F. induction F as [|x l X F IH]; [reflexivity|]. cbn [filter]. now rewrite X, IH. Qed.
Lemma filter_none : forall A (p : A -> bool) l, Forall (fun x => p x = false) l -> filter p l = [].
Proof. intros A p l F. induction F as [|x l X F IH]; [reflexivity|]. cbn [filter]. now rewrite X. Qed.
Lemma groups_for : forall (q : str -> bool) suf fs pre, fs <> [] -> Forall (fun p => q p = false) pre -> Forall (fun p => q p = false) suf -> Forall (fun p => q p = true) fs ->
  map (filter q) (groups pre suf fs) = map (fun x => [x]) fs.
Proof.
  intros q suf fs. induction fs as [|x fs IH]; intros pre NE A B C; [congruence|]. inv C. cbn [groups]. destruct fs as [|y fs].
  - cbn [map]. rewrite !filter_app. rewrite (filter_none _ q pre), (filter_none _ q suf) by assumption. cbn [filter app]. rewrite H1. reflexivity.
  - cbn [map]. rewrite filter_app, (filter_none _ q pre) by assumption. cbn [filter app]. rewrite H1. f_equal. apply IH; [discriminate|constructor|assumption|assumption].
Qed.
Lemma groups_nonempty : forall suf fs pre g, In g (groups pre suf fs) -> g <> [].
Proof.
  intros suf fs. induction fs as [|x fs IH]; intros pre g I; cbn [groups] in I.
  - destruct I as [<-|[]]. destruct pre; discriminate.
  - destruct fs as [|y fs]; [destruct I as [<-|[]]; destruct pre; discriminate|]. destruct I as [<-|I]; [destruct pre; discriminate|]. exact (IH [] g I).
Qed.
Lemma groups_full : forall suf fs pre, Forall (fun p => p <> []) fs -> In [[]] (groups pre suf fs) -> pre = [] /\ fs = [] /\ suf = [].
Proof.
  intros suf fs. induction fs as [|x fs IH]; intros pre F I; cbn [groups] in I.
  - destruct I as [I|[]]. destruct pre as [|p pre]; [cbn in I; injection I as ->; auto|]. exfalso. apply (f_equal (@length str)) in I. cbn in I. rewrite app_length in I. cbn in I. lia.
  - inv F. exfalso. destruct fs as [|y fs].
    + destruct I as [I|[]]. destruct pre as [|p pre]; [cbn in I; injection I as -> _; congruence|]. apply (f_equal (@length str)) in I. cbn in I. rewrite app_length in I. cbn in I. lia.
    + destruct I as [I|I].
      * destruct pre as [|p pre]; [cbn in I; injection I as ->; congruence|]. apply (f_equal (@length str)) in I. cbn in I. rewrite app_length in I. cbn in I. lia.
      * apply IH in I as (_ & X & _); [discriminate X|assumption].
Qed.
(** Every address is found, in order and one per element, whatever it is made of; so are the other fields if they need no quotes. *)
Theorem C102_forwarded : forall f v, fw_value f = Ok v ->
  (forall x, fw_by f = Some x \/ fw_host f = Some x \/ fw_proto f = Some x -> unquoted_ok x) ->
  concat (hops v) = opt_pair (lit "by") (fw_by f) ++ map (fun x => (lit "for", Some x)) (fw_for f) ++ opt_pair (lit "host") (fw_host f) ++ opt_pair (lit "proto") (fw_proto f) /\
  (fw_for f <> [] -> map (filter is_for) (hops v) = map (fun x => [(lit "for", Some x)]) (fw_for f)).
Proof.
  intros f v V U. rewrite forwarded_text in V. assert (v = join [59] (fst (pieces f) ++ [fors_of (fw_for f)] ++ snd (pieces f))) as -> by congruence. clear V. unfold fors_of. rewrite groups_text.
  set (fs := map (fun v => lit "for=" ++ fmt v) (fw_for f)). set (pre := fst (pieces f)). set (suf := snd (pieces f)).
  assert (PRE : Forall (fun p => pair_text p /\ p <> [] /\ is_for (binding p) = false) pre /\ map binding pre = opt_pair (lit "by") (fw_by f)).
  { unfold pre, pieces. cbn [fst]. destruct (fw_by f) as [x|]; [|split; [constructor|reflexivity]]. destruct (plain_text (lit "by") x eq_refl eq_refl eq_refl (U x (or_introl eq_refl))) as [A B].
    change (lit "by" ++ lit "=" ++ x) with (lit "by=" ++ x) in A, B. split; [constructor; [|constructor]; split; [exact A|split; [discriminate|now rewrite B]]|]. cbn [map opt_pair]. now rewrite B. }
  assert (SUF : Forall (fun p => pair_text p /\ p <> [] /\ is_for (binding p) = false) suf /\ map binding suf = opt_pair (lit "host") (fw_host f) ++ opt_pair (lit "proto") (fw_proto f)).
  { unfold suf, pieces. cbn [snd]. rewrite Forall_app, map_app.
    assert (A : Forall (fun p => pair_text p /\ p <> [] /\ is_for (binding p) = false) match fw_host f with Some v => [lit "host=" ++ v] | None => [] end /\
                map binding match fw_host f with Some v => [lit "host=" ++ v] | None => [] end = opt_pair (lit "host") (fw_host f)).
    { destruct (fw_host f) as [x|]; [|split; [constructor|reflexivity]]. destruct (plain_text (lit "host") x eq_refl eq_refl eq_refl (U x (or_intror (or_introl eq_refl)))) as [A B].
      change (lit "host" ++ lit "=" ++ x) with (lit "host=" ++ x) in A, B. split; [constructor; [|constructor]; split; [exact A|split; [discriminate|now rewrite B]]|]. cbn [map opt_pair]. now rewrite B. }
    assert (B : Forall (fun p => pair_text p /\ p <> [] /\ is_for (binding p) = false) match fw_proto f with Some v => [lit "proto=" ++ v] | None => [] end /\
                map binding match fw_proto f with Some v => [lit "proto=" ++ v] | None => [] end = opt_pair (lit "proto") (fw_proto f)).
    { destruct (fw_proto f) as [x|]; [|split; [constructor|reflexivity]]. destruct (plain_text (lit "proto") x eq_refl eq_refl eq_refl (U x (or_intror (or_intror eq_refl)))) as [B C].
      change (lit "proto" ++ lit "=" ++ x) with (lit "proto=" ++ x) in B, C. split; [constructor; [|constructor]; split; [exact B|split; [discriminate|now rewrite C]]|]. cbn [map opt_pair]. now rewrite C. }
    destruct A as [A1 A2], B as [B1 B2]. split; [split; assumption|]. exact (f_equal2 (@app _) A2 B2). }
  assert (FS : Forall (fun p => pair_text p /\ p <> [] /\ is_for (binding p) = true) fs /\ map binding fs = map (fun x => (lit "for", Some x)) (fw_for f)).
  { unfold fs. split.
    - apply Forall_forall. intros p P. apply in_map_iff in P as (x & <- & _). destruct (for_text x) as [A B]. split; [exact A|]. split; [discriminate|now rewrite B].
    - rewrite map_map. apply map_ext. intros x. apply for_text. }
  destruct PRE as [P1 P2], SUF as [S1 S2], FS as [F1 F2].
  assert (GP : Forall (Forall pair_text) (groups pre suf fs)).
  { apply groups_all; [eapply Forall_impl; [|exact P1]; intros a A; apply A|eapply Forall_impl; [|exact S1]; intros a A; apply A|eapply Forall_impl; [|exact F1]; intros a A; apply A|]. split; [reflexivity|split; reflexivity]. }
  assert (FU : filter full (pre ++ fs ++ suf) = pre ++ fs ++ suf).
  { apply filter_all. rewrite !Forall_app. split; [|split]; [eapply Forall_impl; [|exact P1]|eapply Forall_impl; [|exact F1]|eapply Forall_impl; [|exact S1]]; intros a (_ & NE & _); (destruct a; [congruence|reflexivity]). }
  (* the elements *)
  assert (H : hops (join (lit ", ") (map (join [59]) (groups pre suf fs))) = if (match pre ++ fs ++ suf with [] => true | _ => false end) then [] else map (fun g => map binding (filter full g)) (groups pre suf fs)).
  { destruct (pre ++ fs ++ suf) as [|z zs] eqn:Z.
    - apply app_eq_nil in Z as [-> Z]. apply app_eq_nil in Z as [-> ->]. reflexivity.
    - unfold hops. rewrite elements_join.
      + rewrite map_map. apply map_ext_in. intros g G. rewrite Forall_forall in GP. rewrite group_reads; [reflexivity|exact (groups_nonempty _ _ _ _ G)|exact (GP g G)].
      + apply Forall_forall. intros e E. apply in_map_iff in E as (g & <- & G). apply group_element; [exact (proj1 (Forall_forall _ _) GP g G)|]. intros X.
        assert (C : filter full g = []) by (apply join_empty in X as [-> | ->]; reflexivity).
        assert (L : g = [[]]) by (apply join_empty in X as [X|X]; [elim (groups_nonempty _ _ _ _ G X)|exact X]). subst g. clear C X.
        apply (groups_full suf fs pre) in G; [|eapply Forall_impl; [|exact F1]; intros a A; apply A]. destruct G as (-> & -> & ->). discriminate Z. }
  rewrite H. split.
  - destruct (pre ++ fs ++ suf) as [|z zs] eqn:Z.
    + apply app_eq_nil in Z as [Z1 Z]. apply app_eq_nil in Z as [Z2 Z3]. rewrite Z1 in P2. rewrite Z2 in F2. rewrite Z3 in S2. cbn [map] in *. rewrite <- P2, <- F2, <- S2. reflexivity.
    + assert (W : map binding (filter full (pre ++ fs ++ suf)) = opt_pair (lit "by") (fw_by f) ++ map (fun x => (lit "for", Some x)) (fw_for f) ++ opt_pair (lit "host") (fw_host f) ++ opt_pair (lit "proto") (fw_proto f)).
      { rewrite Z, FU, <- Z, !map_app. exact (f_equal2 (@app _) P2 (f_equal2 (@app _) F2 S2)). }
      rewrite <- W, <- groups_concat. rewrite concat_map, map_map. reflexivity.
  - intros NE. assert (NF : fs <> []) by (unfold fs; destruct (fw_for f); [congruence|discriminate]).
    destruct (pre ++ fs ++ suf) as [|z zs] eqn:Z; [apply app_eq_nil in Z as [_ Z]; apply app_eq_nil in Z as [Z _]; elim (NF Z)|].
    rewrite map_map.
    assert (X : map (fun g => filter is_for (map binding (filter full g))) (groups pre suf fs) = map (map binding) (map (filter (fun p => is_for (binding p))) (groups pre suf fs))).
    { rewrite map_map. apply map_ext_in. intros g _. induction g as [|p g IH]; [reflexivity|].
      cbn [filter]. destruct p as [|c p]; [exact IH|]. cbn [full map filter]. destruct (is_for (binding (c :: p))); cbn [map]; now rewrite IH. }
    rewrite X, groups_for; [|exact NF|eapply Forall_impl; [|exact P1]; intros a A; apply A|eapply Forall_impl; [|exact S1]; intros a A; apply A|eapply Forall_impl; [|exact F1]; intros a A; apply A].
    rewrite map_map. unfold fs. rewrite map_map. apply map_ext. intros x. cbn [map]. destruct (for_text x) as [_ ->]. reflexivity.
Qed.
Example C102_forwarded_example :
  let f := mkForwarded (Some (lit "p")) [lit "192.0.2.43"; lit "[2001:db8::17]:47"; lit "a"",b"] (Some (lit "example.com:80")) None in
  exists v, fw_value f = Ok v /\ hops v = [[(lit "by", Some (lit "p")); (lit "for", Some (lit "192.0.2.43"))]; [(lit "for", Some (lit "[2001:db8::17]:47"))];
    [(lit "for", Some (lit "a"",b")); (lit "host", Some (lit "example.com:80"))]] /\ unquoted_ok (lit "example.com:80") /\ unquoted_ok (lit "p").
Proof. eexists. split; [vm_compute; reflexivity|]. split; [vm_compute; reflexivity|]. split; split; reflexivity. Qed.
(** False of the code: a value that needs quotes gets them; a strict reader refuses a port in an unquoted host, and a host may bring in a hop of its own. *)
Definition strict_value (s : str) : Prop := rfc_token s = true \/ exists t, s = 34 :: t ++ [34].
Theorem C102_forwarded_host_refuted : exists f v, fw_value f = Ok v /\ fw_host f = Some (lit "example.com:80") /\ v = lit "for=a;host=" ++ lit "example.com:80" /\ ~ strict_value (lit "example.com:80").
Proof.
  exists (mkForwarded None [lit "a"] (Some (lit "example.com:80")) None). eexists. split; [vm_compute; reflexivity|]. split; [reflexivity|]. split; [reflexivity|].
  intros [H|(t & H)]; [vm_compute in H; discriminate H|discriminate H].
Qed.
Theorem C102_forwarded_hop_refuted : exists f v, fw_value f = Ok v /\ fw_for f = [lit "a"] /\
  map (filter is_for) (hops v) = [[(lit "for", Some (lit "a"))]; [(lit "for", Some (lit "b"))]].
Proof. exists (mkForwarded None [lit "a"] (Some (lit "h, for=b")) None). eexists. split; [vm_compute; reflexivity|]. split; [reflexivity|]. vm_compute. reflexivity. Qed.
Print Assumptions C102_cache_control.
Print Assumptions C102_shared_age.
Print Assumptions C102_shared_age_refuted.
Print Assumptions C102_conditions.
Print Assumptions C102_tag_refuted.
Print Assumptions C102_vary.
Print Assumptions C102_allow.
Print Assumptions C102_clear_site_data.
Print Assumptions C102_codings.
Print Assumptions C102_content_type.
Print Assumptions C102_accept.
Print Assumptions C102_media_wildcard_refuted.
Print Assumptions C102_authorization.
Print Assumptions C102_challenge.
Print Assumptions C102_challenge_refuted.
Print Assumptions C102_challenge_iff.
Print Assumptions C102_hsts.
Print Assumptions C102_server_timing.
Print Assumptions C102_server_timing_refuted.
Print Assumptions C102_forwarded.
Print Assumptions C102_forwarded_host_refuted.
Print Assumptions C102_forwarded_hop_refuted.
