(** For which values writing a typed header and reading it back gives the same value: exact conditions (C39, C40,
    C41, C42, C44, C45, C47, C59, C60). *)
From Verif Require Import Base BaseFacts Headers HeadersFacts Typed TypedFacts Conditional ConditionalProps Cache CacheProps
  Auth AuthProps Other OtherProps Method.
From Coq Require Import ZifyBool ZifyNat ZifyN.

(** ** C39 *)
(** An ETag comes back exactly when its tag has only characters the RFC allows. *)
Theorem C39_round_trip_iff : forall h e, etag_from_headers (etag_apply h e) = Ok (Some e) <-> valid_etag e.
Proof.
  intros h e. split; [|apply C39_round_trip_partial]. intros R.
  destruct (forallb etag_char (opaque e)) eqn:F; [now apply etag_chars_spec|].
  rewrite C39_invalid_tag_never_read_as_another in R; [discriminate|].
  intros V. apply etag_chars_spec in V. congruence.
Qed.
Example C39_round_trip_iff_example :
  valid_etag (Weak (lit "a\b;c")) /\ ~ valid_etag (Strong (lit "a b")) /\
  etag_from_headers (etag_apply [] (Weak (lit "a\b;c"))) = Ok (Some (Weak (lit "a\b;c"))) /\
  etag_from_headers (etag_apply [] (Strong (lit "a b"))) = Err 400.
Proof.
  split; [apply etag_chars_spec; reflexivity|]. split; [intros V; apply etag_chars_spec in V; discriminate V|].
  split; vm_compute; reflexivity.
Qed.
Print Assumptions C39_round_trip_iff.

(** ** C40 *)
Lemma read_parts_from : forall (A : Type) star (parse : str -> outcome A) ps l w x,
  read_parts star parse ps = Ok (l, w) -> In x l -> exists p, In p ps /\ trim p <> star /\ parse (trim p) = Ok x.
Proof.
  intros A star parse. induction ps as [|p ps IH]; intros l w x R I; cbn [read_parts] in R.
  - injection R as <- _. destruct I.
  - destruct (seqb_spec (trim p) star) as [E|E].
    + destruct (read_parts star parse ps) as [[l' w']| |] eqn:R'; try discriminate. cbn [bind] in R. injection R as <- _.
      destruct (IH _ _ _ eq_refl I) as (q & Q & Q'). exists q. split; [now right|exact Q'].
    + destruct (parse (trim p)) as [a| |] eqn:P; try discriminate. cbn [bind] in R.
      destruct (read_parts star parse ps) as [[l' w']| |] eqn:R'; try discriminate. cbn [bind] in R. injection R as <- _.
      destruct I as [<-|I]; [exists p; repeat split; [now left|exact E|exact P]|].
      destruct (IH _ _ _ eq_refl I) as (q & Q & Q'). exists q. split; [now right|exact Q'].
Qed.

(** A list of ETags comes back exactly when every tag has only allowed characters, none has a comma in it, and there
    is something to write. *)
Theorem C40_round_trip_iff : forall k h (l : list etag) (w : bool),
  cond_from_headers k (cond_apply k h (l, w)) = Ok (Some (l, w)) <->
  Forall (fun e => valid_etag e /\ no_comma (opaque e)) l /\ (l <> [] \/ w = true).
Proof.
  intros k h l w. split; [|intros [H N]; now apply C40_round_trip_partial]. intros R.
  assert (V : Forall valid_etag l).
  { unfold cond_from_headers, cond_apply in R. rewrite with_all_apply in R.
    destruct (read_parts (lit "*") etag_from_str (comma_parts [cond_value (l, w)])) as [[l' w']| |] eqn:P; try discriminate.
    cbn [bind] in R. injection R as -> ->. apply Forall_forall. intros e I.
    destruct (read_parts_from _ _ _ _ _ _ _ P I) as (p & _ & _ & E).
    assert (G : entity_tag (is_weak e) (opaque e) (trim p)) by (apply C39_grammar; rewrite E; destruct e; reflexivity).
    exact (proj1 G). }
  split.
  - apply Forall_forall. intros e I. split; [rewrite Forall_forall in V; now apply V|]. intros C.
    rewrite C40_comma_always_fails in R; [discriminate|exact V|]. apply Exists_exists. exists e. split; [exact I|].
    intros X. now apply X.
  - destruct l as [|e l]; [|left; discriminate]. right. destruct w; [reflexivity|]. exfalso.
    unfold cond_from_headers, cond_apply in R. rewrite with_all_apply in R. discriminate R.
Qed.
Example C40_round_trip_iff_example :
  cond_from_headers IfMatch (cond_apply IfMatch [] ([Strong (lit "a"); Weak []], true)) = Ok (Some ([Strong (lit "a"); Weak []], true)) /\
  cond_from_headers IfMatch (cond_apply IfMatch [] ([Strong (lit "a,b")], true)) = Err 400 /\
  cond_from_headers IfMatch (cond_apply IfMatch [] ([Strong (lit "a b")], true)) = Err 400 /\
  cond_from_headers IfMatch (cond_apply IfMatch [] ([], false)) = Err 400.
Proof. repeat split; vm_compute; reflexivity. Qed.
Print Assumptions C40_round_trip_iff.

(** ** C41 *)
Lemma trim_length : forall s, length (trim s) = length s -> trim s = s.
Proof.
  intros s H. destruct (trim_matches_decomp is_ws s) as (a & b & E & _ & _). unfold trim in *.
  assert (L := f_equal (@length N) E). rewrite !app_length in L.
  destruct a; [|cbn [length] in L; lia]. destruct b; [|cbn [length] in L; lia]. rewrite app_nil_r in E. now rewrite E at 2.
Qed.
Lemma lower_length : forall s, length (to_lower s) = length s.
Proof. intros s. apply map_length. Qed.
Lemma trim_lower_iff : forall s, trim (to_lower s) = to_lower s <-> trim s = s.
Proof.
  intros s. split; intros H.
  - apply trim_length. rewrite <- lower_trim in H. apply (f_equal (@length N)) in H. now rewrite !lower_length in H.
  - now rewrite <- lower_trim, H.
Qed.
Lemma in_trim : forall (c : N) s, In c (trim s) -> In c s.
Proof.
  intros c s I. destruct (trim_matches_decomp is_ws s) as (a & b & E & _ & _). unfold trim in I. rewrite E.
  apply in_or_app. right. apply in_or_app. now left.
Qed.

Definition plain_name (n : str) : Prop := no_comma n /\ trim n = n /\ n <> lit "*".

Lemma join_star : forall ts (t : str), join (lit ", ") ((t :: ts) ++ [lit "*"]) = join (lit ", ") (t :: ts) ++ lit ", " ++ lit "*".
Proof.
  induction ts as [|u ts IH]; intros t; [reflexivity|].
  change (join (lit ", ") ((t :: u :: ts) ++ [lit "*"])) with (t ++ lit ", " ++ join (lit ", ") ((u :: ts) ++ [lit "*"])).
  rewrite IH. change (join (lit ", ") (t :: u :: ts)) with (t ++ lit ", " ++ join (lit ", ") (u :: ts)).
  now rewrite <- !app_assoc.
Qed.
Lemma vary_written : forall l (w : bool), (l = [[]] -> w = false) ->
  list_value (lit "*") l w = join (lit ", ") (l ++ (if w then [lit "*"] else [])).
Proof.
  intros l w H. unfold list_value. destruct w; [|now rewrite app_nil_r]. destruct l as [|t ts]; [reflexivity|].
  rewrite join_star. destruct (join (lit ", ") (t :: ts)) eqn:J; [|rewrite <- J; reflexivity]. exfalso.
  destruct ts as [|u ts]; [|destruct t; discriminate J]. cbn in J. subst t. now specialize (H eq_refl).
Qed.
Lemma vary_read_back : forall l (w : bool), Forall (fun n => is_ascii n = true /\ to_lower n = n /\ plain_name n) l ->
  (l = [] -> w = true) -> (l = [[]] -> w = false) ->
  read_parts (lit "*") (fun p => name_from_str (trim p)) (comma_parts [list_value (lit "*") l w]) = Ok (l, w).
Proof.
  intros l w H E1 E2. rewrite vary_written by exact E2. unfold comma_parts. cbn [flat_map]. rewrite app_nil_r.
  change c_comma with 44. rewrite (read_parts_ext _ _ _ _ (l ++ (if w then [lit "*"] else []))).
  - rewrite read_parts_app. rewrite <- (map_id l) at 1. rewrite (read_parts_shown _ _ _ (fun n => n)).
    + destruct w; cbn [bind read_parts orb]; [change (seqb (trim (lit "*")) (lit "*")) with true; cbn [bind orb]|]; now rewrite app_nil_r.
    + eapply Forall_impl; [|exact H]. intros n (A & L & C & T & S). split; [exact T|]. split; [exact S|].
      rewrite T. unfold name_from_str. now rewrite A, L.
  - rewrite pieces_text.
    + rewrite map_app. f_equal; [|now destruct w].
      clear E1 E2. induction H as [|n l (A & L & C & T & S) H IH]; [reflexivity|]. cbn [map]. now rewrite <- IH, T.
    + destruct l; [rewrite (E1 eq_refl)|]; discriminate.
    + rewrite forallb_app. apply andb_true_iff. split; [|now destruct w]. rewrite forallb_forall. intros n I.
      rewrite Forall_forall in H. destruct (H n I) as (A & L & C & T & S). unfold clean.
      rewrite (proj2 (no_comma_spec n) C), (no_edge_of_trim _ T). reflexivity.
Qed.

(** Pushing names and writing the header: what is read back is the value written exactly when no name has a comma,
    white space at an end or is "*", when there is something to write, and when the wildcard does not stand beside a
    single empty name. *)
Theorem C41_round_trip_iff : forall h names (w : bool), Forall (fun n => is_ascii n = true) names ->
  ((exists v h', vary_pushes ([], w) names = Ok v /\ vary_apply h v = Ok h' /\ vary_from_headers h' = Ok (Some v)) <->
   Forall (fun n => no_comma n /\ trim n = n /\ n <> lit "*") names /\ (names = [] -> w = true) /\ (names = [[]] -> w = false)).
Proof.
  intros h names w A.
  assert (AL : Forall (fun n => is_ascii n = true) (map to_lower names)).
  { apply Forall_forall. intros n Hn. apply in_map_iff in Hn as (m & <- & Hm). rewrite Forall_forall in A.
    rewrite is_ascii_to_lower. now apply A. }
  rewrite (pushes_spec names [] w A). cbn [app].
  assert (X : vary_apply h (map to_lower names, w) = Ok (apply_value h VARY (list_value (lit "*") (map to_lower names) w))).
  { unfold vary_apply, vary_value. cbn [fst snd]. now rewrite (vary_texts_ok _ AL). }
  assert (Y : vary_from_headers (apply_value h VARY (list_value (lit "*") (map to_lower names) w))
    = let* a := read_parts (lit "*") (fun p => name_from_str (trim p)) (comma_parts [list_value (lit "*") (map to_lower names) w]) in Ok (Some a)).
  { unfold vary_from_headers. now rewrite with_all_apply. }
  split.
  - intros (v & h' & V & W & R). injection V as <-. rewrite X in W. injection W as <-. rewrite Y in R. clear X Y.
    destruct (read_parts (lit "*") (fun p => name_from_str (trim p)) (comma_parts [list_value (lit "*") (map to_lower names) w]))
      as [[l' w']| |] eqn:P; try discriminate. cbn [bind] in R. injection R as -> ->. split; [|split].
    + apply Forall_forall. intros n I. assert (I' := in_map to_lower _ _ I).
      destruct (read_parts_from _ _ _ _ _ _ _ P I') as (p & Ip & S & E). unfold name_from_str in E.
      destruct (is_ascii (trim (trim p))); [|discriminate]. injection E as E.
      assert (T2 : trim (trim p) = trim p) by (apply trim_id, trim_matches_no_edge). rewrite T2 in E.
      repeat split.
      * apply no_comma_spec. rewrite <- lower_comma, <- E, lower_comma. apply no_comma_spec. intros C. apply in_trim in C.
        unfold comma_parts in Ip. cbn [flat_map] in Ip. rewrite app_nil_r in Ip.
        assert (Q := split_pieces 44 (trim (list_value (lit "*") (map to_lower names) w))). rewrite Forall_forall in Q.
        specialize (Q p Ip). apply no_comma_spec in Q. contradiction.
      * apply trim_lower_iff. rewrite <- E. apply trim_lower_iff, T2.
      * intros ->. apply S. apply lower_star. exact E.
    + intros ->. destruct w; [reflexivity|]. vm_compute in P. discriminate P.
    + intros ->. destruct w; [|reflexivity]. vm_compute in P. discriminate P.
  - intros (F & E1 & E2). exists (map to_lower names, w). eexists. split; [reflexivity|]. split; [exact X|]. rewrite Y. clear X Y.
    rewrite vary_read_back; [reflexivity| | |].
    + apply Forall_forall. intros n I. assert (I' := I). apply in_map_iff in I as (m & <- & I).
      rewrite Forall_forall in F, AL. destruct (F m I) as (C & T & S). split; [now apply AL|]. split; [apply to_lower_idem|].
      split; [apply no_comma_spec; rewrite lower_comma; now apply no_comma_spec|]. split; [now apply trim_lower_iff|].
      intros Z. now apply lower_star in Z.
    + intros Z. apply E1. now destruct names.
    + intros Z. apply E2. destruct names as [|m [|]]; try discriminate Z. cbn in Z. injection Z as Z. now destruct m.
Qed.
(** Empty names survive, even several of them; a single empty name beside the wildcard does not. *)
Example C41_round_trip_iff_example :
  vary_from_headers (apply_value [] VARY (list_value (lit "*") [lit "accept"; []; []] true)) = Ok (Some ([lit "accept"; []; []], true)) /\
  vary_from_headers (apply_value [] VARY (list_value (lit "*") [[]] true)) = Ok (Some ([], true)) /\
  vary_from_headers (apply_value [] VARY (list_value (lit "*") [[]] false)) = Ok (Some ([[]], false)) /\
  vary_from_headers (apply_value [] VARY (list_value (lit "*") [lit " a"] false)) = Ok (Some ([lit "a"], false)).
Proof. repeat split; vm_compute; reflexivity. Qed.
Print Assumptions C41_round_trip_iff.

(** ** C42 *)
(** Directives whose durations fit the wire format come back exactly when every duration is in whole seconds and there is
    no shared maximum age. *)
Theorem C42_round_trip_iff : forall h l, Forall u64_secs l ->
  (cache_from_headers (cache_apply h l) = Ok (Some l) <->
   Forall (fun d => (forall t, dur_of d = Some t -> nanos t = 0) /\ forall t, d <> SMaxAge t) l).
Proof.
  intros h l U. split.
  - intros R. rewrite C42_reads_back_as in R by exact U. injection R as R. clear h U.
    assert (L : forall m, (length (flat_map survivor m) <= length m)%nat).
    { induction m as [|d m IH]; [reflexivity|]. cbn [flat_map]. rewrite app_length.
      assert (length (survivor d) <= 1)%nat by (destruct d as [|t|[t|]|t| | | | | | | | |t|t|t]; cbn; lia). cbn [length]. lia. }
    induction l as [|d l IH]; [constructor|]. cbn [flat_map] in R.
    destruct (survivor d) as [|x s] eqn:S.
    + exfalso. cbn [app] in R. assert (Z := L l). rewrite R in Z. cbn [length] in Z. lia.
    + assert (s = []) as -> by (destruct d as [|t|[t|]|t| | | | | | | | |t|t|t]; cbn in S; congruence).
      cbn [app] in R. injection R as R1 R2. subst x. constructor; [|now apply IH]. split.
      * intros t D. destruct d as [|u|[u|]|u| | | | | | | | |u|u|u]; cbn [dur_of] in D; try discriminate; injection D as ->;
          cbn [survivor] in S; try discriminate; injection S as S; now rewrite <- S.
      * intros t ->. discriminate S.
  - intros F. apply C42_round_trip_partial. apply Forall_forall. intros d I. rewrite Forall_forall in U, F.
    destruct (F d I) as [W S]. split; [now apply U|]. split; [|exact S]. destruct (dur_of d) as [t|]; [now apply W|exact Logic.I].
Qed.
Example C42_round_trip_iff_example :
  cache_from_headers (cache_apply [] [Immutable; MaxAge (from_secs 60)]) = Ok (Some [Immutable; MaxAge (from_secs 60)]) /\
  cache_from_headers (cache_apply [] [SMaxAge (from_secs 60); Immutable]) = Ok (Some [Immutable]).
Proof. repeat split; vm_compute; reflexivity. Qed.
Print Assumptions C42_round_trip_iff.

(** ** C44 *)
(** A non-empty list of directives or the wildcard comes back; nothing at all makes the reader panic. *)
Theorem C44_round_trip_iff : forall h l (w : bool),
  clear_from_headers (clear_apply h (l, w)) = Ok (Some (l, w)) <-> l <> [] \/ w = true.
Proof.
  intros h l w. split; [|apply C44_round_trip_partial]. intros R. destruct l as [|c l]; [|left; discriminate].
  destruct w; [now right|]. exfalso. unfold clear_from_headers, clear_apply in R. rewrite with_all_apply in R. discriminate R.
Qed.
Example C44_round_trip_iff_example :
  clear_from_headers (clear_apply [] ([], true)) = Ok (Some ([], true)) /\
  clear_from_headers (clear_apply [] ([], false)) <> Ok (Some ([], false)).
Proof. split; [vm_compute; reflexivity|vm_compute; discriminate]. Qed.
Print Assumptions C44_round_trip_iff.

(** ** C45, C47 *)
Lemma in_cut : forall (c : N) (s : str), In c s -> exists a b, s = a ++ [c] ++ b /\ ~ In c a.
Proof.
  intros c. induction s as [|x s IH]; intros I; [destruct I|]. destruct (N.eq_dec x c) as [->|D].
  - exists [], s. split; [reflexivity|]. intros [].
  - destruct I as [->|I]; [congruence|]. destruct (IH I) as (a & b & -> & Na). exists (x :: a), b. split; [reflexivity|].
    intros [E|E]; [congruence|contradiction].
Qed.
(** Credentials come back exactly when the user name has no colon. *)
Theorem C45_round_trip_iff : forall h u p, valid_str u = true -> valid_str p = true ->
  (basic_from_headers (basic_apply h (u, p)) = Ok (Some (u, p)) <-> ~ In 58 u).
Proof.
  intros h u p U P. split; [|now apply C45_round_trip_partial]. intros R I.
  destruct (in_cut _ _ I) as (a & b & -> & Na). rewrite C45_colon_always_wrong in R by assumption.
  injection R as R _. apply (f_equal (@length N)) in R. rewrite !app_length in R. cbn [length] in R. lia.
Qed.
Example C45_round_trip_iff_example :
  basic_from_headers (basic_apply [] (lit "nori", lit "secret:fish")) = Ok (Some (lit "nori", lit "secret:fish")) /\
  basic_from_headers (basic_apply [] (lit "no:ri", lit "fish")) = Ok (Some (lit "no", lit "ri:fish")).
Proof. split; vm_compute; reflexivity. Qed.
Print Assumptions C45_round_trip_iff.

(** A challenge comes back exactly when its realm has no double quote. *)
Theorem C47_round_trip_iff : forall h sch r, www_from_headers (www_apply h (sch, r)) = Ok (Some (sch, r)) <-> ~ In 34 r.
Proof.
  intros h sch r. split; [|apply C47_round_trip_partial]. intros R I.
  destruct (in_cut _ _ I) as (a & b & -> & Na). rewrite C47_quote_always_cut in R by assumption.
  injection R as R. apply (f_equal (@length N)) in R. rewrite !app_length in R. cbn [length] in R. lia.
Qed.
Example C47_round_trip_iff_example :
  www_from_headers (www_apply [] (Basic, lit "a, b\")) = Ok (Some (Basic, lit "a, b\")) /\
  www_from_headers (www_apply [] (Basic, lit "a ""b""")) = Ok (Some (Basic, lit "a ")).
Proof. split; vm_compute; reflexivity. Qed.
Print Assumptions C47_round_trip_iff.

(** ** C59 *)
(** A set of methods (written in any order) is read back with the same members exactly when it is not empty. *)
Theorem C59_round_trip_iff : forall h order,
  (exists s, allow_from_headers (allow_apply h order) = Ok (Some s) /\ forall m, In m s <-> In m order) <-> order <> [].
Proof.
  intros h order. split.
  - intros (s & R & _) ->. unfold allow_from_headers, allow_apply in R. rewrite with_all_apply in R. discriminate R.
  - intros N. destruct (C59_round_trip_partial h order N) as (s & R & _ & I). now exists s.
Qed.
Example C59_round_trip_iff_example :
  allow_from_headers (allow_apply [] []) = Err 500 /\
  exists s, allow_from_headers (allow_apply [] [M_Put; M_Post]) = Ok (Some s) /\ (forall m, In m s <-> In m [M_Put; M_Post]).
Proof. split; [vm_compute; reflexivity|]. apply C59_round_trip_iff. discriminate. Qed.
Print Assumptions C59_round_trip_iff.

(** ** C60 *)
(** A policy comes back exactly when it leaves sub-domains out and its age is in whole seconds. *)
Theorem C60_round_trip_iff : forall h s, secs (max_age s) <= u64_max ->
  (hsts_from_headers (hsts_apply h s) = Ok (Some s) <-> include_subdomains s = false /\ nanos (max_age s) = 0).
Proof.
  intros h s L. rewrite C60_reads_back_partial by exact L. destruct s as [[a b] i p]. cbn. split.
  - intros R. injection R as R1 R2. now subst.
  - intros [-> ->]. reflexivity.
Qed.
Example C60_round_trip_iff_example :
  hsts_from_headers (hsts_apply [] (Hsts (from_secs 5) false true)) = Ok (Some (Hsts (from_secs 5) false true)) /\
  hsts_from_headers (hsts_apply [] (Hsts (from_secs 5) true true)) = Ok (Some (Hsts (from_secs 5) false true)).
Proof. split; vm_compute; reflexivity. Qed.
Print Assumptions C60_round_trip_iff.
