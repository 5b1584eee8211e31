(** C39 ETag, C40 If-Match and If-None-Match, C41 Vary. *)
From Verif Require Import Base BaseFacts Headers HeadersFacts Typed TypedFacts Conditional.
From Coq Require Import ZifyBool ZifyNat ZifyN.

(** RFC 7232 section 2.3: entity-tag = [ "W/" ] DQUOTE *etagc DQUOTE, etagc = %x21 / %x23-7E / obs-text.
    A character outside ASCII is a sequence of obs-text bytes. *)
Definition etagc (c : N) : Prop := c = 33 \/ 35 <= c <= 126 \/ 128 <= c.
Definition entity_tag (weak : bool) (tag s : str) : Prop :=
  Forall etagc tag /\ s = (if weak then [87; 47] else []) ++ [34] ++ tag ++ [34].

Definition opaque (e : etag) : str := match e with Strong s | Weak s => s end.
Definition valid_etag (e : etag) : Prop := Forall etagc (opaque e).

Lemma etag_char_spec : forall c, etag_char c = true <-> etagc c.
Proof. intros c. unfold etag_char, etagc. lia. Qed.
Lemma etag_chars_spec : forall s, forallb etag_char s = true <-> Forall etagc s.
Proof. intros s. rewrite forallb_forall, Forall_forall. split; intros H c Hc; apply etag_char_spec, H, Hc. Qed.

Lemma from_str_quoted : forall (weak : bool) t,
  etag_from_str ((if weak then [87; 47] else []) ++ [34] ++ t ++ [34])
  = if forallb etag_char t then Ok (if weak then Weak t else Strong t) else Err 400.
Proof.
  intros weak t. unfold etag_from_str. change (lit "W/") with [87; 47].
  assert (E : strip_prefix [87; 47] ((if weak then [87; 47] else []) ++ [34] ++ t ++ [34])
              = if weak then Some ([34] ++ t ++ [34]) else None) by (destruct weak; reflexivity).
  rewrite E. destruct weak.
  - rewrite (strip_prefix_app [34] (t ++ [34])), (strip_suffix_app [34] t). reflexivity.
  - cbn [app]. change (34 :: t ++ [34]) with ([34] ++ (t ++ [34])).
    rewrite (strip_prefix_app [34] (t ++ [34])), (strip_suffix_app [34] t). reflexivity.
Qed.

Lemma from_str_inv : forall s, (exists (weak : bool) t, s = (if weak then [87; 47] else []) ++ [34] ++ t ++ [34])
  \/ etag_from_str s = Err 400.
Proof.
  intros s. unfold etag_from_str. change (lit "W/") with [87; 47].
  destruct (strip_prefix [87; 47] s) as [r|] eqn:E.
  - apply strip_prefix_some in E. subst s. destruct (strip_prefix [34] r) as [q|] eqn:F; [|now right].
    apply strip_prefix_some in F. subst r. destruct (strip_suffix [34] q) as [t|] eqn:G; [|now right].
    apply strip_suffix_some in G. subst q. left. exists true, t. reflexivity.
  - destruct (strip_prefix [34] s) as [q|] eqn:F; [|now right].
    apply strip_prefix_some in F. subst s. destruct (strip_suffix [34] q) as [t|] eqn:G; [|now right].
    apply strip_suffix_some in G. subst q. left. exists false, t. reflexivity.
Qed.

(** Parsing accepts exactly the RFC grammar, with the right strength and tag. *)
Theorem C39_grammar : forall s (weak : bool) tag,
  etag_from_str s = Ok (if weak then Weak tag else Strong tag) <-> entity_tag weak tag s.
Proof.
  intros s weak tag. split.
  - intros H. destruct (from_str_inv s) as [(w & t & ->)|E]; [|congruence].
    rewrite from_str_quoted in H. destruct (forallb etag_char t) eqn:F; [|discriminate].
    apply etag_chars_spec in F. split.
    + destruct weak, w; inv H; exact F.
    + destruct weak, w; inv H; reflexivity.
  - intros [F ->]. rewrite from_str_quoted. apply etag_chars_spec in F. now rewrite F.
Qed.
(** Everything else is refused with 400; nothing panics. *)
Theorem C39_refused_is_400 : forall s,
  (forall weak tag, ~ entity_tag weak tag s) -> etag_from_str s = Err 400.
Proof.
  intros s H. destruct (from_str_inv s) as [(w & t & ->)|E]; [|exact E].
  rewrite from_str_quoted. destruct (forallb etag_char t) eqn:F; [|reflexivity].
  apply etag_chars_spec in F. elim (H w t). split; [exact F|reflexivity].
Qed.
Example C39_grammar_example :
  etag_from_str (lit "W/""a,b""") = Ok (Weak (lit "a,b")) /\ etag_from_str (lit "w/""a""") = Err 400 /\
  etag_from_str (lit """") = Err 400 /\ etag_from_str (lit """a b""") = Err 400 /\
  etag_from_str (lit """""") = Ok (Strong []).
Proof. vm_compute. auto. Qed.
Print Assumptions C39_grammar.
Print Assumptions C39_refused_is_400.

Lemma etag_show_form : forall e,
  etag_show e = (if is_weak e then [87; 47] else []) ++ [34] ++ opaque e ++ [34].
Proof. destruct e; reflexivity. Qed.

(** Strength shows in the text: a weak tag starts with [W/], a strong one with its quote; each tag is one or the other. *)
Theorem C39_strength : forall e,
  (is_weak e = true <-> exists r, etag_show e = lit "W/" ++ r) /\ (is_strong e = true <-> exists r, etag_show e = lit """" ++ r) /\ is_strong e = negb (is_weak e).
Proof.
  intros [s|s]; cbn [is_weak is_strong etag_show]; (split; [|split]); try reflexivity; split; intros H; try discriminate H; try reflexivity;
    try (eexists; reflexivity); destruct H as (r & H); discriminate H.
Qed.
Print Assumptions C39_strength.
(** Writing an ETag into any header map and reading it back: the same ETag when the tag has only characters
    allowed by the RFC, and otherwise a 400 error (never another ETag). *)
Theorem C39_round_trip_partial : forall h e, valid_etag e -> etag_from_headers (etag_apply h e) = Ok (Some e).
Proof.
  intros h e V. unfold etag_from_headers, etag_apply. rewrite with_last_apply, etag_show_form, from_str_quoted.
  apply etag_chars_spec in V. rewrite V. destruct e; reflexivity.
Qed.
Theorem C39_invalid_tag_never_read_as_another : forall h e, ~ valid_etag e ->
  etag_from_headers (etag_apply h e) = Err 400.
Proof.
  intros h e V. unfold etag_from_headers, etag_apply. rewrite with_last_apply, etag_show_form, from_str_quoted.
  destruct (forallb etag_char (opaque e)) eqn:F; [|reflexivity]. apply etag_chars_spec in F. contradiction.
Qed.
(** [ETag::new] does not check the tag: a tag with a space, a quote or a line break is written out as it is. *)
Theorem C39_constructor_unchecked_refuted : exists e,
  etag_new false false (lit "a b") = Ok e /\ etag_from_headers (etag_apply [] e) = Err 400 /\
  exists e', etag_new true true (lit "x"" , ""y") = Ok e' /\ etag_show e' = lit "W/""x"" , ""y""" /\
             etag_from_headers (etag_apply [] e') = Err 400.
Proof. eexists. split; [reflexivity|]. split; [vm_compute; reflexivity|]. eexists. split; [reflexivity|]. split; vm_compute; reflexivity. Qed.
(** With debug assertions on, a tag with a backslash panics in the constructor although the RFC allows it and
    the parser accepts it. *)
Theorem C39_backslash_panics_refuted : exists s,
  etag_new true false s = Panic /\ Forall etagc s /\ etag_from_str ([34] ++ s ++ [34]) = Ok (Strong s).
Proof.
  exists [97; 92; 98]. split; [reflexivity|]. split; [|vm_compute; reflexivity].
  apply etag_chars_spec. reflexivity.
Qed.
Example C39_round_trip_example :
  etag_from_headers (etag_apply [(lit "etag", [lit "x"; lit "y"])] (Weak (lit "0xcafe"))) = Ok (Some (Weak (lit "0xcafe"))).
Proof. vm_compute. reflexivity. Qed.
Print Assumptions C39_round_trip_partial.
Print Assumptions C39_invalid_tag_never_read_as_another.
Print Assumptions C39_constructor_unchecked_refuted.
Print Assumptions C39_backslash_panics_refuted.

(** ** C40 *)
Lemma quoted_no_edge : forall e, no_edge is_ws (etag_show e) = true.
Proof.
  intros e. rewrite etag_show_form. unfold no_edge. apply andb_true_iff. split.
  - destruct e; reflexivity.
  - rewrite !rev_app_distr. reflexivity.
Qed.
Lemma show_no_comma : forall e, no_char 44 (etag_show e) = no_char 44 (opaque e).
Proof. intros e. rewrite etag_show_form, !no_char_app. change (no_char 44 [34]) with true. rewrite andb_true_r. destruct e; reflexivity. Qed.
Lemma show_not_star : forall e, etag_show e <> lit "*".
Proof. destruct e; discriminate. Qed.
Lemma show_parse : forall e, valid_etag e -> etag_from_str (etag_show e) = Ok e.
Proof.
  intros e V. rewrite etag_show_form, from_str_quoted. apply etag_chars_spec in V. rewrite V. destruct e; reflexivity.
Qed.

Definition no_comma (s : str) : Prop := ~ In 44 s.
Lemma no_comma_spec : forall s, no_char 44 s = true <-> no_comma s.
Proof.
  intros s. unfold no_char, no_comma. rewrite forallb_forall. split.
  - intros H I. specialize (H 44 I). discriminate.
  - intros H c Hc. destruct (N.eqb_spec c 44); [subst; contradiction|reflexivity].
Qed.

(** Every list of valid ETags without a comma in them, together with any wildcard flag, comes back unchanged from
    any header map, unless there is nothing to write at all. *)
Theorem C40_round_trip_partial : forall k h (l : list etag) (w : bool),
  Forall (fun e => valid_etag e /\ no_comma (opaque e)) l -> l <> [] \/ w = true ->
  cond_from_headers k (cond_apply k h (l, w)) = Ok (Some (l, w)).
Proof.
  intros k h l w H N. unfold cond_from_headers, cond_apply. rewrite with_all_apply. unfold cond_value. cbn [fst snd].
  rewrite (read_list_value (lit "*") etag_from_str etag_show); [reflexivity| | |exact N].
  - split; [reflexivity|discriminate].
  - eapply Forall_impl; [|exact H]. intros e [V C]. repeat apply conj.
    + unfold clean. rewrite show_no_comma, quoted_no_edge, (proj2 (no_comma_spec _) C). reflexivity.
    + destruct e; discriminate.
    + apply show_not_star.
    + now apply show_parse.
Qed.
Example C40_round_trip_example :
  cond_value ([Strong (lit "a"); Weak (lit "b c"); Weak (lit "d")], true) = lit """a"", W/""b c"", W/""d"", *" /\
  cond_from_headers IfNoneMatch (cond_apply IfNoneMatch [(lit "if-none-match", [lit "*"])] ([Strong (lit "a"); Weak (lit "d")], true))
  = Ok (Some ([Strong (lit "a"); Weak (lit "d")], true)).
Proof. vm_compute. auto. Qed.
Print Assumptions C40_round_trip_partial.

(** Other writers: any number of header lines, any white space around the commas, wildcards anywhere. *)
Definition item := option etag.
Definition item_text (i : item) : str := match i with Some e => etag_show e | None => lit "*" end.
Definition laid_out (l : list (str * item * str)) : str :=
  join [44] (map (fun '(a, i, b) => a ++ item_text i ++ b) l).
Definition layout_ok (l : list (str * item * str)) : Prop :=
  l <> [] /\ Forall (fun '(a, i, b) => forallb is_ws a = true /\ forallb is_ws b = true /\
    match i with Some e => valid_etag e /\ no_comma (opaque e) | None => True end) l.
Theorem C40_any_layout : forall k h (ls : list (list (str * item * str))),
  h_get h (cond_name k) = Some (map laid_out ls) -> Forall layout_ok ls ->
  let items := map (fun '(_, i, _) => i) (concat ls) in
  cond_from_headers k h =
  Ok (Some (flat_map (fun i : item => match i with Some e => [e] | None => [] end) items,
            existsb (fun i : item => match i with None => true | _ => false end) items)).
Proof.
  intros k h ls G H items. unfold cond_from_headers, with_all. rewrite G.
  set (f := fun p : str * item * str => let '(a, i, b) := p in (a, item_text i, b)).
  assert (E : map laid_out ls = map (fun l => join [44] (map padded l)) (map (map f) ls)).
  { rewrite map_map. apply map_ext. intros l. unfold laid_out. f_equal. rewrite map_map. apply map_ext.
    intros [[a i] b]. reflexivity. }
  rewrite E. rewrite (read_parts_ext _ _ _ _ (map item_text items)).
  - unfold items. erewrite (map_ext item_text (fun o : item => match o with None => lit "*" | Some x => etag_show x end)) by (intros [e|]; reflexivity).
    rewrite (read_parts_cases etag (lit "*") etag_from_str etag_show); [reflexivity|reflexivity|].
    apply Forall_forall. intros i Hi. apply in_map_iff in Hi as ([[a i'] b] & <- & Hi). destruct i' as [e|]; [|exact I].
    apply in_concat in Hi as (l & Hl & Hi). rewrite Forall_forall in H. destruct (H l Hl) as [_ F]. rewrite Forall_forall in F.
    destruct (F _ Hi) as (_ & _ & V & _). repeat apply conj.
    + apply trim_id, quoted_no_edge.
    + apply show_not_star.
    + now apply show_parse.
  - rewrite comma_parts_padded.
    + rewrite <- concat_map, map_map. unfold items.
      assert (C : Forall (fun '(a, i, b) => match i with Some e => valid_etag e /\ no_comma (opaque e) | None => True end) (concat ls)).
      { apply Forall_forall. intros [[a i] b] Hp. apply in_concat in Hp as (l & Hl & Hi). rewrite Forall_forall in H.
        destruct (H l Hl) as [_ F]. rewrite Forall_forall in F. destruct (F _ Hi) as (_ & _ & V). exact V. }
      rewrite !map_map. apply map_ext. intros [[a i] b]. cbn [f core]. symmetry. apply trim_id.
      destruct i as [e|]; [apply quoted_no_edge|reflexivity].
    + apply Forall_forall. intros l' Hl'. apply in_map_iff in Hl' as (l & <- & Hl). rewrite Forall_forall in H.
      destruct (H l Hl) as [Nn F]. split; [destruct l; [congruence|discriminate]|].
      rewrite forallb_forall. intros p Hp. apply in_map_iff in Hp as ([[a i] b] & <- & Hi). rewrite Forall_forall in F.
      destruct (F _ Hi) as (A1 & A2 & V). unfold f, pad_ok. rewrite A1, A2. cbn [andb].
      destruct i as [e|]; [|reflexivity]. unfold item_text.
      rewrite show_no_comma, quoted_no_edge, (proj2 (no_comma_spec _) (proj2 V)). reflexivity.
Qed.
Example C40_any_layout_example :
  cond_from_headers IfMatch [(lit "if-match", [lit "  ""a"" ,W/""b"""; lit "*, ""c""  "])]
  = Ok (Some ([Strong (lit "a"); Weak (lit "b"); Strong (lit "c")], true)).
Proof. vm_compute. reflexivity. Qed.
Print Assumptions C40_any_layout.

Lemma etag_outcome : forall s, etag_from_str s <> Panic /\ forall e, etag_from_str s = Err e -> e = 400.
Proof.
  intros s. destruct (from_str_inv s) as [(w & t & ->)|E].
  - rewrite from_str_quoted. destruct (forallb etag_char t); split; try discriminate. intros e H. now inv H.
  - rewrite E. split; [discriminate|]. intros e H. now inv H.
Qed.
(** Reading any header map gives a list or a 400 error. *)
Theorem C40_total : forall k h,
  (exists o, cond_from_headers k h = Ok o) \/ cond_from_headers k h = Err 400.
Proof.
  intros k h. unfold cond_from_headers, with_all. destruct (h_get h (cond_name k)) as [vs|]; [|left; eauto].
  generalize (comma_parts vs) as ps. intros ps.
  assert (P : (exists o, read_parts (lit "*") etag_from_str ps = Ok o) \/ read_parts (lit "*") etag_from_str ps = Err 400).
  { induction ps as [|p ps IH]; [left; eexists; reflexivity|]. cbn [read_parts].
    destruct (seqb (trim p) (lit "*")).
    - destruct IH as [[[x y] IH]|IH]; rewrite IH; cbn [bind]; [left; eauto|now right].
    - destruct (etag_from_str (trim p)) as [e|e|] eqn:E; cbn [bind].
      + destruct IH as [[[x y] IH]|IH]; rewrite IH; cbn [bind]; [left; eauto|now right].
      + right. f_equal. exact (proj2 (etag_outcome _) _ E).
      + now elim (proj1 (etag_outcome _) E). }
  destruct P as [[o P]|P]; rewrite P; cbn [bind]; [left; eauto|now right].
Qed.
Print Assumptions C40_total.

(** A comma is a legal ETag character, but a list with such a tag in it can never be read back. *)
Lemma split_join_any : forall d l, l <> [] -> split d (join [d] l) = flat_map (split d) l.
Proof.
  intros d l N. induction l as [|x l IH]; [congruence|]. destruct l as [|y l]; [cbn; now rewrite app_nil_r|].
  change (join [d] (x :: y :: l)) with (x ++ [d] ++ join [d] (y :: l)).
  change (flat_map (split d) (x :: y :: l)) with (split d x ++ flat_map (split d) (y :: l)). rewrite <- IH by discriminate.
  clear. induction x as [|c x IH].
  - cbn [app split]. rewrite N.eqb_refl. reflexivity.
  - cbn [app]. destruct (c =? d) eqn:E.
    + cbn [split]. rewrite E. cbn [app]. cbn [app] in IH. now rewrite IH.
    + rewrite !split_cons_other by exact E. cbn [app] in IH. rewrite IH.
      destruct (split d x) eqn:F; [now apply split_nonempty in F|]. reflexivity.
Qed.
Lemma read_parts_bad : forall (A : Type) star (parse : str -> outcome A) ps p,
  In p ps -> trim p <> star -> (forall a, parse (trim p) <> Ok a) -> forall r, read_parts star parse ps <> Ok r.
Proof.
  intros A star parse ps p Hp Hs Hb. induction ps as [|q ps IH]; [destruct Hp|]. intros r. cbn [read_parts].
  destruct Hp as [->|Hp].
  - destruct (seqb_spec (trim p) star); [contradiction|]. destruct (parse (trim p)); [now elim (Hb a)|discriminate|discriminate].
  - specialize (IH Hp). destruct (seqb (trim q) star).
    + destruct (read_parts star parse ps); [now elim (IH a)|discriminate|discriminate].
    + destruct (parse (trim q)); [|discriminate|discriminate]. cbn [bind].
      destruct (read_parts star parse ps); [now elim (IH a0)|discriminate|discriminate].
Qed.
(** The text before the first comma of such a tag has exactly one quote in it. *)
Definition quotes (s : str) : nat := count_occ N.eq_dec s 34.
Lemma quotes_none : forall s, ~ In 34 s -> quotes s = 0%nat.
Proof. intros s. apply count_occ_not_In. Qed.
Lemma quotes_ws : forall s, forallb is_ws s = true -> quotes s = 0%nat.
Proof. intros s H. apply quotes_none. intros I. rewrite forallb_forall in H. specialize (H 34 I). discriminate. Qed.
Lemma quotes_trim : forall s, quotes (trim s) = quotes s.
Proof.
  intros s. destruct (trim_matches_decomp is_ws s) as (a & b & E & A & B). unfold quotes, trim.
  rewrite E at 2. rewrite !count_occ_app. fold (quotes a) (quotes b). rewrite (quotes_ws a A), (quotes_ws b B). lia.
Qed.
Lemma one_quote_bad : forall p, quotes p = 1%nat -> trim p <> lit "*" /\ forall a, etag_from_str (trim p) <> Ok a.
Proof.
  intros p H. rewrite <- quotes_trim in H. split.
  - intros E. rewrite E in H. discriminate H.
  - intros x E. assert (G := proj1 (C39_grammar (trim p) (is_weak x) (opaque x))).
    assert (F : entity_tag (is_weak x) (opaque x) (trim p)) by (apply G; rewrite E; destruct x; reflexivity).
    destruct F as [_ F]. rewrite F in H. unfold quotes in H. rewrite !count_occ_app in H.
    change (count_occ N.eq_dec [34] 34) with 1%nat in H. lia.
Qed.
Lemma first_piece : forall e, valid_etag e -> ~ no_comma (opaque e) ->
  exists p rest, split 44 (etag_show e) = p :: rest /\ quotes p = 1%nat.
Proof.
  intros e V C.
  destruct (split_once 44 (opaque e)) as [[a b]|] eqn:S.
  2: { elim C. apply no_comma_spec. now apply split_once_none. }
  apply split_once_some in S as [S Na].
  assert (E : etag_show e = ((if is_weak e then [87; 47] else []) ++ [34] ++ a) ++ 44 :: (b ++ [34])).
  { rewrite etag_show_form, S. repeat rewrite <- app_assoc. reflexivity. }
  rewrite E, split_app by (rewrite !no_char_app, Na; destruct (is_weak e); reflexivity).
  eexists. eexists. split; [reflexivity|].
  assert (Nq : ~ In 34 a).
  { intros I. unfold valid_etag in V. rewrite S, Forall_forall in V. specialize (V 34). unfold etagc in V.
    enough (X : 34 = 33 \/ 35 <= 34 <= 126 \/ 128 <= 34) by lia. apply V. apply in_or_app. now left. }
  unfold quotes. rewrite !count_occ_app. fold (quotes a). rewrite (quotes_none a Nq). destruct (is_weak e); reflexivity.
Qed.
Theorem C40_comma_always_fails : forall k h l w,
  Forall valid_etag l -> Exists (fun e => ~ no_comma (opaque e)) l ->
  cond_from_headers k (cond_apply k h (l, w)) = Err 400.
Proof.
  intros k h l w V C.
  destruct (C40_total k (cond_apply k h (l, w))) as [[o O]|O]; [exfalso|exact O].
  unfold cond_from_headers, cond_apply in O. rewrite with_all_apply in O. unfold cond_value in O. cbn [fst snd] in O.
  destruct (read_parts (lit "*") etag_from_str (comma_parts [list_value (lit "*") (map etag_show l) w])) as [r| |] eqn:R; try discriminate.
  rewrite Exists_exists in C. destruct C as (e & He & C). rewrite Forall_forall in V.
  destruct (first_piece e (V e He) C) as (p & rest & P & Q).
  assert (T : exists ts, list_value (lit "*") (map etag_show l) w = join (lit ", ") (map etag_show l ++ ts)).
  { unfold list_value. destruct w; [|exists []; now rewrite app_nil_r]. exists [lit "*"].
    destruct l as [|x l]; [destruct He|].
    assert (G : forall ts (t : str), join (lit ", ") ((t :: ts) ++ [lit "*"]) = join (lit ", ") (t :: ts) ++ lit ", " ++ lit "*").
    { clear. induction ts as [|u ts IH]; intros t; [reflexivity|].
      change (join (lit ", ") ((t :: u :: ts) ++ [lit "*"])) with (t ++ lit ", " ++ join (lit ", ") ((u :: ts) ++ [lit "*"])).
      rewrite IH. change (join (lit ", ") (t :: u :: ts)) with (t ++ lit ", " ++ join (lit ", ") (u :: ts)).
      now rewrite <- !app_assoc. }
    cbn [map]. rewrite G. destruct (join (lit ", ") (etag_show x :: map etag_show l)) eqn:J; [|reflexivity].
    destruct x, l; discriminate J. }
  destruct T as [ts T]. rewrite T in R.
  assert (B : exists q, In q (map trim (comma_parts [join (lit ", ") (map etag_show l ++ ts)])) /\ quotes q = 1%nat).
  { unfold comma_parts. cbn [flat_map]. rewrite app_nil_r. change c_comma with 44. rewrite pieces_trim.
    destruct (map etag_show l ++ ts) as [|t0 tr] eqn:L; [destruct l; [destruct He|discriminate]|].
    rewrite join_comma_space, split_join_any by discriminate. cbn [flat_map]. rewrite map_app.
    assert (I : In (etag_show e) (t0 :: tr)) by (rewrite <- L; apply in_or_app; left; now apply in_map).
    destruct I as [->|I].
    - exists (trim p). split; [|now rewrite quotes_trim]. apply in_or_app. left. rewrite P. now left.
    - exists (trim (32 :: p)). split; [|rewrite quotes_trim; exact Q]. apply in_or_app. right. apply in_map, in_flat_map.
      exists (32 :: etag_show e). split; [now apply in_map|].
      rewrite (split_cons_other 44 32 (etag_show e) eq_refl), P. now left. }
  destruct B as (q & Iq & Q1). apply in_map_iff in Iq as (q0 & <- & Iq). rewrite quotes_trim in Q1.
  destruct (one_quote_bad q0 Q1) as [X1 X2].
  now elim (read_parts_bad etag (lit "*") etag_from_str _ q0 Iq X1 X2 r).
Qed.
Theorem C40_comma_refuted : exists l,
  Forall valid_etag l /\ cond_from_headers IfMatch (cond_apply IfMatch [] (l, false)) = Err 400.
Proof. exists [Strong (lit "a,b")]. split; [constructor; [apply etag_chars_spec; reflexivity|constructor]|vm_compute; reflexivity]. Qed.
(** The constructor does not check tags, so one ETag can be read back as two. *)
Theorem C40_split_tag_refuted : exists s e,
  etag_new true false s = Ok e /\
  cond_from_headers IfMatch (cond_apply IfMatch [] ([e], false))
  = Ok (Some ([Strong (lit "a"); Strong (lit "b")], false)).
Proof. exists (lit "a"",""b"), (Strong (lit "a"",""b")). split; [vm_compute; reflexivity|vm_compute; reflexivity]. Qed.
Print Assumptions C40_comma_always_fails.
Example C40_comma_always_fails_case : cond_from_headers IfMatch (cond_apply IfMatch [] ([Strong (lit "a"); Weak (lit "b,c")], true)) = Err 400.
Proof.
  apply C40_comma_always_fails.
  - constructor; [|constructor; [|constructor]]; apply etag_chars_spec; vm_compute; reflexivity.
  - apply Exists_cons_tl, Exists_cons_hd. vm_compute. tauto.
Qed.
Print Assumptions C40_split_tag_refuted.
(** The empty list without wildcard is written as an empty value, which is a 400 error to read. *)
Theorem C40_empty_refuted : exists c, forall k, cond_value c = [] /\ cond_from_headers k (cond_apply k [] c) = Err 400.
Proof. exists ([], false). intros [|]; split; vm_compute; reflexivity. Qed.
Print Assumptions C40_comma_refuted.
Print Assumptions C40_empty_refuted.

(** ** C41 *)
Fixpoint vary_pushes (v : vary) (names : list str) : outcome vary :=
  match names with [] => Ok v | n :: ns => let* v' := vary_push v n in vary_pushes v' ns end.
(** A header name that is not taken apart by the list syntax: not empty, no comma, no white space at either end
    and not the wildcard itself.  Every RFC 7230 token other than "*" is one. *)
Definition name_ok (n : str) : Prop :=
  is_ascii n = true /\ n <> [] /\ no_comma n /\ trim n = n /\ n <> lit "*".

Lemma lower_comma : forall s, no_char 44 (to_lower s) = no_char 44 s.
Proof.
  induction s as [|c s IH]; [reflexivity|]. unfold no_char, to_lower in *. cbn [map forallb]. rewrite IH. f_equal. f_equal.
  unfold lower_char, is_upper. destruct ((65 <=? c) && (c <=? 90)) eqn:E; lia.
Qed.
Lemma lower_star : forall s, to_lower s = lit "*" -> s = lit "*".
Proof.
  intros [|c [|d s]] H; try discriminate. change (lit "*") with [42] in *. inv H. f_equal.
  revert H1. unfold lower_char, is_upper. destruct ((65 <=? c) && (c <=? 90)) eqn:E; lia.
Qed.

Lemma pushes_spec : forall names es w, Forall (fun n => is_ascii n = true) names ->
  vary_pushes (es, w) names = Ok (es ++ map to_lower names, w).
Proof.
  induction names as [|n ns IH]; intros es w H; inv H; cbn [vary_pushes map]; [now rewrite app_nil_r|].
  unfold vary_push, name_into, name_from_str. rewrite H2. cbn [bind fst snd]. rewrite IH by assumption.
  now rewrite <- app_assoc.
Qed.
Lemma vary_texts_ok : forall l, Forall (fun n => is_ascii n = true) l -> vary_texts l = Ok l.
Proof. intros l H. induction H as [|n l Hn H IH]; [reflexivity|]. cbn [vary_texts]. unfold value_from_str. rewrite Hn. cbn [bind]. now rewrite IH. Qed.

(** Pushing any such names (in any case), optionally setting the wildcard, writing the header and reading it
    back gives the same names, lower-cased and in order, and the same wildcard. *)
Theorem C41_round_trip_partial : forall h names w, Forall name_ok names -> names <> [] \/ w = true ->
  exists v h', vary_pushes ([], w) names = Ok v /\ vary_apply h v = Ok h' /\
               vary_from_headers h' = Ok (Some (map to_lower names, w)) /\ v = (map to_lower names, w).
Proof.
  intros h names w H N.
  assert (A : Forall (fun n => is_ascii n = true) names) by (eapply Forall_impl; [|exact H]; intros n X; apply X).
  assert (AL : Forall (fun n => is_ascii n = true) (map to_lower names)).
  { apply Forall_forall. intros n Hn. apply in_map_iff in Hn as (m & <- & Hm). rewrite Forall_forall in A.
    rewrite is_ascii_to_lower. now apply A. }
  exists (map to_lower names, w). eexists. split; [apply (pushes_spec names [] w A)|].
  unfold vary_apply, vary_value. cbn [fst snd]. rewrite (vary_texts_ok _ AL). cbn [bind]. split; [reflexivity|]. split; [|reflexivity].
  unfold vary_from_headers. rewrite with_all_apply. rewrite <- (map_id (map to_lower names)) at 1.
  rewrite (read_list_value (lit "*") (fun p => name_from_str (trim p)) (fun n => n)); [reflexivity| | |].
  - split; [reflexivity|discriminate].
  - apply Forall_forall. intros n Hn. apply in_map_iff in Hn as (m & <- & Hm). rewrite Forall_forall in H.
    destruct (H m Hm) as (X1 & X2 & X3 & X4 & X5).
    assert (T : trim (to_lower m) = to_lower m) by (rewrite <- lower_trim; now rewrite X4).
    repeat apply conj.
    + unfold clean. rewrite lower_comma, (proj2 (no_comma_spec _) X3), (no_edge_of_trim _ T). reflexivity.
    + destruct m; [congruence|discriminate].
    + intros X. apply lower_star in X. contradiction.
    + rewrite T. unfold name_from_str. rewrite is_ascii_to_lower, X1. f_equal. apply to_lower_idem.
  - destruct N as [N|N]; [left|now right]. destruct names; [congruence|discriminate].
Qed.
Example C41_round_trip_example : exists v h',
  vary_pushes ([], true) [lit "User-Agent"; lit "Accept-Encoding"] = Ok v /\ vary_apply [] v = Ok h' /\
  h_get h' (lit "vary") = Some [lit "user-agent, accept-encoding, *"] /\
  vary_from_headers h' = Ok (Some ([lit "user-agent"; lit "accept-encoding"], true)).
Proof. eexists. eexists. split; [vm_compute; reflexivity|]. split; [vm_compute; reflexivity|]. split; vm_compute; reflexivity. Qed.
Print Assumptions C41_round_trip_partial.

(** Reading any header map gives a list or the (500) error of an invalid name. *)
Theorem C41_total : forall h, vary_from_headers h <> Panic.
Proof.
  intros h. unfold vary_from_headers, with_all. destruct (h_get h VARY) as [vs|]; [|discriminate].
  assert (P := read_parts_np str (lit "*") (fun p => name_from_str (trim p)) (comma_parts vs)).
  destruct (read_parts (lit "*") (fun p => name_from_str (trim p)) (comma_parts vs)); try discriminate.
  elim P; [|reflexivity]. intros p. unfold name_from_str. destruct (is_ascii (trim p)); discriminate.
Qed.
Print Assumptions C41_total.

(** An empty list reads back as a list with one empty name; a name with a comma becomes two names; a name "*"
    becomes the wildcard. *)
Theorem C41_empty_refuted : exists h', vary_apply [] ([], false) = Ok h' /\ vary_from_headers h' = Ok (Some ([[]], false)).
Proof. eexists. split; [reflexivity|vm_compute; reflexivity]. Qed.
Theorem C41_comma_refuted : exists v h',
  vary_pushes ([], false) [lit "a,b"] = Ok v /\ length (fst v) = 1%nat /\ vary_apply [] v = Ok h' /\
  vary_from_headers h' = Ok (Some ([lit "a"; lit "b"], false)).
Proof. eexists. eexists. split; [reflexivity|]. split; [reflexivity|]. split; [reflexivity|vm_compute; reflexivity]. Qed.
Theorem C41_star_name_refuted : exists v h',
  vary_pushes ([], false) [lit "*"] = Ok v /\ v = ([lit "*"], false) /\ vary_apply [] v = Ok h' /\
  vary_from_headers h' = Ok (Some ([], true)).
Proof. eexists. eexists. split; [reflexivity|]. split; [reflexivity|]. split; [reflexivity|vm_compute; reflexivity]. Qed.
Print Assumptions C41_empty_refuted.
Print Assumptions C41_comma_refuted.
Print Assumptions C41_star_name_refuted.
