(** C106: a validator that a server sends and a client sends back is recognised: ETag in If-Match and If-None-Match, Last-Modified in
    If-Modified-Since and If-Unmodified-Since.  The preconditions are evaluated as RFC 9110, section 13.1, says. *)
From Coq Require Import ZifyBool ZifyNat ZifyN Lia.
From Verif Require Import Base BaseFacts Headers HeadersFacts Typed TypedFacts Conditional ConditionalProps HttpDate Other OtherProps ExactProps.

(** ** RFC 9110 *)
(** Section 8.8.3.2: the two comparisons. *)
Definition strong_match (a b : etag) : Prop := opaque a = opaque b /\ is_weak a = false /\ is_weak b = false.
Definition weak_match (a b : etag) : Prop := opaque a = opaque b.
(** Sections 13.1.1 and 13.1.2: whether the precondition holds; [tags] and [star] are what the header lists, [current] the tag of the
    selected representation, if there is one. *)
Definition listed (matches : etag -> etag -> Prop) (tags : list etag) (star : bool) (current : option etag) : Prop :=
  exists c, current = Some c /\ (star = true \/ exists t, In t tags /\ matches t c).
Definition holds (k : cond) (tags : list etag) (star : bool) (current : option etag) : Prop :=
  match k with IfMatch => listed strong_match tags star current | IfNoneMatch => ~ listed weak_match tags star current end.

(** ** Tags *)
(** The text of the ETag header of a response. *)
Definition sent_tag (e : etag) (v : str) : Prop := exists h, h_get (etag_apply h e) ETAG = Some [v].
(** A tag the RFC allows, without a comma in it. *)
Definition plain_tag (e : etag) : Prop := Forall etagc (opaque e) /\ ~ In 44 (opaque e).
(** A client copies the texts it got into any number of header lines; inside a line a comma and any blanks stand between them. *)
Definition copied (groups : list (list (str * str))) (lines : list str) : Prop :=
  Forall (fun g => g <> [] /\ Forall (fun p => forallb is_ws (fst p) = true) g) groups /\ lines = map (fun g => join [44] (map (fun p => fst p ++ snd p) g)) groups.

Lemma sent_text : forall e v, sent_tag e v <-> v = etag_show e.
Proof.
  intros e v. unfold sent_tag, etag_apply. split.
  - intros (h & G). rewrite get_apply in G. congruence.
  - intros ->. exists []. apply get_apply.
Qed.
Theorem C106_tags_come_back : forall k h groups lines es, h_get h (cond_name k) = Some lines -> copied groups lines ->
  Forall2 (fun e p => sent_tag e (snd p)) es (concat groups) -> Forall plain_tag es ->
  cond_from_headers k h = Ok (Some (es, false)).
Proof.
  intros k h groups lines es G [GO ->] F P.
  assert (X : exists tg : list (list (str * etag)), groups = map (map (fun p => (fst p, etag_show (snd p)))) tg /\ es = map snd (concat tg)).
  { clear G GO P. revert es F. induction groups as [|g gs IH]; intros es F; cbn [concat] in F.
    - inversion F. exists []. auto.
    - apply Forall2_app_inv_r in F as (e1 & e2 & F1 & F2 & ->). destruct (IH _ F2) as (tg & E1 & E2).
      exists (combine (map fst g) e1 :: tg). cbn [map concat]. rewrite map_app, <- E2, <- E1. clear - F1.
      assert (K : map (fun p => (fst p, etag_show (snd p))) (combine (map fst g) e1) = g /\ map snd (combine (map fst g) e1) = e1).
      { induction F1 as [|e [a v] e1 g S F1 [A B]]; [split; reflexivity|]. cbn [map combine fst snd]. apply sent_text in S. cbn [snd] in S. subst v. rewrite A, B. auto. }
      destruct K as [K1 K2]. rewrite K1, K2. auto. }
  destruct X as (tg & -> & ->).
  set (ls := map (map (fun p : str * etag => (fst p, Some (snd p) : item, [] : str))) tg).
  assert (E : map (fun g => join [44] (map (fun p : str * str => fst p ++ snd p) g)) (map (map (fun p : str * etag => (fst p, etag_show (snd p)))) tg) = map laid_out ls).
  { unfold ls. rewrite !map_map. apply map_ext. intros g. unfold laid_out. rewrite !map_map. f_equal. apply map_ext. intros [a e]. cbn [fst snd item_text]. now rewrite app_nil_r. }
  assert (G' : h_get h (cond_name k) = Some (map laid_out ls)) by (rewrite <- E; exact G). assert (L : Forall layout_ok ls).
  { apply Forall_forall. intros l I. unfold ls in I. apply in_map_iff in I as (g & <- & I). rewrite Forall_forall in GO. specialize (GO (map (fun p => (fst p, etag_show (snd p))) g) (in_map _ _ _ I)).
    destruct GO as [N W]. split; [intros Z; apply N; destruct g; [reflexivity|discriminate Z]|]. apply Forall_forall. intros x J. apply in_map_iff in J as ([a e] & <- & J). cbn [fst snd].
    rewrite Forall_forall in W, P. split; [exact (W (a, etag_show e) (in_map (fun p => (fst p, etag_show (snd p))) _ _ J))|]. split; [reflexivity|].
    destruct (P e) as [V C]; [apply in_map_iff; exists (a, e); split; [reflexivity|apply in_concat; eauto]|]. split; assumption. }
  rewrite (C40_any_layout k h ls G' L). do 2 f_equal. unfold ls.
  assert (M : map (fun '(_, i, _) => i) (concat (map (map (fun p : str * etag => (fst p, Some (snd p) : item, [] : str))) tg)) = map Some (map snd (concat tg))).
  { rewrite <- concat_map, !map_map. apply map_ext. intros [a e]. reflexivity. }
  rewrite M. f_equal; generalize (map snd (concat tg)); induction l as [|e l IH]; cbn [map flat_map existsb app orb]; congruence.
Qed.

(** So the server decides as the RFC says about the tags that it sent: with If-None-Match the request is answered with 304 exactly if the
    current tag is one of them, weak or not; with If-Match it goes ahead exactly if the current tag is one of them and both are strong. *)
Theorem C106_tags_decide : forall k h groups lines es current, h_get h (cond_name k) = Some lines -> copied groups lines ->
  Forall2 (fun e p => sent_tag e (snd p)) es (concat groups) -> Forall plain_tag es ->
  exists tags star, cond_from_headers k h = Ok (Some (tags, star)) /\
    (holds k tags star (Some current) <->
     match k with
     | IfNoneMatch => forall e, In e es -> opaque e <> opaque current
     | IfMatch => In current es /\ is_strong current = true
     end).
Proof.
  intros k h groups lines es current G C F P. exists es, false. split; [exact (C106_tags_come_back k h groups lines es G C F P)|]. destruct k; cbn [holds]; unfold listed, strong_match, weak_match.
  - split.
    + intros (c & E & [E'|(t & I & O & A & B)]); [discriminate E'|]. injection E as <-. destruct t; [|discriminate A]. destruct current; [|discriminate B]. cbn in O. subst. auto.
    + intros [I S]. exists current. split; [reflexivity|]. right. exists current. destruct current; [|discriminate S]. auto.
  - split.
    + intros N e I E. apply N. exists current. split; [reflexivity|]. right. eauto.
    + intros N (c & E & [E'|(t & I & O)]); [discriminate E'|]. injection E as <-. exact (N t I O).
Qed.
(** One tag copied as it is: recognised exactly if its characters are legal and none is a comma. *)
Theorem C106_one_tag : forall k e, (forall h v, h_get h (cond_name k) = Some [v] -> sent_tag e v -> cond_from_headers k h = Ok (Some ([e], false))) <-> plain_tag e.
Proof.
  intros k e. split.
  - intros H. assert (S : survives (cond_from_headers k) (cond_apply k) ([e], false)).
    { intros h. apply (H _ (etag_show e)); [unfold cond_apply; rewrite get_apply; reflexivity|apply sent_text; reflexivity]. }
    apply C84_if_match in S as [S _]. inv S. assumption.
  - intros P h v G S. apply (C106_tags_come_back k h [[([], v)]] [v] [e] G); [|constructor; [exact S|constructor]|constructor; [exact P|constructor]].
    split; [|reflexivity]. constructor; [|constructor]. split; [discriminate|]. constructor; [reflexivity|constructor].
Qed.
(** A tag with a comma, though legal, is never recognised: the server answers 400 to its own tag. *)
Theorem C106_comma_refuted : exists e, Forall etagc (opaque e) /\ forall k h v, h_get h (cond_name k) = Some [v] -> sent_tag e v -> cond_from_headers k h = Err 400.
Proof.
  exists (Strong (lit "a,b")). split; [apply etag_chars_spec; reflexivity|]. intros k h v G S. apply sent_text in S. subst v.
  unfold cond_from_headers, with_all. rewrite G. vm_compute. reflexivity.
Qed.
(** ** Comparing with [==] *)
(** src/conditional/etag.rs:33, derived: the same kind and the same text. *)
Definition etag_eqb (a b : etag) : bool :=
  match a, b with Strong s, Strong t => seqb s t | Weak s, Weak t => seqb s t | _, _ => false end.
(** Equal tags match weakly, and tags that match strongly are equal. *)
Theorem C106_equality_partial : forall a b, (etag_eqb a b = true -> weak_match a b) /\ (strong_match a b -> etag_eqb a b = true) /\
  (is_strong a = true -> is_strong b = true -> (etag_eqb a b = true <-> strong_match a b) /\ (etag_eqb a b = true <-> weak_match a b)).
Proof.
  intros [s|s] [t|t]; unfold strong_match, weak_match; cbn; rewrite ?seqb_eq; intuition (try congruence).
Qed.
(** But [==] is neither comparison: it calls two weak tags equal, which the strong comparison never does, and a weak tag different from the
    strong tag of the same text, which the weak comparison does not. *)
Theorem C106_equality_refuted : exists a b c, etag_eqb a a = true /\ ~ strong_match a a /\ weak_match b c /\ etag_eqb b c = false.
Proof.
  exists (Weak (lit "x")), (Weak (lit "x")), (Strong (lit "x")). repeat split; try discriminate. intros (_ & E & _). discriminate E.
Qed.
Example C106_tags_example :
  let h := [(lit "if-none-match", [lit """a"",  W/""b"""; lit " ""c"""])] in
  cond_from_headers IfNoneMatch h = Ok (Some ([Strong (lit "a"); Weak (lit "b"); Strong (lit "c")], false)) /\
  copied [[([], lit """a"""); (lit "  ", lit "W/""b""")]; [(lit " ", lit """c""")]] [lit """a"",  W/""b"""; lit " ""c"""] /\
  sent_tag (Weak (lit "b")) (lit "W/""b""") /\ plain_tag (Weak (lit "b")) /\ plain_tag (Strong []).
Proof.
  cbn zeta. split; [vm_compute; reflexivity|]. split.
  - split; [|reflexivity]. repeat constructor; discriminate.
  - split; [apply sent_text; reflexivity|]. split; split; try (apply etag_chars_spec; reflexivity); vm_compute; intuition discriminate.
Qed.
Print Assumptions C106_tags_come_back.
Print Assumptions C106_tags_decide.
Print Assumptions C106_one_tag.
Print Assumptions C106_comma_refuted.
Print Assumptions C106_equality_partial.
Print Assumptions C106_equality_refuted.

(** ** Dates *)
(** A server sends the instant of the last change; a client copies the text into its request. *)
Theorem C106_dates_come_back : forall sent asked h q changed, in_range changed -> exists h' v, date_apply sent h changed = Ok h' /\ h_get h' (date_name sent) = Some [v] /\
  date_from_headers asked (apply_value q (date_name asked) v) = Ok (Some (whole_seconds changed)) /\
  (whole_seconds changed <= changed < whole_seconds changed + 1000000000)%Z.
Proof.
  intros sent asked h q t R. destruct (C72_round_trip asked q t R) as (h1 & A & B). unfold date_apply in *.
  destruct (fmt_http_date t) as [v|e|] eqn:F; cbn [bind] in A; try discriminate A. injection A as <-.
  exists (apply_value h (date_name sent) v), v. cbn [bind]. split; [reflexivity|]. split; [apply get_apply|]. split; [exact B|].
  unfold whole_seconds. assert (D := Z.div_mod t 1000000000). assert (M := Z.mod_pos_bound t 1000000000). lia.
Qed.
(** RFC 9110, sections 13.1.3 and 13.1.4, on instants of whole seconds: unchanged if the last change is no later than what the client names.
    A later change in another second is noticed, and without a change there is none. *)
Theorem C106_dates_decide : forall asked q changed later, in_range changed -> (changed <= later)%Z ->
  exists v since, fmt_http_date changed = Ok v /\ date_from_headers asked (apply_value q (date_name asked) v) = Ok (Some since) /\
    ((whole_seconds later <= since)%Z <-> (later / 1000000000 = changed / 1000000000)%Z) /\ (whole_seconds changed <= since)%Z.
Proof.
  intros asked q t u R L. destruct (C106_dates_come_back LastModified asked q q t R) as (h' & v & A & G & B & C). exists v, (whole_seconds t).
  unfold date_apply in A. destruct (fmt_http_date t) as [w|e|]; cbn [bind] in A; try discriminate A. injection A as <-. rewrite get_apply in G.
  assert (w = v) as -> by congruence. split; [reflexivity|]. split; [exact B|]. split; [|lia]. unfold whole_seconds.
  assert (D := Z.div_le_mono t u 1000000000 ltac:(lia) L). lia.
Qed.
(** A server that compares with the instant it has, to the nanosecond, thinks that everything has changed that did not change on a full second. *)
Theorem C106_subsecond_refuted : exists changed v since, in_range changed /\ fmt_http_date changed = Ok v /\
  date_from_headers IfModifiedSince (apply_value [] (date_name IfModifiedSince) v) = Ok (Some since) /\ (since < changed)%Z.
Proof.
  exists 1500000000%Z, (lit "Thu, 01 Jan 1970 00:00:01 GMT"), 1000000000%Z. split; [unfold in_range; lia|]. split; [vm_compute; reflexivity|]. split; [vm_compute; reflexivity|lia].
Qed.
Theorem C106_full_seconds : forall asked q changed, in_range changed -> exists v since, fmt_http_date changed = Ok v /\
  date_from_headers asked (apply_value q (date_name asked) v) = Ok (Some since) /\ (since = changed <-> (changed mod 1000000000 = 0)%Z).
Proof.
  intros asked q t R. destruct (C106_dates_come_back LastModified asked q q t R) as (h' & v & A & G & B & C). exists v, (whole_seconds t).
  unfold date_apply in A. destruct (fmt_http_date t) as [w|e|]; cbn [bind] in A; try discriminate A. injection A as <-. rewrite get_apply in G.
  assert (w = v) as -> by congruence. split; [reflexivity|]. split; [exact B|]. unfold whole_seconds. assert (D := Z.div_mod t 1000000000). lia.
Qed.
Example C106_dates_example : in_range 784111777000000000%Z /\ fmt_http_date 784111777000000000%Z = Ok (lit "Sun, 06 Nov 1994 08:49:37 GMT") /\
  date_from_headers IfUnmodifiedSince [(lit "if-unmodified-since", [lit "Sun, 06 Nov 1994 08:49:37 GMT"])] = Ok (Some 784111777000000000%Z).
Proof. split; [unfold in_range; lia|]. split; vm_compute; reflexivity. Qed.
Print Assumptions C106_dates_come_back.
Print Assumptions C106_dates_decide.
Print Assumptions C106_subsecond_refuted.
Print Assumptions C106_full_seconds.
