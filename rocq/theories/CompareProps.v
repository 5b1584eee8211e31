(** C92: comparing and converting values. *)
From Coq Require Import ZifyBool ZifyNat ZifyN.
From Verif Require Import Base BaseFacts Headers Typed TypedFacts Mime MimeFacts MimeProps Float FloatFacts StatusCode EnumProps
  Negotiate NegotiateFacts NegotiateProps Compare.

Lemma coding_eqb_iff : forall a b, coding_eqb a b = true <-> a = b.
Proof. intros [] []; cbn; split; congruence. Qed.
Lemma params_eqb_iff : forall a b, params_eqb a b = true <-> a = b.
Proof.
  induction a as [|[n v] a IH]; intros [|[m w] b]; cbn [params_eqb]; try (split; [discriminate|congruence]); [tauto|].
  rewrite !andb_true_iff, IH, !seqb_eq. split; [intros [[-> ->] ->]; reflexivity|]. intros X. inv X. auto.
Qed.
Lemma mime_eqb_iff : forall a b, mime_eqb a b = true <-> a = b.
Proof.
  intros [e b s u p] [e' b' s' u' p']. unfold mime_eqb. cbn [essence basetype subtype is_utf8 params].
  rewrite !andb_true_iff, params_eqb_iff, Bool.eqb_true_iff, !seqb_eq. split; [intros [[[[-> ->] ->] ->] ->]; reflexivity|].
  intros X. inv X. auto.
Qed.

(** ** The order of proposals *)
(** For all weights whatever: turning the comparison round turns the answer round, and less, equal and greater are
    each transitive. *)
Theorem C92_order : forall a b c o,
  weight_cmp b a = option_map CompOpp (weight_cmp a b) /\
  (weight_cmp a b = Some o -> weight_cmp b c = Some o -> weight_cmp a c = Some o).
Proof.
  intros a b c o. split.
  - destruct a as [[n|[]|[] v]|], b as [[m|[]|[] w]|]; cbn [weight_cmp fcmp option_map CompOpp]; try reflexivity;
    try (now rewrite N.compare_antisym).
    + destruct (v =? 0), (w =? 0); reflexivity.
    + destruct (v =? 0), (w =? 0); reflexivity.
  - destruct a as [[n|[]|[] v]|], b as [[m|[]|[] w]|], c as [[k|[]|[] x]|]; cbn [weight_cmp fcmp]; intros E F; try congruence;
    injection E as <-; injection F as F; f_equal;
    repeat match goal with |- context [N.compare ?p ?q] => destruct (N.compare_spec p q) | H : context [N.compare ?p ?q] |- _ => destruct (N.compare_spec p q)
      | |- context [?p =? 0] => destruct (N.eqb_spec p 0) | H : context [?p =? 0] |- _ => destruct (N.eqb_spec p 0) end;
    cbn [andb] in *; try discriminate; try lia; reflexivity.
Qed.
Print Assumptions C92_order.
(** Proposals that exist: the only ones that do not compare are two without a weight; one without a weight is below
    every one with a weight, even weight 0. *)
Theorem C92_compare : forall a b, good_weight (p_weight a) -> good_weight (p_weight b) ->
  (proposal_cmp a b = None <-> p_weight a = None /\ p_weight b = None) /\
  (p_weight a = None -> p_weight b <> None -> proposal_cmp a b = Some Lt).
Proof.
  intros [c w] [d x] G H. unfold proposal_cmp. cbn [p_weight] in *. destruct w as [w|], x as [x|]; cbn [weight_cmp].
  - destruct G as (v & -> & _), H as (v' & -> & _). cbn [fcmp]. split; [|discriminate]. split; [discriminate|]. intros [X _]. discriminate.
  - split; [|discriminate]. split; [discriminate|]. intros [X _]. discriminate.
  - split; [|reflexivity]. split; [discriminate|]. intros [_ X]. discriminate.
  - split; [tauto|]. intros _ X. congruence.
Qed.
Print Assumptions C92_compare.
(** Equality and order of proposals with the same coding and weights in the range agree when there is a weight. *)
Theorem C92_contract_partial : forall a b, p_coding a = p_coding b -> p_weight a <> None ->
  (proposal_eqb a b = true <-> proposal_cmp a b = Some Eq).
Proof.
  intros [c w] [d x] E N. cbn [p_coding p_weight] in *. subst d. unfold proposal_eqb, proposal_cmp. cbn [p_coding p_weight].
  assert (R : coding_eqb c c = true) by now apply coding_eqb_iff. rewrite R. cbn [andb]. destruct w as [w|]; [|congruence].
  destruct x as [x|]; cbn [weight_eqb weight_cmp]; [|split; discriminate]. unfold feq. destruct (fcmp w x) as [[]|]; split; congruence.
Qed.
Print Assumptions C92_contract_partial.
(** False of the code: the rule of [PartialOrd] that [a == b] exactly when they compare as equal.  A proposal without
    weight equals itself but does not compare with itself; different codings of the same weight compare as equal. *)
Theorem C92_contract_refuted : exists a b,
  proposal_eqb a a = true /\ proposal_cmp a a = None /\
  proposal_eqb b (Proposal Zstd (p_weight b)) = false /\ proposal_cmp b (Proposal Zstd (p_weight b)) = Some Eq.
Proof. exists (proposal_of Gzip), (Proposal Gzip (milli 500)). vm_compute. auto. Qed.
Print Assumptions C92_contract_refuted.
(** ** Proposals, codings and types *)
(** A proposal equals a coding when it proposes that coding, whatever the weight; writing the coding through the proposal
    keeps the weight; the coding of a made or converted proposal is the coding given. *)
Theorem C92_coding : forall p c w,
  (proposal_is p c = true <-> encoding_of p = c) /\
  proposal_is (proposal_assign p c) c = true /\ p_weight (proposal_assign p c) = p_weight p /\
  proposal_is (proposal_of c) c = true /\
  (forall q, proposal_new c w = Ok q -> proposal_is q c = true /\ p_weight q = w).
Proof.
  intros p c w. unfold proposal_is, encoding_of. rewrite coding_eqb_iff. split; [tauto|].
  cbn [proposal_assign p_coding p_weight proposal_of]. assert (R : coding_eqb c c = true) by now apply coding_eqb_iff. rewrite R.
  repeat split; auto; unfold proposal_new in H; destruct (weight_ok w); inv H; auto.
Qed.
Print Assumptions C92_coding.
(** A media type turned into a proposal has no weight and so ranks below every proposal that was made or parsed,
    including one with weight 0; [MediaTypeProposal::new] without a weight ranks at the top. *)
Theorem C92_media : forall m m' w p, media_new m' w = Ok p ->
  media_cmp (media_of m) p = Some Lt /\
  (forall q, media_new m None = Ok q -> media_cmp p q = Some Lt \/ media_cmp p q = Some Eq) /\
  (media_is p m = true <-> mp_type p = m) /\ mp_type p = m'.
Proof.
  intros m m' w p H. assert (G := H). unfold media_new in H. destruct (weight_ok w) eqn:K; [|discriminate]. apply weight_ok_spec in K.
  assert (W : exists v, mp_weight p = Some (Fin false v) /\ v <= 2 ^ 149).
  { inv H. cbn [mp_weight]. destruct w as [w|].
    - destruct K as (v & -> & L). eauto.
    - exists (one f32). split; [reflexivity|]. unfold one. cbn. lia. }
  destruct W as (v & Wp & L). unfold media_cmp. rewrite Wp. cbn [media_of mp_weight weight_cmp]. split; [reflexivity|]. split; [|split].
  - intros q Q. unfold media_new in Q. cbn [weight_ok] in Q. inv Q. cbn [mp_weight weight_cmp fcmp]. unfold one. change (unit f32) with 149.
    destruct (N.compare_spec v (2 ^ 149)); auto. lia.
  - unfold media_is. apply mime_eqb_iff.
  - now inv H.
Qed.
Print Assumptions C92_media.
(** ** Media types *)
(** Two parsed media types are equal exactly when they print alike; printing loses nothing. *)
Theorem C92_mime_text : forall s t a b, mime_parse s = Ok a -> mime_parse t = Ok b ->
  (mime_eqb a b = true <-> mime_format a = mime_format b).
Proof.
  intros s t a b A B. rewrite mime_eqb_iff. split; [congruence|]. intros E.
  apply C19_mime_round_trip in A, B. congruence.
Qed.
Print Assumptions C92_mime_text.
(** False of the code: that equality ignores what has no meaning.  Two types with the same parameters in another
    order answer every question alike and match each other, but are not equal; nor are "utf-8" and "UTF-8". *)
Theorem C92_mime_meaning_refuted : exists a b,
  (forall n, param a n = param b n) /\ basetype a = basetype b /\ subtype a = subtype b /\ subset_eq a b = true /\ subset_eq b a = true /\
  mime_eqb a b = false /\
  mime_eqb (mime_of (lit "text/html;charset=utf-8")) MIME_HTML = true /\ mime_eqb (mime_of (lit "text/html;charset=UTF-8")) MIME_HTML = false.
Proof.
  exists (mime_of (lit "a/b;x=1;y=2")), (mime_of (lit "a/b;y=2;x=1")). split; [|vm_compute; auto 10].
  intros n. change (mime_of (lit "a/b;x=1;y=2")) with (mkMime (lit "a/b") (lit "a") (lit "b") false [(lit "x", lit "1"); (lit "y", lit "2")]).
  change (mime_of (lit "a/b;y=2;x=1")) with (mkMime (lit "a/b") (lit "a") (lit "b") false [(lit "y", lit "2"); (lit "x", lit "1")]).
  unfold param. destruct (param_name n) as [k| |]; cbn [bind]; try reflexivity. unfold get_param. cbn [is_utf8 params find_param].
  rewrite andb_false_r. destruct (seqb_spec (lit "x") k) as [E|], (seqb_spec (lit "y") k) as [F|]; try reflexivity.
  rewrite <- F in E. discriminate.
Qed.
Print Assumptions C92_mime_meaning_refuted.
(** Converting text to a media type panics exactly where parsing fails. *)
Theorem C92_mime_into : forall s, (mime_into s = Panic <-> mime_parse s = Err 500) /\ (forall m, mime_into s = Ok m <-> mime_parse s = Ok m) /\
  (forall e, mime_into s <> Err e).
Proof.
  intros s. unfold mime_into. destruct (mime_parse_good s) as [(m & -> & _)| ->].
  - split; [split; discriminate|]. split; [tauto|discriminate].
  - split; [tauto|]. split; [split; discriminate|discriminate].
Qed.
Print Assumptions C92_mime_into.
(** ** Status codes *)
(** A status equals exactly the number it converts from; different statuses print differently. *)
Theorem C92_status : forall c d n, (status_is c n = true <-> code_try_from n = Ok c) /\
  (status_display c = status_display d -> c = d) /\
  (exists r, status_display c = show_dec (code_u16 c) ++ lit ": " ++ r /\ r <> []).
Proof.
  intros c d n. unfold status_is. split; [|split].
  - rewrite N.eqb_eq. split; [intros <-; apply C09_code_number_code|apply C09_number_code_number].
  - unfold status_display. intros E. assert (X : Some (show_dec (code_u16 c)) = Some (show_dec (code_u16 d))).
    { assert (K : forall m r, split_once 58 (show_dec m ++ lit ": " ++ r) = Some (show_dec m, lit " " ++ r)).
      { intros m r. change (show_dec m ++ lit ": " ++ r) with (show_dec m ++ 58 :: lit " " ++ r). apply split_once_app.
        apply show_dec_no_char. reflexivity. }
      assert (Y := K (code_u16 c) (canonical_reason c)). rewrite E, K in Y. now inv Y. }
    injection X as X. apply (f_equal (parse_uint 10 u64_max)) in X.
    assert (L : forall e, code_u16 e <= u64_max) by (intros []; vm_compute; discriminate).
    rewrite !parse_show_dec in X by apply L. injection X as X.
    assert (Y := C09_code_number_code c). rewrite X, C09_code_number_code in Y. now inv Y.
  - exists (canonical_reason c). split; [reflexivity|]. apply C10_reason_nonempty.
Qed.
Print Assumptions C92_status.
Example C92_example :
  proposal_cmp (Proposal Gzip (milli 300)) (Proposal Brotli (milli 700)) = Some Lt /\
  proposal_cmp (proposal_of Gzip) (Proposal Brotli (milli 0)) = Some Lt /\
  media_cmp (media_of MIME_HTML) (MediaProposal MIME_PLAIN (milli 0)) = Some Lt /\
  mime_eqb (mime_of (lit "Text/HTML ; charset=utf-8")) MIME_HTML = true /\ mime_into (lit "text") = Panic /\
  status_is S_NotFound 404 = true /\ status_display S_NotFound = lit "404: Not Found".
Proof. vm_compute. auto 10. Qed.
