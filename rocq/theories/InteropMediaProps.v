(** C103, media types: what is read in a Content-Type written as in RFC 9110, sections 5.6.6 and 8.3.1. *)
From Coq Require Import ZifyBool ZifyNat ZifyN Lia.
From Verif Require Import Base BaseFacts Headers HeadersFacts Typed Float FloatProps Negotiate NegotiateProps AcceptGrammarProps Mime MimeFacts MimeProps Rfc InteropProps GrammarProps NegotiateExactProps InteropReadProps MimeExactProps.

(** parameters = *( OWS ";" OWS [ parameter ] ), parameter = token "=" ( token / quoted-string ). *)
Definition ows (w : str) : Prop := Forall (fun c => c = 32 \/ c = 9) w.
Inductive written : str -> list (str * str) -> Prop :=
| WrittenEnd : written [] []
| WrittenNone w1 w2 r ps : ows w1 -> ows w2 -> written r ps -> written (w1 ++ lit ";" ++ w2 ++ r) ps
| WrittenToken w1 w2 n v r ps : ows w1 -> ows w2 -> rfc_token n = true -> rfc_token v = true -> written r ps ->
    written (w1 ++ lit ";" ++ w2 ++ n ++ lit "=" ++ v ++ r) ((n, v) :: ps)
| WrittenQuoted w1 w2 n b v r ps : ows w1 -> ows w2 -> rfc_token n = true -> field b -> quoted b v -> written r ps ->
    written (w1 ++ lit ";" ++ w2 ++ n ++ lit "=""" ++ b ++ lit """" ++ r) ((n, v) :: ps).
(** media-type = type "/" subtype parameters. *)
Definition media_type (s a b : str) (ps : list (str * str)) : Prop :=
  exists r, s = a ++ lit "/" ++ b ++ r /\ rfc_token a = true /\ rfc_token b = true /\ written r ps.
Definition lower_names (ps : list (str * str)) : list (str * str) := map (fun p => (to_lower (fst p), snd p)) ps.

Lemma rfc_char : forall c, (33 <=? c) && (c <=? 126) && negb (existsb (N.eqb c) (lit """(),/:;<=>?@[\]{}")) = true -> is_token_cp c = true.
Proof.
  intros c H. change (lit """(),/:;<=>?@[\]{}") with [34; 40; 41; 44; 47; 58; 59; 60; 61; 62; 63; 64; 91; 92; 93; 123; 125] in H.
  unfold is_token_cp, is_lower, is_upper, is_digit. cbn [existsb] in *. lia.
Qed.
Lemma rfc_tokens : forall s, rfc_token s = true -> token s.
Proof.
  intros s H. unfold rfc_token in H. apply andb_true_iff in H as [H1 H2]. apply tokens_token.
  - destruct s; [discriminate H1|reflexivity].
  - eapply forallb_impl; [|exact H2]. exact rfc_char.
Qed.
Lemma token_free : forall s c, token s -> is_token_cp c = false -> ~ In c s.
Proof. intros s c T H I. apply token_tokens in T as [_ T]. rewrite forallb_forall in T. specialize (T _ I). congruence. Qed.
Lemma token_starts : forall s, token s -> ~ starts_blank s.
Proof. intros s T (c & r & E & B). assert (I : In c s) by (rewrite E; now left). revert I. apply token_free; [exact T|]. destruct B as [->|[->|[->| ->]]]; reflexivity. Qed.
Lemma token_ends : forall x s, token s -> ~ ends_blank (x ++ s).
Proof.
  intros x s T (r & c & E & B). assert (I : In c s).
  { destruct T as [N _]. destruct (exists_last N) as (s' & d & ->). rewrite app_assoc in E. apply app_inj_tail in E as [_ ->]. apply in_or_app. right. now left. }
  revert I. apply token_free; [exact T|]. destruct B as [->|[->|[->| ->]]]; reflexivity.
Qed.
Lemma ends_app : forall x t, t <> [] -> ~ ends_blank t -> ~ ends_blank (x ++ t).
Proof.
  intros x t N E (r & c & Q & B). apply E. destruct (exists_last N) as (t' & d & ->). exists t', d. split; [reflexivity|].
  rewrite app_assoc in Q. apply app_inj_tail in Q as [_ ->]. exact B.
Qed.
Lemma ows_blank : forall w, ows w -> Forall blank w.
Proof. intros w W. eapply Forall_impl; [|exact W]. intros c. unfold blank. tauto. Qed.
Lemma blanks_free : forall w c, Forall blank w -> 32 < c -> ~ In c w.
Proof. intros w c W L I. rewrite Forall_forall in W. specialize (W _ I). unfold blank in W. lia. Qed.
Lemma written_tail : forall r ps, written r ps -> exists w t post, r = w ++ t ++ post /\ Forall blank w /\ Forall blank post /\ tail t (lower_names ps) /\
  ~ ends_blank t /\ (t = [] -> w = []).
Proof.
  intros r ps H. induction H as [|w1 w2 r ps W1 W2 _ IH|w1 w2 n v r ps W1 W2 Tn Tv _ IH|w1 w2 n b v r ps W1 W2 Tn Fb Q _ IH].
  - exists [], [], []. split; [reflexivity|]. split; [constructor|]. split; [constructor|]. split; [constructor|]. split; [|reflexivity]. apply ends_blank_last. reflexivity.
  - destruct IH as (w & t & post & -> & W & P & T & E & Z). apply ows_blank in W1, W2. destruct t as [|c t].
    + exists w1, (lit ";"), (w2 ++ post). rewrite (Z eq_refl). split; [reflexivity|]. split; [exact W1|]. split; [now apply Forall_app|]. split.
      * apply (TailBare [] []); [intros []|intros []|exact T].
      * split; [apply ends_blank_last; reflexivity|discriminate].
    + exists w1, (lit ";" ++ (w2 ++ w) ++ c :: t), post. split; [now rewrite <- !app_assoc|]. split; [exact W1|]. split; [exact P|].
      assert (B : Forall blank (w2 ++ w)) by now apply Forall_app. split; [apply TailBare; [now apply blanks_free|now apply blanks_free|exact T]|].
      split; [|discriminate]. rewrite app_assoc. apply ends_app; [discriminate|exact E].
  - destruct IH as (w & t & post & -> & W & P & T & E & Z). apply ows_blank in W1, W2. apply rfc_tokens in Tn, Tv.
    assert (K : forall w' rest items, Forall blank w' -> tail rest items -> tail (lit ";" ++ w2 ++ n ++ lit "=" ++ v ++ w' ++ rest) ((to_lower n, v) :: items)).
    { intros w' rest items W' T'. apply TailValue; auto; try (apply token_free; auto; reflexivity); [now apply token_starts|apply Tv| |rewrite <- (app_nil_l v); now apply token_ends].
      intros x X. apply (token_free v 34 Tv eq_refl). rewrite X. now left. }
    destruct t as [|c t].
    + exists w1, (lit ";" ++ w2 ++ n ++ lit "=" ++ v), post. rewrite (Z eq_refl). split; [rewrite <- ?app_assoc; reflexivity|]. split; [exact W1|]. split; [exact P|].
      split; [|split; [|discriminate]].
      * assert (X := K [] [] _ (Forall_nil _) T). cbn [app] in X. rewrite app_nil_r in X. exact X.
      * rewrite !app_assoc. now apply token_ends.
    + exists w1, (lit ";" ++ w2 ++ n ++ lit "=" ++ v ++ w ++ c :: t), post. split; [rewrite <- ?app_assoc; reflexivity|]. split; [exact W1|]. split; [exact P|].
      split; [now apply K|]. split; [|discriminate]. rewrite !app_assoc. apply ends_app; [discriminate|exact E].
  - destruct IH as (w & t & post & -> & W & P & T & E & Z). apply ows_blank in W1, W2. apply rfc_tokens in Tn.
    assert (K : forall w' rest items, Forall blank w' -> tail rest items -> tail (lit ";" ++ w2 ++ n ++ lit "=""" ++ b ++ lit """" ++ w' ++ rest) ((to_lower n, v) :: items)).
    { intros w' rest items W' T'. apply TailQuoted; auto; try (apply token_free; auto; reflexivity); [now apply token_starts|now apply blanks_free]. }
    destruct t as [|c t].
    + exists w1, (lit ";" ++ w2 ++ n ++ lit "=""" ++ b ++ lit """"), post. rewrite (Z eq_refl). split; [rewrite <- ?app_assoc; reflexivity|]. split; [exact W1|]. split; [exact P|].
      split; [|split; [|discriminate]].
      * assert (X := K [] [] _ (Forall_nil _) T). cbn [app] in X. exact X.
      * rewrite !app_assoc. apply ends_app; [discriminate|]. apply ends_blank_last. reflexivity.
    + exists w1, (lit ";" ++ w2 ++ n ++ lit "=""" ++ b ++ lit """" ++ w ++ c :: t), post. split; [rewrite <- ?app_assoc; reflexivity|]. split; [exact W1|]. split; [exact P|].
      split; [now apply K|]. split; [|discriminate]. rewrite !app_assoc. apply ends_app; [discriminate|exact E].
Qed.
Lemma media_type_text : forall s a b ps, media_type s a b ps -> media_text s a b (lower_names ps).
Proof.
  intros s a b ps (r & -> & A & B & W). apply written_tail in W as (w & t & post & -> & W & P & T & E & Z). exists [], w, t, post.
  split; [reflexivity|]. split; [constructor|]. split; [exact W|]. split; [exact P|]. split; [now apply rfc_tokens|]. split; [now apply rfc_tokens|]. split; [exact T|].
  destruct t as [|c t]; [rewrite (Z eq_refl); exact E|apply ends_app; [discriminate|exact E]].
Qed.
Lemma quoted_field : forall b v, quoted b v -> field b -> field v.
Proof.
  induction 1 as [|c b v N1 N2 Q IH|c b v Q IH]; intros F; [constructor| |].
  - inversion F; subst. constructor; [assumption|]. now apply IH.
  - inversion F as [|? ? _ F']; subst. inversion F'; subst. constructor; [assumption|]. now apply IH.
Qed.
Lemma written_counts : forall r ps, written r ps -> Forall (fun p => token (fst p) /\ Forall quotable (snd p)) (lower_names ps).
Proof.
  assert (L : forall n, rfc_token n = true -> token (to_lower n)).
  { intros n T. apply rfc_tokens, token_tokens in T as [T1 T2]. apply tokens_token; [destruct n; [discriminate T1|reflexivity]|].
    rewrite forallb_forall in T2. apply forallb_forall. intros c I. unfold to_lower in I. apply in_map_iff in I as (d & <- & I). specialize (T2 d I).
    unfold lower_char. destruct (is_upper d) eqn:U; [|exact T2]. unfold is_upper in U. unfold is_token_cp, is_lower. replace ((97 <=? d + 32) && (d + 32 <=? 122)) with true by lia. now rewrite orb_true_r. }
  assert (F : forall v, field v -> Forall quotable v) by (intros v H; eapply Forall_impl; [|exact H]; intros c; unfold quotable; lia).
  intros r ps H. induction H as [|w1 w2 r ps W1 W2 _ IH|w1 w2 n v r ps W1 W2 Tn Tv _ IH|w1 w2 n b v r ps W1 W2 Tn Fb Q _ IH]; [constructor|exact IH| |]; constructor; auto; cbn [fst snd]; (split; [now apply L|]); apply F.
  - unfold rfc_token in Tv. apply andb_true_iff in Tv as [_ Tv]. rewrite forallb_forall in Tv. apply Forall_forall. intros c I. specialize (Tv c I). lia.
  - eapply quoted_field; eassumption.
Qed.
Lemma named_split : forall A n (l : list (str * A)) a, named n l = Some a -> exists pre post, l = pre ++ (n, a) :: post /\ forall b, ~ In (n, b) pre.
Proof.
  intros A n. induction l as [|[m x] l IH]; intros a H; [discriminate H|]. cbn [named] in H. destruct (seqb_spec n m) as [->|N].
  - inv H. exists [], l. split; [reflexivity|intros b []].
  - destruct (IH a H) as (pre & post & -> & Q). exists ((m, x) :: pre), post. split; [reflexivity|]. intros b [I|I]; [inv I; congruence|now elim (Q b)].
Qed.
Lemma named_unique : forall A n (l : list (str * A)) a b, NoDup (map fst l) -> In (n, a) l -> In (n, b) l -> a = b.
Proof.
  intros A n. induction l as [|[m x] l IH]; intros a b N I J; [destruct I|]. cbn [map fst] in N. inversion N as [|? ? N1 N2]; subst.
  destruct I as [I|I], J as [J|J].
  - congruence.
  - inv I. elim N1. apply in_map_iff. exists (n, b). auto.
  - inv J. elim N1. apply in_map_iff. exists (n, a). auto.
  - eauto.
Qed.
(** The type and subtype in lower case, and under every name the value it was given, unquoted. *)
Theorem C103_media_type : forall s a b ps, media_type s a b ps -> NoDup (map fst (lower_names ps)) ->
  exists m, mime_parse s = Ok m /\ essence m = to_lower a ++ lit "/" ++ to_lower b /\
    forall n, is_ascii n = true -> param m n = Ok (named (to_lower n) (lower_names ps)).
Proof.
  intros s a b ps T D. assert (C : Forall (fun p => token (fst p) /\ Forall quotable (snd p)) (lower_names ps)) by (destruct T as (r & _ & _ & _ & W); eapply written_counts, W).
  apply media_type_text in T. assert (T' := T). apply C20_grammar_accepted in T' as (m & P & BT & ST & _). exists m. split; [exact P|].
  split; [apply C20_grammar in P as (a' & b' & items & _ & B1 & B2 & E & _); rewrite E, <- B1, <- B2, BT, ST; reflexivity|].
  intros n A. destruct (C21_lookup s a b (lower_names ps) n T A) as (m' & r & P' & R & U & V). assert (m' = m) as -> by congruence. rewrite R. f_equal.
  rewrite Forall_forall in C. set (l := lower_names ps) in *. clearbody l.
  assert (B : forall v, In (to_lower n, v) l -> (to_lower n, v) <> (lit "charset", lit "utf-8") -> counts (to_lower n, v)).
  { intros v I N. destruct (C _ I) as [C1 C2]. split; [exact C1|]. split; [exact C2|exact N]. }
  destruct (named (to_lower n) l) as [v|] eqn:E.
  - assert (E' := E). apply named_split in E' as (pre & post & EQ & NB). apply named_in in E.
    destruct (seqb_spec (to_lower n) (lit "charset")) as [X|X].
    + destruct (seqb_spec v (lit "utf-8")) as [Y|Y].
      * rewrite Y. apply U; [exact X|]. rewrite <- X, <- Y. exact E.
      * apply V; [right; intros I; apply Y; apply (named_unique _ (to_lower n) l); [exact D|exact E|rewrite X; exact I]|].
        exists pre, post. split; [exact EQ|]. split; [apply B; [exact E|congruence]|]. intros v' I. now elim (NB v').
    + apply V; [now left|]. exists pre, post. split; [exact EQ|]. split; [apply B; [exact E|congruence]|]. intros v' I. now elim (NB v').
  - assert (NB := named_none _ _ _ E). destruct r as [v|]; [|reflexivity]. exfalso.
    assert (H : to_lower n <> lit "charset" \/ ~ In (lit "charset", lit "utf-8") l).
    { destruct (seqb_spec (to_lower n) (lit "charset")) as [X|X]; [right|now left]. rewrite <- X. apply NB. }
    destruct (proj1 (V H v) eq_refl) as (pre & post & EQ & _). apply (NB v). rewrite EQ. apply in_or_app. right. now left.
Qed.
Print Assumptions C103_media_type.
Definition sample : str := lit "Text/HTML ;; Charset=""utf-8"" ;a=""x;\""y"" ; B=c".
Example C103_media_type_example : exists ps, media_type sample (lit "Text") (lit "HTML") ps /\ ps = [(lit "Charset", lit "utf-8"); (lit "a", lit "x;""y"); (lit "B", lit "c")] /\
  NoDup (map fst (lower_names ps)) /\ (let* m := mime_parse sample in param m (lit "A")) = Ok (Some (lit "x;""y")) /\ (let* m := mime_parse sample in Ok (essence m)) = Ok (lit "text/html").
Proof.
  exists [(lit "Charset", lit "utf-8"); (lit "a", lit "x;""y"); (lit "B", lit "c")]. split; [|split; [reflexivity|split; [|vm_compute; auto]]].
  - exists (lit " ;; Charset=""utf-8"" ;a=""x;\""y"" ; B=c"). split; [reflexivity|]. split; [reflexivity|]. split; [reflexivity|].
    assert (O : ows []) by constructor. assert (S1 : ows (lit " ")) by (constructor; [now left|constructor]).
    assert (FF : forall t, forallb (fun c => (32 <=? c) && (c <=? 126)) t = true -> field t).
    { intros t H. rewrite forallb_forall in H. apply Forall_forall. intros c I. specialize (H c I). lia. }
    apply (WrittenNone (lit " ") []); [exact S1|exact O|].
    apply (WrittenQuoted [] (lit " ") (lit "Charset") (lit "utf-8") (lit "utf-8")); [exact O|exact S1|reflexivity|apply FF; reflexivity|repeat (constructor; [discriminate|discriminate|]); constructor|].
    apply (WrittenQuoted (lit " ") [] (lit "a") (lit "x;\""y") (lit "x;""y")); [exact S1|exact O|reflexivity|apply FF; reflexivity| |].
    { constructor; [discriminate|discriminate|]. constructor; [discriminate|discriminate|]. apply QuotedEscape. constructor; [discriminate|discriminate|]. constructor. }
    exact (WrittenToken (lit " ") (lit " ") (lit "B") (lit "c") [] [] S1 S1 eq_refl eq_refl WrittenEnd).
  - cbn [lower_names map fst snd]. repeat (constructor; [cbn [In]; intros H; repeat (destruct H as [H|H]; [discriminate H|]); exact H|]). constructor.
Qed.
(** Names given twice are not allowed for media types; the crate then prefers UTF-8 to the first value. *)
Theorem C103_charset_refuted : exists s m ps, media_type s (lit "a") (lit "b") ps /\ mime_parse s = Ok m /\ named (lit "charset") (lower_names ps) = Some (lit "x") /\
  param m (lit "charset") = Ok (Some (lit "utf-8")).
Proof.
  eexists (lit "a/b;charset=x;charset=utf-8"), _, [(lit "charset", lit "x"); (lit "charset", lit "utf-8")]. split; [|split; [vm_compute; reflexivity|vm_compute; auto]].
  exists (lit ";charset=x;charset=utf-8"). split; [reflexivity|]. split; [reflexivity|]. split; [reflexivity|]. assert (O : ows []) by constructor.
  exact (WrittenToken [] [] (lit "charset") (lit "x") _ _ O O eq_refl eq_refl (WrittenToken [] [] (lit "charset") (lit "utf-8") _ _ O O eq_refl eq_refl WrittenEnd)).
Qed.
Print Assumptions C103_charset_refuted.

(** ** Accept: section 12.5.1 *)
(** What a range offers: its type, its parameters other than the weight, and its weight, in thousandths. *)
Definition offers (e : str) (p : media_proposal) : Prop := exists a b ps, media_type e a b ps /\ NoDup (map fst (lower_names ps)) /\
  essence (mp_type p) = to_lower a ++ lit "/" ++ to_lower b /\
  (forall n, is_ascii n = true -> to_lower n <> lit "q" -> param (mp_type p) n = Ok (named (to_lower n) (lower_names ps))) /\
  exists k v, match named (lit "q") (lower_names ps) with Some q => quality q = Some k | None => k = 1000 end /\
    mp_weight p = Some (Fin false v) /\ nearest f32_format false k 1000 (Fin false v).
Lemma quality_cases : forall s k, quality s = Some k -> k <= 1000 /\
  ((s = lit "0" /\ k = 0) \/ (s = lit "1" /\ k = 1000) \/
   exists a b, s = a :: 46 :: b /\ (a = 48 \/ a = 49) /\ all_digits b /\ k * 10 ^ N.of_nat (length b) = value (a :: b) * 1000).
Proof.
  assert (D1 : forall b k, decimals b = Some k -> all_digits b /\ k < 1000 /\ k * 10 ^ N.of_nat (length b) = value b * 1000).
  { intros b k. unfold decimals. destruct (forallb is_digit b) eqn:F; [|discriminate]. intros H. split; [exact F|]. rewrite forallb_forall in F.
    assert (G : forall c, In c b -> 48 <= c <= 57) by (intros c I; specialize (F c I); unfold is_digit in F; lia).
    destruct b as [|x [|y [|z [|u b]]]]; try discriminate H; injection H as <-; cbn [length value N.of_nat];
      repeat match goal with |- context [10 ^ N.of_nat ?n] => let v := eval vm_compute in (10 ^ N.of_nat n) in change (10 ^ N.of_nat n) with v end;
      repeat match goal with |- context [10 ^ N.pos ?n] => let v := eval vm_compute in (10 ^ N.pos n) in change (10 ^ N.pos n) with v end;
      try (assert (G1 := G x)); try (assert (G2 := G y)); try (assert (G3 := G z)); cbn [In] in *; lia. }
  intros s k H. destruct s as [|c s]; [discriminate H|].
  assert (C : c = 48 \/ c = 49).
  { destruct c as [|p]; [discriminate H|]. do 6 (destruct p as [p|p|]; try discriminate H). all: auto. }
  destruct s as [|d s]; [destruct C as [-> | ->]; injection H as <-; (split; [lia|auto])|].
  assert (D : d = 46).
  { destruct C as [-> | ->]; cbn [quality] in H; (destruct d as [|p]; [discriminate H|]; do 6 (destruct p as [p|p|]; try discriminate H); reflexivity). }
  subst d. destruct C as [-> | ->]; cbn [quality] in H.
  - apply D1 in H as (A & L & E). split; [lia|]. right. right. exists 48, s. split; [reflexivity|]. split; [now left|]. split; [exact A|]. rewrite E. cbn [value]. lia.
  - destruct (forallb (N.eqb 48) s) eqn:Z; [|discriminate H]. destruct (decimals s) as [j|] eqn:J; [|discriminate H]. injection H as <-. apply D1 in J as (A & _ & _).
    split; [lia|]. right. right. exists 49, s. split; [reflexivity|]. split; [now right|]. split; [exact A|]. cbn [value].
    assert (X : value s = 0); [|rewrite X; lia]. clear - Z. induction s as [|c s IH]; [reflexivity|]. cbn [forallb] in Z. apply andb_true_iff in Z as [Z1 Z2]. apply N.eqb_eq in Z1. subst c. cbn [value]. rewrite (IH Z2). lia.
Qed.
Lemma quality_decimal : forall s k, quality s = Some k -> decimal s false k 1000 /\ k <= 1000.
Proof.
  intros s k H. apply quality_cases in H as (L & H). split; [|exact L].
  assert (S0 : sign [] false) by (left; auto). assert (E0 : exponent [] 0%Z) by (left; auto).
  destruct H as [(-> & ->)|[(-> & ->)|(a & b & -> & A & B & E)]].
  - exists [], (lit "0"), [], [], [], 0%Z. repeat (split; [first [reflexivity|exact S0|exact E0|discriminate|right; split; reflexivity]|]). reflexivity.
  - exists [], (lit "1"), [], [], [], 0%Z. repeat (split; [first [reflexivity|exact S0|exact E0|discriminate|right; split; reflexivity]|]). reflexivity.
  - exists [], [a], (lit "."), b, [], 0%Z. split; [now rewrite app_nil_r|]. split; [exact S0|]. split; [destruct A; subst a; reflexivity|]. split; [exact B|]. split; [discriminate|]. split; [now left|]. split; [exact E0|]. split; [lia|].
    change (Z.to_N (- 0)) with 0. change (Z.to_N 0) with 0. change (10 ^ 0) with 1. rewrite !N.mul_1_r. exact E.
Qed.
Lemma quality_weight : forall s k, quality s = Some k -> exists v, weight_text s v /\ nearest f32_format false k 1000 (Fin false v).
Proof.
  intros s k H. apply quality_decimal in H as [D L]. destruct (C81_numbers f32_format s false k 1000 (proj1 formats_sensible) D) as (y & P & Nr).
  destruct (proj2 (rounds_to_unit k 1000 y ltac:(lia) Nr)) as (v & -> & B); [lia|]. exists v. split; [|exact Nr]. exists k, 1000. split; [exact D|]. split; [lia|exact Nr].
Qed.
Lemma whole_weight : nearest f32_format false 1000 1000 (Fin false (2 ^ 149)).
Proof.
  destruct (quality_decimal (lit "1") 1000 eq_refl) as [D _]. destruct (C81_numbers f32_format _ false 1000 1000 (proj1 formats_sensible) D) as (y & P & Nr).
  assert (X : parse_float f32_format (lit "1") = Some (Fin false (2 ^ 149))) by (vm_compute; reflexivity). rewrite X in P. injection P as <-. exact Nr.
Qed.
Lemma offers_read : forall e a b ps, media_type e a b ps -> NoDup (map fst (lower_names ps)) ->
  match named (lit "q") (lower_names ps) with Some q => quality q <> None | None => True end -> exists p, media_piece e p /\ offers e p.
Proof.
  intros e a b ps T D Q. destruct (C103_media_type e a b ps T D) as (m & P & E & R).
  assert (RQ := R (lit "q") eq_refl). change (to_lower (lit "q")) with (lit "q") in RQ. change (param m (lit "q")) with (Ok (find_param (params m) (lit "q"))) in RQ.
  assert (FQ : find_param (params m) (lit "q") = named (lit "q") (lower_names ps)) by congruence. clear RQ.
  set (m' := mkMime (essence m) (basetype m) (subtype m) (is_utf8 m) (remove_first (params m) (lit "q"))).
  assert (RP : remove_param m (lit "q") = Ok (find_param (params m) (lit "q"), m')) by reflexivity.
  assert (O : forall n, is_ascii n = true -> to_lower n <> lit "q" -> param m' n = Ok (named (to_lower n) (lower_names ps))).
  { intros n A N. rewrite <- (R n A). unfold param, param_name. rewrite A. cbn [bind]. f_equal. unfold get_param. cbn [is_utf8 params m'].
    destruct (seqb (to_lower n) (lit "charset") && is_utf8 m); [reflexivity|]. apply find_remove_other. auto. }
  destruct (named (lit "q") (lower_names ps)) as [q|] eqn:NQ.
  - destruct (quality q) as [k|] eqn:K; [|congruence]. destruct (quality_weight q k K) as (v & W & Nr). exists (MediaProposal m' (Some (Fin false v))). split.
    + exists m, (Some q). split; [exact P|]. split; [now rewrite <- FQ|]. exists v. split; [exact W|reflexivity].
    + exists a, b, ps. split; [exact T|]. split; [exact D|]. split; [exact E|]. split; [exact O|]. rewrite NQ. exists k, v. auto.
  - exists (MediaProposal m' (Some (Fin false (2 ^ 149)))). split.
    + exists m, None. split; [exact P|]. split; [now rewrite <- FQ|reflexivity].
    + exists a, b, ps. split; [exact T|]. split; [exact D|]. split; [exact E|]. split; [exact O|]. rewrite NQ. exists 1000, (2 ^ 149). split; [reflexivity|]. split; [reflexivity|exact whole_weight].
Qed.
(** Every range is read, in order, with the weight it has. *)
Theorem C103_accept : forall h vs, h_get h (lit "accept") = Some vs -> Forall field vs -> Forall (bare true) vs ->
  Forall (fun e => exists a b ps, media_type e a b ps /\ NoDup (map fst (lower_names ps)) /\ match named (lit "q") (lower_names ps) with Some q => quality q <> None | None => True end) (all_elements true vs) ->
  exists l, media_from_headers h = Ok (Some (l, false)) /\ Forall2 offers (all_elements true vs) l.
Proof.
  intros h vs G F B T. rewrite elements_full in *.
  assert (X : exists items, Forall2 (entry media_proposes) (all_pieces true vs) items /\ Forall2 offers (filter full (all_pieces true vs)) (proposed items) /\ ~ In true (map fst items)).
  { clear - T. induction (all_pieces true vs) as [|e l IH]; [exists []; split; [constructor|split; [constructor|intros []]]|]. destruct e as [|c e].
    - destruct (IH T) as (items & I1 & I2 & I3). exists ((false, None) :: items). split; [constructor; [|exact I1]|split; [exact I2|]].
      + split; [split; discriminate|now left].
      + intros [X|X]; [discriminate X|contradiction].
    - change (filter full ((c :: e) :: l)) with ((c :: e) :: filter full l) in *. inversion T as [|? ? (a & b & ps & M & D & Q) T']; subst. destruct (IH T') as (items & I1 & I2 & I3).
      destruct (offers_read _ a b ps M D Q) as (p & P1 & P2). exists ((false, Some p) :: items).
      assert (NS : c :: e <> lit "*").
      { intros X. destruct M as (r & M & _). rewrite X in M. assert (Y : In 47 (lit "*")) by (rewrite M; apply in_or_app; right; now left). destruct Y as [Y|[]]; discriminate Y. }
      split; [constructor; [|exact I1]|split].
      + split; [split; [discriminate|intros X; contradiction]|]. split; [discriminate|]. split; [exact NS|exact P1].
      + change (proposed ((false, Some p) :: items)) with (p :: proposed items). constructor; assumption.
      + intros [X|X]; [discriminate X|contradiction]. }
  destruct X as (items & I1 & I2 & I3). exists (proposed items). split; [|exact I2]. apply (C71_accepted_iff h vs _ _ G). exists items.
  split; [now apply (spell_read _ _ true)|]. split; [reflexivity|]. split; [discriminate|intros X; contradiction].
Qed.
Print Assumptions C103_accept.
Example C103_accept_example : forall v, v = lit "text/*;q=0.5 ,, a/b;x=""y""" -> field v /\ bare true v /\
  Forall (fun e => exists a b ps, media_type e a b ps /\ NoDup (map fst (lower_names ps)) /\ match named (lit "q") (lower_names ps) with Some q => quality q <> None | None => True end) (all_elements true [v]) /\
  exists m n, media_from_headers [(lit "accept", [v])] = Ok (Some ([MediaProposal m (Some (Fin false (2 ^ 148))); MediaProposal n (Some (Fin false (2 ^ 149)))], false)) /\
    essence m = lit "text/*" /\ essence n = lit "a/b" /\ param m (lit "q") = Ok None.
Proof.
  intros v ->. assert (O : ows []) by constructor.
  split; [apply Forall_forall; intros c I; vm_compute in I; repeat (destruct I as [<-|I]; [lia|]); destruct I|].
  split; [apply Forall_forall; intros e I; vm_compute in I; repeat (destruct I as [<-|I]; [apply no_char_in; reflexivity|]); destruct I|].
  split; [|eexists _, _; split; [vm_compute; reflexivity|vm_compute; auto]].
  change (all_elements true [lit "text/*;q=0.5 ,, a/b;x=""y"""]) with [lit "text/*;q=0.5"; lit "a/b;x=""y"""]. apply Forall_forall. intros e [<-|[<-|[]]].
  - exists (lit "text"), (lit "*"), [(lit "q", lit "0.5")]. split; [|split; [constructor; [intros []|constructor]|vm_compute; discriminate]].
    exists (lit ";q=0.5"). split; [reflexivity|]. split; [reflexivity|]. split; [reflexivity|]. exact (WrittenToken [] [] (lit "q") (lit "0.5") _ _ O O eq_refl eq_refl WrittenEnd).
  - exists (lit "a"), (lit "b"), [(lit "x", lit "y")]. split; [|split; [constructor; [intros []|constructor]|exact I]].
    exists (lit ";x=""y"""). split; [reflexivity|]. split; [reflexivity|]. split; [reflexivity|]. apply (WrittenQuoted [] [] (lit "x") (lit "y") (lit "y") [] []); [exact O|exact O|reflexivity| | |constructor].
    + constructor; [right; vm_compute; split; discriminate|constructor].
    + apply QuotedPlain; [discriminate|discriminate|constructor].
Qed.
(** A comma in a quoted parameter makes the header unreadable, or breaks a range in two. *)
Theorem C103_accept_refuted : exists u v, elements true u = [u] /\ media_from_headers [(lit "accept", [u])] = Err 500 /\
  elements true v = [v] /\ exists m n w, media_from_headers [(lit "accept", [v])] = Ok (Some ([m; n], w)) /\ essence (mp_type n) = lit "b/c".
Proof. exists (lit "a/b;x=""1,2"""), (lit "a/b;x=""1,b/c;d"""). vm_compute. split; [reflexivity|]. split; [reflexivity|]. split; [reflexivity|]. eexists _, _, _. split; reflexivity. Qed.
Print Assumptions C103_accept_refuted.

(** ** Accept-Encoding and TE: sections 12.5.3 and 10.1.4 *)
(** What an element offers: a coding known here, with its weight in thousandths; other codings are passed over. *)
Definition coding_named (k : family) (n : str) : option coding :=
  find (fun c => seqb (coding_show c) n && in_family k c) [Gzip; Deflate; Brotli; Zstd; Identity; Chunked].
Definition coding_offer (k : family) (e : str) (o : option proposal) : Prop :=
  match coding_named k (hd [] (parts e)), o with
  | None, None => True
  | Some c, Some p => p_coding p = c /\
      match p_weight p with
      | None => snd (ranked e) = Some 1000
      | Some x => exists j v, snd (ranked e) = Some j /\ x = Fin false v /\ nearest f32_format false j 1000 x
      end
  | _, _ => False
  end.
Lemma coding_named_spec : forall k n, match coding_named k n with Some c => in_family k c = true /\ coding_show c = n | None => forall c, in_family k c = true -> coding_show c <> n end.
Proof.
  intros k n. unfold coding_named. destruct (find _ _) as [c|] eqn:E.
  - apply find_some in E as [_ E]. apply andb_true_iff in E as [E1 E2]. apply seqb_eq in E1. auto.
  - intros c F X. assert (Y := find_none _ _ E c). assert (I : In c [Gzip; Deflate; Brotli; Zstd; Identity; Chunked]) by (destruct c; cbn [In]; auto 7).
    specialize (Y I). cbv beta in Y. rewrite F, X, seqb_refl in Y. discriminate Y.
Qed.
(** The forms a weighted coding is written in, without white space after the semicolon. *)
Definition weighted (e : str) : Prop := exists n, rfc_token n = true /\ n <> lit "*" /\ (e = n \/ exists w q, ows w /\ quality q <> None /\ e = n ++ w ++ lit ";q=" ++ q).
Lemma quality_chars : forall q k, quality q = Some k -> forallb (fun c => is_digit c || (c =? 46)) q = true.
Proof.
  intros q k H. apply quality_cases in H as (_ & [(-> & _)|[(-> & _)|(a & b & -> & A & B & _)]]); [reflexivity|reflexivity|].
  cbn [forallb]. apply andb_true_iff. split; [destruct A; subst a; reflexivity|]. apply andb_true_iff. split; [reflexivity|]. eapply forallb_impl; [|exact B]. intros c C. cbv beta. now rewrite C.
Qed.
Lemma strip_tail : forall n w, tight n -> ows w -> strip (n ++ w) = n.
Proof.
  intros n w T W. unfold strip. replace (n ++ w) with ([] ++ n ++ w) by reflexivity. rewrite trim_matches_pad; [now apply trim_matches_id|reflexivity|].
  apply forallb_forall. intros c I. unfold ows in W. rewrite Forall_forall in W. specialize (W c I). unfold Rfc.blank. lia.
Qed.
Lemma weighted_parts : forall n w q, rfc_token n = true -> ows w -> quality q <> None ->
  parts n = [n] /\ parts (n ++ w ++ lit ";q=" ++ q) = [n; lit "q=" ++ q] /\ binding (lit "q=" ++ q) = (lit "q", Some q) /\ ~ In 44 (n ++ w ++ lit ";q=" ++ q).
Proof.
  intros n w q T W Q. destruct (quality q) as [k|] eqn:K; [|congruence]. apply quality_chars in K.
  destruct (rfc_wordy n T) as (Wn & _ & _ & N59).
  assert (QN : forall c, is_digit c || (c =? 46) = false -> no_char c q = true) by (intros c C; apply (no_char_forallb c (fun c => is_digit c || (c =? 46)) q); assumption).
  assert (WN : forall c, c <> 32 -> c <> 9 -> no_char c w = true).
  { intros c C1 C2. apply no_char_in. intros I. unfold ows in W. rewrite Forall_forall in W. destruct (W c I); contradiction. }
  assert (P1 : parts n = [n]).
  { unfold parts. rewrite (cut_whole true 59 n Plain Plain) by (apply wordy_calm; assumption). cbn [map]. now rewrite strip_tight by (now apply wordy_tight). }
  assert (TQ : tight (lit "q=" ++ q)).
  { change (lit "q=") with [113; 61]. cbn [app]. unfold tight. apply no_edge_all. cbn [forallb]. change (negb (Rfc.blank 113)) with true. change (negb (Rfc.blank 61)) with true. cbn [andb].
    eapply forallb_impl; [|exact K]. intros c. cbv beta. unfold is_digit, Rfc.blank. lia. }
  split; [exact P1|]. split; [|split].
  - unfold parts. replace (n ++ w ++ lit ";q=" ++ q) with ((n ++ w) ++ 59 :: lit "q=" ++ q) by (rewrite <- app_assoc; reflexivity).
    rewrite cut_app.
    + rewrite (cut_whole true 59 (lit "q=" ++ q) Plain Plain).
      * cbn [map]. rewrite strip_tail by (try apply wordy_tight; assumption). now rewrite strip_tight.
      * apply calm_app; apply calm_plain; try reflexivity; apply QN; reflexivity.
    + apply calm_app; [apply wordy_calm; assumption|]. apply calm_plain; apply WN; discriminate.
  - change (lit "q=" ++ q) with (lit "q" ++ 61 :: q). rewrite binding_app by reflexivity. now rewrite unquote_word by (apply QN; reflexivity).
  - apply no_char_in. rewrite !no_char_app, (WN 44) by discriminate. rewrite (QN 44) by reflexivity. rewrite (proj2 (no_char_in 44 n)) by (now apply token_comma). reflexivity.
Qed.
Lemma coding_read : forall k e, weighted e -> exists o, piece k e o /\ coding_offer k e o.
Proof.
  intros k e (n & T & NS & H). assert (N59 : ~ In 59 n) by (apply no_char_in; now destruct (rfc_wordy n T) as (_ & _ & _ & ?)).
  assert (TR : forall w, ows w -> trim (n ++ w) = n).
  { intros w W. unfold trim. replace (n ++ w) with ([] ++ n ++ w) by reflexivity. rewrite trim_matches_pad; [apply trim_matches_id| reflexivity|].
    - apply no_edge_all. apply rfc_tokens, token_tokens in T as [_ T]. eapply forallb_impl; [|exact T]. intros c. unfold is_token_cp, is_lower, is_upper, is_digit, is_ws. cbn [existsb]. lia.
    - apply forallb_forall. intros c I. unfold ows in W. rewrite Forall_forall in W. specialize (W c I). unfold is_ws. lia. }
  assert (C := coding_named_spec k n). unfold coding_offer.
  destruct H as [->|(w & q & W & Q & ->)].
  - destruct (weighted_parts n [] (lit "1") T (Forall_nil _) ltac:(discriminate)) as (P & _).
    rewrite P. cbn [hd]. assert (TN : trim n = n) by (rewrite <- (app_nil_r n) at 1; apply TR; constructor). destruct (coding_named k n) as [c|].
    + destruct C as [C1 C2]. exists (Some (Proposal c None)). split; [apply PiecePlain; [exact N59|exact C1|now rewrite TN]|]. cbn [p_coding p_weight]. split; [reflexivity|].
      unfold ranked. rewrite P. reflexivity.
    + exists None. split; [|exact I]. rewrite <- (app_nil_r n). apply PieceUnknown; [exact N59| |now left]. intros (c & K1 & K2). elim (C c); [exact K1|]. rewrite <- K2. exact TN.
  - destruct (weighted_parts n w q T W Q) as (_ & P & B & _). rewrite P. cbn [hd].
    assert (N59w : ~ In 59 (n ++ w)).
    { intros I. apply in_app_or in I as [I|I]; [contradiction|]. unfold ows in W. rewrite Forall_forall in W. destruct (W _ I); discriminate. }
    destruct (coding_named k n) as [c|].
    + destruct C as [C1 C2]. destruct (quality q) as [j|] eqn:J; [|congruence]. destruct (quality_weight q j J) as (v & WT & Nr). exists (Some (Proposal c (Some (Fin false v)))). split.
      * replace (n ++ w ++ lit ";q=" ++ q) with ((n ++ w) ++ lit ";q=" ++ q ++ []) by (rewrite app_nil_r, <- app_assoc; reflexivity). apply PieceWeighted; [exact N59w|exact C1|now rewrite TR|exact WT|now left].
      * cbn [p_coding p_weight]. split; [reflexivity|]. exists j, v. split; [|split; [reflexivity|exact Nr]]. unfold ranked. rewrite P. cbn [tl map]. rewrite B. exact J.
    + exists None. split; [|exact I]. replace (n ++ w ++ lit ";q=" ++ q) with ((n ++ w) ++ 59 :: lit "q=" ++ q) by (rewrite <- app_assoc; reflexivity).
      apply PieceUnknown; [exact N59w| |right; eauto]. intros (c & K1 & K2). elim (C c); [exact K1|]. rewrite <- K2. now apply TR.
Qed.
Theorem C103_codings : forall k h vs, h_get h (accept_name k) = Some vs -> Forall field vs -> Forall (dense true) vs ->
  Forall (fun e => e = lit "*" \/ weighted e) (all_elements true vs) ->
  exists os w, accept_from_headers k h = Ok (Some (entries os, w)) /\ (w = true <-> In (lit "*") (all_elements true vs)) /\
    Forall2 (coding_offer k) (filter (fun e => negb (seqb e (lit "*"))) (all_elements true vs)) os.
Proof.
  intros k h vs G F D T. assert (B : Forall (bare true) vs).
  { apply bare_of_pieces. rewrite elements_dense by exact D. eapply Forall_impl; [|exact T]. intros e [->|(n & Tn & _ & [->|(w & q & W & Q & ->)])].
    - apply no_char_in. reflexivity.
    - now apply token_comma.
    - apply (weighted_parts n w q Tn W Q). }
  assert (X : exists items os, Forall2 (entry (piece k)) (all_elements true vs) items /\ proposed items = entries os /\ (In true (map fst items) <-> In (lit "*") (all_elements true vs)) /\
    Forall2 (coding_offer k) (filter (fun e => negb (seqb e (lit "*"))) (all_elements true vs)) os).
  { clear - T. induction T as [|e l H T (items & os & I1 & I2 & I3 & I4)]; [exists [], []; split; [constructor|split; [reflexivity|split; [tauto|constructor]]]|].
    cbn [filter]. destruct (seqb_spec e (lit "*")) as [->|N]; cbn [negb].
    - exists ((true, None) :: items), os. split; [constructor; [|exact I1]|].
      + split; [tauto|]. cbn [snd]. rewrite <- (app_nil_r (lit "*")). apply PieceUnknown; [apply no_char_in; reflexivity| |now left]. intros (c & K1 & K2). destruct c; discriminate K2.
      + split; [exact I2|]. split; [|exact I4]. cbn [map In fst]. tauto.
    - destruct H as [H|H]; [contradiction|]. destruct (coding_read k e H) as (o & P & O). exists ((false, o) :: items), (o :: os). split; [constructor; [|exact I1]|].
      + split; [split; [discriminate|intros X; contradiction]|exact P].
      + split; [|split; [|constructor; assumption]].
        * destruct o as [p|]; [|exact I2]. change (p :: proposed items = p :: entries os). now rewrite I2.
        * cbn [map In fst]. rewrite I3. split; [intros [X|X]; [discriminate X|auto]|intros [X|X]; [congruence|auto]]. }
  destruct X as (items & os & I1 & I2 & I3 & I4). exists os, (existsb (fun e => seqb e (lit "*")) (all_elements true vs)).
  assert (W : existsb (fun e => seqb e (lit "*")) (all_elements true vs) = true <-> In (lit "*") (all_elements true vs)).
  { rewrite existsb_exists. split; [intros (e & I & E); apply seqb_eq in E; now subst e|intros I; exists (lit "*"); split; [exact I|reflexivity]]. }
  split; [|split; [exact W|exact I4]]. apply (C70_accepted_iff k h vs _ _ G). exists items. split; [apply (spell_read _ _ true); try assumption; now rewrite elements_dense|].
  split; [now symmetry|]. now rewrite W, I3.
Qed.
Print Assumptions C103_codings.
Example C103_codings_example : forall v, v = lit "gzip ;q=0.5, compress;q=1.0 , *,br" -> field v /\ dense true v /\
  Forall (fun e => e = lit "*" \/ weighted e) (all_elements true [v]) /\
  accept_from_headers Content [(lit "accept-encoding", [v])] = Ok (Some ([Proposal Gzip (Some (Fin false (2 ^ 148))); Proposal Brotli None], true)).
Proof.
  intros v ->. split; [apply Forall_forall; intros c I; vm_compute in I; repeat (destruct I as [<-|I]; [lia|]); destruct I|].
  split; [apply Forall_forall; intros e I; vm_compute in I; repeat (destruct I as [<-|I]; [vm_compute; discriminate|]); destruct I|]. split; [|vm_compute; reflexivity].
  change (all_elements true [lit "gzip ;q=0.5, compress;q=1.0 , *,br"]) with [lit "gzip ;q=0.5"; lit "compress;q=1.0"; lit "*"; lit "br"]. apply Forall_forall. intros e [<-|[<-|[<-|[<-|[]]]]].
  - right. exists (lit "gzip"). split; [reflexivity|]. split; [discriminate|]. right. exists (lit " "), (lit "0.5"). split; [constructor; [now left|constructor]|]. split; [vm_compute; discriminate|reflexivity].
  - right. exists (lit "compress"). split; [reflexivity|]. split; [discriminate|]. right. exists [], (lit "1.0"). split; [constructor|]. split; [vm_compute; discriminate|reflexivity].
  - now left.
  - right. exists (lit "br"). split; [reflexivity|]. split; [discriminate|]. now left.
Qed.
(** White space after the semicolon makes the header unreadable; a coding in other case, which is the same coding (section 8.4.1), is passed
    over; the weight of a star hides it. *)
Theorem C103_codings_refuted : exists u v w, map ranked (elements true u) = [(lit "gzip", [], Some 500)] /\ accept_from_headers Content [(lit "accept-encoding", [u])] = Err 400 /\
  map ranked (elements true v) = [(lit "GZIP", [], Some 1000)] /\ accept_from_headers Content [(lit "accept-encoding", [v])] = Ok (Some ([], false)) /\
  map ranked (elements true w) = [(lit "*", [], Some 500)] /\ accept_from_headers Content [(lit "accept-encoding", [w])] = Ok (Some ([], false)).
Proof. exists (lit "gzip; q=0.5"), (lit "GZIP"), (lit "*;q=0.5"). vm_compute. auto 8. Qed.
Print Assumptions C103_codings_refuted.
