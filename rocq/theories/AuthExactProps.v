(** C45, C46, C47: exactly which header texts are accepted, and as what. *)
From Verif Require Import Base BaseFacts Utf8 Headers HeadersFacts Typed TypedFacts ParseUtilsFacts Auth AuthProps.
From Coq Require Import ZifyBool ZifyNat ZifyN.

(** ** base64: the decoded texts are the encoded ones, with any number of the trailing "=" left out. *)
Lemma b64_char_val : forall c i, b64_val c = Some i -> i < 64 /\ b64_char i = c.
Proof.
  intros c i. unfold b64_val, is_upper, is_lower, is_digit, b64_char.
  destruct ((65 <=? c) && (c <=? 90)) eqn:U; [intros H; inv H; replace (c - 65 <? 26) with true by lia; lia|].
  destruct ((97 <=? c) && (c <=? 122)) eqn:L.
  { intros H; inv H. replace (c - 71 <? 26) with false by lia. replace (c - 71 <? 52) with true by lia. lia. }
  destruct ((48 <=? c) && (c <=? 57)) eqn:D.
  { intros H; inv H. replace (c + 4 <? 26) with false by lia. replace (c + 4 <? 52) with false by lia. replace (c + 4 <? 62) with true by lia. lia. }
  destruct (N.eqb_spec c 43) as [->|]; [intros H; inv H; split; [lia|reflexivity]|].
  destruct (N.eqb_spec c 47) as [->|]; [intros H; inv H; split; [lia|reflexivity]|]. discriminate.
Qed.
Lemma b64_one_some x y bs : b64_one x y = Some bs <-> exists a, a < 256 /\ bs = [a] /\ x = b64_char (a / 4) /\ y = b64_char (a mod 4 * 16).
Proof.
  unfold b64_one. split.
  - destruct (b64_val x) as [i|] eqn:X; [|discriminate]. destruct (b64_val y) as [j|] eqn:Y; [|discriminate].
    apply b64_char_val in X as [X <-], Y as [Y <-]. destruct (j mod 16 =? 0) eqn:Z; [|discriminate]. intros H; inv H.
    exists (i * 4 + j / 16). split; [lia|]. split; [reflexivity|]. split; f_equal; lia.
  - intros (a & A & -> & -> & ->). rewrite !b64_val_char by lia. replace (a mod 4 * 16 mod 16 =? 0) with true by lia. do 2 f_equal. lia.
Qed.
Lemma b64_two_some x y z bs : b64_two x y z = Some bs <->
  exists a b, a < 256 /\ b < 256 /\ bs = [a; b] /\ x = b64_char (a / 4) /\ y = b64_char (a mod 4 * 16 + b / 16) /\ z = b64_char (b mod 16 * 4).
Proof.
  unfold b64_two. split.
  - destruct (b64_val x) as [i|] eqn:X; [|discriminate]. destruct (b64_val y) as [j|] eqn:Y; [|discriminate]. destruct (b64_val z) as [k|] eqn:Z; [|discriminate].
    apply b64_char_val in X as [X <-], Y as [Y <-], Z as [Z <-]. destruct (k mod 4 =? 0) eqn:M; [|discriminate]. intros H; inv H.
    exists (i * 4 + j / 16), (j mod 16 * 16 + k / 4). split; [lia|]. split; [lia|]. split; [reflexivity|]. split; [f_equal; lia|]. split; f_equal; lia.
  - intros (a & b & A & B & -> & -> & -> & ->). rewrite !b64_val_char by lia. replace (b mod 16 * 4 mod 4 =? 0) with true by lia. do 2 f_equal; [lia|]. f_equal. lia.
Qed.
Lemma b64_three_some x y z w bs : b64_three x y z w = Some bs <->
  exists a b c, a < 256 /\ b < 256 /\ c < 256 /\ bs = [a; b; c] /\ x = b64_char (a / 4) /\ y = b64_char (a mod 4 * 16 + b / 16) /\
    z = b64_char (b mod 16 * 4 + c / 64) /\ w = b64_char (c mod 64).
Proof.
  split.
  - unfold b64_three. destruct (b64_val x) as [i|] eqn:X; [|discriminate]. destruct (b64_val y) as [j|] eqn:Y; [|discriminate]. destruct (b64_val z) as [k|] eqn:Z; [|discriminate].
    destruct (b64_val w) as [l|] eqn:W; [|discriminate].
    apply b64_char_val in X as [X <-], Y as [Y <-], Z as [Z <-], W as [W <-]. intros H; inv H.
    exists (i * 4 + j / 16), (j mod 16 * 16 + k / 4), (k mod 4 * 64 + l).
    split; [lia|]. split; [lia|]. split; [lia|]. split; [reflexivity|]. split; [f_equal; lia|]. split; [f_equal; lia|]. split; f_equal; lia.
  - intros (a & b & c & A & B & C & -> & -> & -> & -> & ->). apply b64_three_enc; assumption.
Qed.
Lemma char_pad i : i < 64 -> b64_char i <> 61.
Proof. intros H E. assert (X := b64_char_not_pad i H). rewrite E in X. discriminate X. Qed.
Lemma four_ind : forall (P : str -> Prop), P [] -> (forall a, P [a]) -> (forall a b, P [a; b]) -> (forall a b c, P [a; b; c]) ->
  (forall a b c d r, P r -> P (a :: b :: c :: d :: r)) -> forall l, P l.
Proof.
  intros P H0 H1 H2 H3 H4 l. enough (G : P l /\ (forall a, P (a :: l)) /\ (forall a b, P (a :: b :: l)) /\ forall a b c, P (a :: b :: c :: l)) by apply G.
  induction l as [|x l (I0 & I1 & I2 & I3)]; [auto|]. split; [apply I1|]. split; [intros a; apply I2|]. split; [intros a b; apply I3|]. intros a b c. now apply H4.
Qed.
Lemma encode_nil bs : b64_encode bs = [] -> bs = [].
Proof. destruct bs as [|a [|b [|c r]]]; [reflexivity|discriminate..]. Qed.
Lemma pad_head k c l : repeat 61 k = c :: l -> c = 61.
Proof. destruct k; cbn; congruence. Qed.
Lemma pad_cons k c l : repeat 61 k = c :: l -> exists k', k = S k' /\ l = repeat 61 k'.
Proof. destruct k; cbn; [discriminate|]. intros H. inv H. eauto. Qed.
Lemma b64_forward : forall s bs, b64_decode s = Some bs -> Forall (fun b => b < 256) bs /\ exists k, s ++ repeat 61 k = b64_encode bs.
Proof.
  intros s. induction s as [|x|x y|x y z|x y z w r IH] using four_ind; intros bs.
  - cbn [b64_decode]. intros H; inv H. split; [constructor|exists 0%nat; reflexivity].
  - discriminate.
  - cbn [b64_decode]. rewrite b64_one_some. intros (a & A & -> & -> & ->). split; [auto|]. exists 2%nat. reflexivity.
  - cbn [b64_decode]. destruct (N.eqb_spec z 61) as [->|_].
    + rewrite b64_one_some. intros (a & A & -> & -> & ->). split; [auto|]. exists 1%nat. reflexivity.
    + rewrite b64_two_some. intros (a & b & A & B & -> & -> & -> & ->). split; [auto|]. exists 1%nat. reflexivity.
  - destruct r as [|d r].
    + cbn [b64_decode]. destruct (N.eqb_spec w 61) as [->|_]; [destruct (N.eqb_spec z 61) as [->|_]|].
      * rewrite b64_one_some. intros (a & A & -> & -> & ->). split; [auto|]. exists 0%nat. reflexivity.
      * rewrite b64_two_some. intros (a & b & A & B & -> & -> & -> & ->). split; [auto|]. exists 0%nat. reflexivity.
      * rewrite b64_three_some. intros (a & b & c & A & B & C & -> & -> & -> & -> & ->). split; [auto|]. exists 0%nat. reflexivity.
    + change (b64_decode (x :: y :: z :: w :: d :: r)) with
        (match b64_three x y z w, b64_decode (d :: r) with Some a, Some b => Some (a ++ b) | _, _ => None end).
      destruct (b64_three x y z w) as [g|] eqn:T; [|discriminate]. destruct (b64_decode (d :: r)) as [t|] eqn:D; [|discriminate].
      intros H. inv H. destruct (IH t eq_refl) as [F [k E]]. apply b64_three_some in T as (a & b & c & A & B & C & -> & -> & -> & -> & ->).
      split; [cbn [app]; auto|]. exists k. cbn [app b64_encode]. cbn [app] in E. rewrite E. reflexivity.
Qed.
Lemma b64_backward : forall bs s k, Forall (fun b => b < 256) bs -> s ++ repeat 61 k = b64_encode bs -> b64_decode s = Some bs.
Proof.
  intros bs. induction bs as [|a|a b|a b c r IH] using three_ind; intros s k F E.
  - destruct s; [reflexivity|discriminate E].
  - inv F. cbn [b64_encode] in E.
    assert (P1 := char_pad (a / 4) ltac:(lia)). assert (P2 := char_pad (a mod 4 * 16) ltac:(lia)).
    assert (G : b64_one (b64_char (a / 4)) (b64_char (a mod 4 * 16)) = Some [a]) by (apply b64_one_some; exists a; auto).
    destruct s as [|x s]; cbn [app] in E; [apply pad_head in E; contradiction|]. injection E as -> E.
    destruct s as [|y s]; cbn [app] in E; [apply pad_head in E; contradiction|]. injection E as -> E.
    destruct s as [|z s]; [exact G|]. cbn [app] in E. injection E as -> E.
    destruct s as [|w s]; [exact G|]. cbn [app] in E. injection E as -> E.
    destruct s; [exact G|discriminate E].
  - inversion F as [|? ? A F']. subst. inversion F' as [|? ? B F'']. subst. cbn [b64_encode] in E.
    assert (P1 := char_pad (a / 4) ltac:(lia)). assert (P2 := char_pad (a mod 4 * 16 + b / 16) ltac:(lia)). assert (P3 := char_pad (b mod 16 * 4) ltac:(lia)).
    assert (G : b64_two (b64_char (a / 4)) (b64_char (a mod 4 * 16 + b / 16)) (b64_char (b mod 16 * 4)) = Some [a; b])
      by (apply b64_two_some; exists a, b; repeat (split; [first [assumption|reflexivity]|]); reflexivity).
    destruct s as [|x s]; cbn [app] in E; [apply pad_head in E; contradiction|]. injection E as -> E.
    destruct s as [|y s]; cbn [app] in E; [apply pad_head in E; contradiction|]. injection E as -> E.
    destruct s as [|z s]; cbn [app] in E; [apply pad_head in E; contradiction|]. injection E as -> E.
    destruct s as [|w s]; [cbn [b64_decode]; rewrite b64_char_not_pad by lia; exact G|]. cbn [app] in E. injection E as -> E.
    destruct s; [cbn [b64_decode]; rewrite b64_char_not_pad by lia; exact G|discriminate E].
  - inversion F as [|? ? A F']. subst. inversion F' as [|? ? B F'']. subst. inversion F'' as [|? ? C F3]. subst. cbn [b64_encode] in E.
    assert (P1 := char_pad (a / 4) ltac:(lia)). assert (P2 := char_pad (a mod 4 * 16 + b / 16) ltac:(lia)).
    assert (P3 := char_pad (b mod 16 * 4 + c / 64) ltac:(lia)). assert (P4 := char_pad (c mod 64) ltac:(lia)).
    assert (G := b64_three_enc a b c A B C).
    destruct s as [|x s]; cbn [app] in E; [apply pad_head in E; contradiction|]. injection E as -> E.
    destruct s as [|y s]; cbn [app] in E; [apply pad_head in E; contradiction|]. injection E as -> E.
    destruct s as [|z s]; cbn [app] in E; [apply pad_head in E; contradiction|]. injection E as -> E.
    destruct s as [|w s]; cbn [app] in E; [apply pad_head in E; contradiction|]. injection E as -> E.
    specialize (IH s k F3 E). destruct s as [|d s].
    + cbn [b64_decode] in IH |- *. injection IH as <-. rewrite b64_char_not_pad by lia. exact G.
    + change (b64_decode (?x :: ?y :: ?z :: ?w :: d :: s)) with
        (match b64_three x y z w, b64_decode (d :: s) with Some a, Some b => Some (a ++ b) | _, _ => None end).
      rewrite G, IH. reflexivity.
Qed.
Theorem b64_decode_iff : forall s bs,
  b64_decode s = Some bs <-> Forall (fun b => b < 256) bs /\ exists k, s ++ repeat 61 k = b64_encode bs.
Proof. intros s bs. split; [apply b64_forward|]. intros [F [k E]]. exact (b64_backward bs s k F E). Qed.

Lemma not_in_no_char : forall (d : N) (s : str), ~ In d s <-> no_char d s = true.
Proof.
  intros d s. unfold no_char. rewrite forallb_forall. split.
  - intros H c I. destruct (N.eqb_spec c d) as [->|]; [contradiction|reflexivity].
  - intros H I. specialize (H d I). rewrite N.eqb_refl in H. discriminate H.
Qed.
Lemma splitn2_some d s a b : splitn2 d s = (a, Some b) <-> s = a ++ [d] ++ b /\ ~ In d a.
Proof.
  unfold splitn2. split.
  - destruct (split_once d s) as [[x y]|] eqn:E; [|discriminate]. intros H. inv H. apply split_once_some in E as [-> N].
    split; [reflexivity|]. apply not_in_no_char. exact N.
  - intros [-> N]. cbn [app]. rewrite split_once_app; [reflexivity|]. apply not_in_no_char. exact N.
Qed.

Lemma last_of vs v : values_last vs = Ok v -> exists ws, vs = ws ++ [v].
Proof.
  unfold values_last. destruct (rev vs) as [|x r] eqn:R; [discriminate|]. intros H. inv H.
  exists (rev r). rewrite <- (rev_involutive vs), R. reflexivity.
Qed.
Lemma spelling_no_space s sch : to_lower s = to_lower (scheme_show sch) -> ~ In 32 s.
Proof.
  intros E I. assert (J : In 32 (to_lower s)) by (apply (in_map lower_char) in I; exact I). rewrite E in J.
  assert (L : ~ In 32 (to_lower (scheme_show sch))) by (apply not_in_no_char; destruct sch; reflexivity). contradiction.
Qed.
Lemma cut_quote q : existsb (N.eqb 34) q = true ->
  exists rest, q = take_while (fun c => negb (c =? 34)) q ++ lit """" ++ rest /\ ~ In 34 (take_while (fun c => negb (c =? 34)) q).
Proof.
  induction q as [|c q IH]; [discriminate|]. cbn [existsb take_while]. rewrite (N.eqb_sym 34 c). destruct (N.eqb_spec c 34) as [->|N]; cbn [negb orb].
  - intros _. exists q. split; [reflexivity|intros []].
  - intros H. destruct (IH H) as (rest & Q & M). exists rest. split; [cbn [app]; f_equal; exact Q|]. intros [->|I]; [congruence|contradiction].
Qed.

(** ** C45 *)
(** Credentials are read as a user name and a password exactly if they are what is written for the two, up to leaving out
    some or all of the "=" at the end; the user name has no colon. *)
Theorem C45_credentials_iff : forall c u p,
  basic_from_credentials c = Ok (u, p) <->
  valid_str u = true /\ valid_str p = true /\ ~ In 58 u /\ exists k, c ++ repeat 61 k = b64_encode (utf8_encode (u ++ [58] ++ p)).
Proof.
  intros c u p. unfold basic_from_credentials. split.
  - destruct (b64_decode c) as [bs|] eqn:D; cbn [ok_or bind]; [|discriminate]. destruct (utf8_decode bs) as [t|] eqn:U; cbn [ok_or bind]; [|discriminate].
    destruct (splitn2 58 t) as [x [y|]] eqn:S; [|discriminate]. intros H. inv H. apply splitn2_some in S as [-> N].
    apply utf8_decode_sound in U as [<- V]. apply b64_decode_iff in D as [_ K]. unfold valid_str in V |- *. rewrite !forallb_app in V. cbn [forallb] in V.
    apply andb_prop in V as [V1 V2]. apply andb_prop in V2 as [_ V2]. auto.
  - intros (V1 & V2 & N & K).
    assert (V : valid_str (u ++ [58] ++ p) = true) by (unfold valid_str in *; rewrite !forallb_app, V1, V2; reflexivity).
    rewrite (proj2 (b64_decode_iff c _) (conj (utf8_encode_bytes _ V) K)). cbn [ok_or bind]. rewrite utf8_decode_encode by exact V. cbn [ok_or bind].
    rewrite (proj2 (splitn2_some 58 _ u p) (conj eq_refl N)). reflexivity.
Qed.
(** ** C46 *)
(** The header is read as a scheme and credentials exactly if its last value is a spelling of that scheme, one space, and the credentials. *)
Theorem C46_accepted_iff : forall h sch c,
  auth_from_headers h = Ok (Some (sch, c)) <->
  exists vs s, h_get h (lit "authorization") = Some (vs ++ [s ++ [32] ++ c]) /\ to_lower s = to_lower (scheme_show sch).
Proof.
  intros h sch c. split.
  - unfold auth_from_headers, with_last. change AUTHORIZATION with (lit "authorization"). destruct (h_get h (lit "authorization")) as [vs|]; [|discriminate].
    destruct (values_last vs) as [v| |] eqn:L; cbn [bind]; try discriminate. unfold auth_parse. destruct (splitn2 32 v) as [s [d|]] eqn:S; cbn [bind]; [|discriminate].
    destruct (scheme_from_str s) as [sch'| |] eqn:E; cbn [bind]; try discriminate. intros H. inv H. apply splitn2_some in S as [-> _].
    apply C46_scheme_case_insensitive in E.
    apply last_of in L as [ws ->]. eauto.
  - intros (vs & s & G & E). exact (C46_any_spelling h vs s sch c E G).
Qed.
(** ** C45, the header *)
Theorem C45_accepted_iff : forall h u p,
  basic_from_headers h = Ok (Some (u, p)) <->
  valid_str u = true /\ valid_str p = true /\ ~ In 58 u /\
  exists vs s c k, h_get h (lit "authorization") = Some (vs ++ [s ++ [32] ++ c]) /\ to_lower s = lit "basic" /\
    c ++ repeat 61 k = b64_encode (utf8_encode (u ++ [58] ++ p)).
Proof.
  intros h u p. unfold basic_from_headers. split.
  - destruct (auth_from_headers h) as [[[sch c]|]| |] eqn:A; cbn [bind]; try discriminate. destruct sch; try discriminate.
    destruct (basic_from_credentials c) as [[x y]| |] eqn:C; cbn [bind]; try discriminate. intros H. inv H.
    apply C46_accepted_iff in A as (vs & s & G & E). apply C45_credentials_iff in C as (V1 & V2 & N & k & K).
    split; [exact V1|]. split; [exact V2|]. split; [exact N|]. exists vs, s, c, k. auto.
  - intros (V1 & V2 & N & vs & s & c & k & G & E & K).
    rewrite (C46_any_spelling h vs s Basic c E G). cbn [bind].
    rewrite (proj2 (C45_credentials_iff c u p)); [reflexivity|]. eauto.
Qed.
(** ** C47 *)
(** A challenge is read exactly if it is a spelling of the scheme, one space, any further blanks, and realm in double quotes;
    whatever follows the closing quote is ignored. *)
Theorem C47_accepted_iff : forall h sch r,
  www_from_headers h = Ok (Some (sch, r)) <->
  exists vs s b rest, h_get h (lit "www-authenticate") = Some (vs ++ [s ++ [32] ++ b ++ lit "realm=""" ++ r ++ lit """" ++ rest]) /\
    to_lower s = to_lower (scheme_show sch) /\ forallb is_ws b = true /\ ~ In 34 r.
Proof.
  intros h sch r. unfold www_from_headers. split.
  - unfold with_last. change WWW_AUTHENTICATE with (lit "www-authenticate"). destruct (h_get h (lit "www-authenticate")) as [vs|]; [|discriminate].
    destruct (values_last vs) as [v| |] eqn:L; cbn [bind]; try discriminate. unfold www_parse. destruct (splitn2 32 v) as [s [d|]] eqn:S; cbn [bind]; [|discriminate].
    destruct (scheme_from_str s) as [sch'| |] eqn:E; cbn [bind]; try discriminate.
    destruct (strip_prefix (lit "realm=""") (trim_start d)) as [q|] eqn:P; cbn [bind]; [|discriminate].
    destruct (existsb (N.eqb 34) q) eqn:X; cbn [bind]; [|discriminate]. intros H. inv H. apply splitn2_some in S as [-> _].
    apply C46_scheme_case_insensitive in E. apply last_of in L as [ws ->]. apply strip_prefix_some in P.
    destruct (drop_while_suffix is_ws d) as (b & D & B). unfold trim_start, trim_start_matches in P. rewrite P in D.
    destruct (cut_quote q X) as (rest & Q & N). exists ws, s, b, rest. split; [|auto]. do 4 f_equal. rewrite D, Q at 1. reflexivity.
  - intros (vs & s & b & rest & G & E & B & N). rewrite (with_last_snoc _ h WWW_AUTHENTICATE vs _ www_parse G). unfold www_parse.
    rewrite (proj2 (splitn2_some 32 _ s _) (conj eq_refl (spelling_no_space s sch E))). apply C46_scheme_case_insensitive in E. rewrite E. cbn [bind].
    unfold trim_start, trim_start_matches. rewrite drop_while_app_all by exact B.
    change (drop_while is_ws (lit "realm=""" ++ ?x)) with (lit "realm=""" ++ x). rewrite strip_prefix_app. rewrite existsb_app.
    change (existsb (N.eqb 34) (lit """" ++ rest)) with true. rewrite orb_true_r. cbn [bind]. do 3 f_equal.
    clear - N. induction r as [|c r IH]; [reflexivity|]. cbn [app take_while]. destruct (N.eqb_spec c 34) as [->|]; [elim N; now left|]. cbn [negb]. f_equal.
    apply IH. intros I. apply N. now right.
Qed.

Print Assumptions C45_credentials_iff.
Print Assumptions C45_accepted_iff.
Print Assumptions C46_accepted_iff.
Print Assumptions C47_accepted_iff.

(** "a:b" with its padding, with half of it, and without; a stray "=" and leftover bits are refused. *)
Example C45_exact_example :
  b64_encode (utf8_encode (lit "a:bc")) = lit "YTpiYw==" /\
  map basic_from_credentials [lit "YTpiYw=="; lit "YTpiYw="; lit "YTpiYw"] = repeat (Ok (lit "a", lit "bc")) 3 /\
  map basic_from_credentials [lit "YTpi="; lit "YTpiYx"; lit "YTpiY"; lit "YTpiYw==="; lit "YWJj"] = repeat (Err 400) 5 /\
  lit "YTpiYw" ++ repeat 61 2 = b64_encode (utf8_encode (lit "a" ++ [58] ++ lit "bc")).
Proof. vm_compute. auto. Qed.
Example C46_C47_exact_example :
  auth_from_headers [(lit "authorization", [lit "x"; lit "bEARER  t=1"])] = Ok (Some (Bearer, lit " t=1")) /\
  www_from_headers [(lit "www-authenticate", [lit "DIGEST   realm=""a b"" nonsense"])] = Ok (Some (Digest, lit "a b")).
Proof. vm_compute. auto. Qed.
