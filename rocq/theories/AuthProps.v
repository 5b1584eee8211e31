(** C45 Basic authentication, C46 Authorization, C47 WWW-Authenticate. *)
From Verif Require Import Base BaseFacts Utf8 Headers HeadersFacts Typed TypedFacts ParseUtilsFacts Auth.
From Coq Require Import ZifyBool ZifyNat ZifyN.

(** ** C46 *)
(** Every spelling of a scheme name, and nothing else, is that scheme; the rest is a 400 error. *)
Theorem C46_scheme_case_insensitive : forall s sch,
  scheme_from_str s = Ok sch <-> to_lower s = to_lower (scheme_show sch).
Proof.
  intros s sch. unfold scheme_from_str. split.
  - repeat match goal with |- context [if seqb (to_lower s) ?x then _ else _] => destruct (seqb_spec (to_lower s) x) as [->|_]; [intros H; inv H; reflexivity|] end.
    discriminate.
  - intros ->. destruct sch; reflexivity.
Qed.
Theorem C46_unknown_scheme_is_400 : forall s,
  (forall sch, to_lower s <> to_lower (scheme_show sch)) -> scheme_from_str s = Err 400.
Proof.
  intros s H. destruct (scheme_from_str s) as [sch|e|] eqn:E.
  - apply C46_scheme_case_insensitive in E. now elim (H sch).
  - revert E. unfold scheme_from_str. repeat match goal with |- context [if ?b then _ else _] => destruct b; [discriminate|] end. congruence.
  - revert E. unfold scheme_from_str. repeat match goal with |- context [if ?b then _ else _] => destruct b; [discriminate|] end. discriminate.
Qed.
Example C46_scheme_example :
  scheme_from_str (lit "sCRAM-sha-256") = Ok ScramSha256 /\ scheme_from_str (lit "VAPID") = Ok Vapid /\ scheme_from_str (lit "Basics") = Err 400.
Proof. vm_compute. auto. Qed.
Print Assumptions C46_scheme_case_insensitive.
Print Assumptions C46_unknown_scheme_is_400.

Lemma show_no_space : forall s, no_char 32 (scheme_show s) = true.
Proof. destruct s; reflexivity. Qed.
Lemma scheme_show_parse : forall s, scheme_from_str (scheme_show s) = Ok s.
Proof. intros s. now apply C46_scheme_case_insensitive. Qed.

(** Every scheme with every credentials text (spaces, commas, non-ASCII and the empty text included) comes back
    from any header map. *)
Theorem C46_round_trip : forall h sch c, auth_from_headers (auth_apply h (sch, c)) = Ok (Some (sch, c)).
Proof.
  intros h sch c. unfold auth_from_headers, auth_apply. rewrite with_last_apply. unfold auth_value, auth_parse, splitn2. cbn [fst snd app].
  rewrite (split_once_app 32 _ c (show_no_space sch)), scheme_show_parse. reflexivity.
Qed.
(** Any spelling of the scheme, in the last value of the header. *)
Theorem C46_any_spelling : forall h vs s sch c, to_lower s = to_lower (scheme_show sch) ->
  h_get h (lit "authorization") = Some (vs ++ [s ++ [32] ++ c]) -> auth_from_headers h = Ok (Some (sch, c)).
Proof.
  intros h vs s sch c E G. unfold auth_from_headers. rewrite (with_last_snoc _ h AUTHORIZATION vs _ auth_parse G).
  assert (Ns : no_char 32 s = true).
  { assert (L : no_char 32 (to_lower s) = true) by (rewrite E; destruct sch; reflexivity). clear -L.
    unfold no_char, to_lower in *. rewrite forallb_forall in *. intros x Hx. assert (Y := L (lower_char x) (in_map _ _ _ Hx)).
    destruct (N.eqb_spec x 32) as [->|]; [discriminate Y|reflexivity]. }
  unfold auth_parse, splitn2. cbn [app]. rewrite (split_once_app 32 s c Ns). apply C46_scheme_case_insensitive in E. now rewrite E.
Qed.
(** No header value panics. *)
Theorem C46_total : forall h vs v, h_get h (lit "authorization") = Some (vs ++ [v]) ->
  (exists a, auth_from_headers h = Ok (Some a)) \/ auth_from_headers h = Err 400.
Proof.
  intros h vs v G. unfold auth_from_headers. rewrite (with_last_snoc _ h AUTHORIZATION vs v auth_parse G). unfold auth_parse.
  destruct (splitn2 32 v) as [s [c|]]; [|now right].
  destruct (scheme_from_str s) as [sch|e|] eqn:E; cbn [bind]; [left; eauto| |].
  - right. revert E. unfold scheme_from_str. repeat match goal with |- context [if ?b then _ else _] => destruct b; [discriminate|] end. intros X. now inv X.
  - revert E. unfold scheme_from_str. repeat match goal with |- context [if ?b then _ else _] => destruct b; [discriminate|] end. discriminate.
Qed.
Example C46_round_trip_example :
  auth_from_headers (auth_apply [(lit "authorization", [lit "x"])] (Digest, lit " username=""a b"", x=1 ")) = Ok (Some (Digest, lit " username=""a b"", x=1 ")).
Proof. vm_compute. reflexivity. Qed.
Print Assumptions C46_round_trip.
Print Assumptions C46_any_spelling.
Print Assumptions C46_total.

(** ** base64 *)
Lemma b64_val_char : forall i, i < 64 -> b64_val (b64_char i) = Some i.
Proof.
  intros i H. unfold b64_char, b64_val, is_upper, is_lower, is_digit.
  destruct (i <? 26) eqn:E1; [replace ((65 <=? 65 + i) && (65 + i <=? 90)) with true by lia; f_equal; lia|].
  destruct (i <? 52) eqn:E2.
  { replace ((65 <=? 71 + i) && (71 + i <=? 90)) with false by lia.
    replace ((97 <=? 71 + i) && (71 + i <=? 122)) with true by lia. f_equal; lia. }
  destruct (i <? 62) eqn:E3.
  { replace ((65 <=? i - 4) && (i - 4 <=? 90)) with false by lia.
    replace ((97 <=? i - 4) && (i - 4 <=? 122)) with false by lia.
    replace ((48 <=? i - 4) && (i - 4 <=? 57)) with true by lia. f_equal; lia. }
  destruct (N.eqb_spec i 62) as [->|]; [reflexivity|]. replace i with 63 by lia. reflexivity.
Qed.
Lemma b64_char_not_pad : forall i, i < 64 -> (b64_char i =? 61) = false.
Proof. intros i H. unfold b64_char. destruct (i <? 26) eqn:E1, (i <? 52) eqn:E2, (i <? 62) eqn:E3, (i =? 62) eqn:E4; lia. Qed.
Lemma three_ind : forall (P : list N -> Prop), P [] -> (forall a, P [a]) -> (forall a b, P [a; b]) ->
  (forall a b c r, P r -> P (a :: b :: c :: r)) -> forall l, P l.
Proof.
  intros P H0 H1 H2 H3 l. enough (G : P l /\ (forall a, P (a :: l)) /\ forall a b, P (a :: b :: l)) by apply G.
  induction l as [|x l (I0 & I1 & I2)]; [auto|]. split; [apply I1|]. split; [intros a; apply I2|]. intros a b. now apply H3.
Qed.
Lemma b64_three_enc : forall a b c, a < 256 -> b < 256 -> c < 256 ->
  b64_three (b64_char (a / 4)) (b64_char (a mod 4 * 16 + b / 16)) (b64_char (b mod 16 * 4 + c / 64)) (b64_char (c mod 64)) = Some [a; b; c].
Proof.
  intros a b c A B C. unfold b64_three. rewrite !b64_val_char by lia.
  do 2 f_equal; [lia|]. f_equal; [lia|]. f_equal. lia.
Qed.
Theorem b64_decode_encode : forall bs, Forall (fun b => b < 256) bs -> b64_decode (b64_encode bs) = Some bs.
Proof.
  induction bs as [|a|a b|a b c r IH] using three_ind; intros H.
  - reflexivity.
  - inv H. cbn [b64_encode b64_decode]. change (61 =? 61) with true. cbv iota. unfold b64_one. rewrite !b64_val_char by lia.
    replace (a mod 4 * 16 mod 16 =? 0) with true by lia. do 2 f_equal. lia.
  - inv H. inv H3. cbn [b64_encode b64_decode]. change (61 =? 61) with true. cbv iota. rewrite b64_char_not_pad by lia.
    unfold b64_two. rewrite !b64_val_char by lia. replace (b mod 16 * 4 mod 4 =? 0) with true by lia.
    do 2 f_equal; [lia|]. f_equal. lia.
  - inv H. inv H3. inv H4. specialize (IH H5). cbn [b64_encode b64_decode].
    destruct (b64_encode r) as [|d l] eqn:E.
    + assert (r = []) by (destruct r as [|x [|y [|z r]]]; [reflexivity|discriminate E|discriminate E|discriminate E]). subst r.
      rewrite b64_char_not_pad by lia. now rewrite b64_three_enc.
    + rewrite b64_three_enc by assumption. now rewrite IH.
Qed.

(** ** C45 *)
Lemma credentials_written : forall u p, valid_str u = true -> valid_str p = true ->
  basic_from_credentials (b64_encode (utf8_encode (u ++ [58] ++ p)))
  = match splitn2 58 (u ++ [58] ++ p) with (u', Some p') => Ok (u', p') | _ => Err 400 end.
Proof.
  intros u p U P. assert (V : valid_str (u ++ [58] ++ p) = true).
  { unfold valid_str in *. rewrite !forallb_app, U, P. reflexivity. }
  unfold basic_from_credentials. rewrite b64_decode_encode by now apply utf8_encode_bytes. cbn [ok_or bind].
  rewrite utf8_decode_encode by exact V. reflexivity.
Qed.
Lemma basic_read_written : forall h u p, valid_str u = true -> valid_str p = true ->
  basic_from_headers (basic_apply h (u, p))
  = match splitn2 58 (u ++ [58] ++ p) with (u', Some p') => Ok (Some (u', p')) | _ => Err 400 end.
Proof.
  intros h u p U P. unfold basic_from_headers, basic_apply. cbn [fst snd]. rewrite C46_round_trip. cbn [bind].
  rewrite credentials_written by assumption. destruct (splitn2 58 (u ++ [58] ++ p)) as [x [y|]]; reflexivity.
Qed.
(** Every user name without a colon and every password (colons, non-ASCII, empty included) come back from any
    header map. *)
Theorem C45_round_trip_partial : forall h u p, valid_str u = true -> valid_str p = true -> ~ In 58 u ->
  basic_from_headers (basic_apply h (u, p)) = Ok (Some (u, p)).
Proof.
  intros h u p U P C. rewrite basic_read_written by assumption. unfold splitn2. cbn [app].
  rewrite split_once_app; [reflexivity|]. unfold no_char. rewrite forallb_forall. intros c Hc.
  destruct (N.eqb_spec c 58); [subst; contradiction|reflexivity].
Qed.
(** A user name with a colon is written without complaint and always read back as another pair. *)
Theorem C45_colon_always_wrong : forall h u1 u2 p, valid_str (u1 ++ [58] ++ u2) = true -> valid_str p = true -> ~ In 58 u1 ->
  basic_from_headers (basic_apply h (u1 ++ [58] ++ u2, p)) = Ok (Some (u1, u2 ++ [58] ++ p)).
Proof.
  intros h u1 u2 p U P C. rewrite basic_read_written by assumption. unfold splitn2.
  replace ((u1 ++ [58] ++ u2) ++ [58] ++ p) with (u1 ++ 58 :: (u2 ++ [58] ++ p)) by (rewrite <- !app_assoc; reflexivity).
  rewrite split_once_app; [reflexivity|]. unfold no_char. rewrite forallb_forall. intros c Hc.
  destruct (N.eqb_spec c 58); [subst; contradiction|reflexivity].
Qed.
Theorem C45_colon_refuted : exists u p, basic_from_headers (basic_apply [] (u, p)) = Ok (Some (lit "a", lit "b:c")) /\ u = lit "a:b" /\ p = lit "c".
Proof. exists (lit "a:b"), (lit "c"). split; [vm_compute; reflexivity|auto]. Qed.
(** Any header value gives a pair or a 400 error; a scheme other than Basic is refused. *)
Lemma credentials_total : forall c, (exists r, basic_from_credentials c = Ok r) \/ basic_from_credentials c = Err 400.
Proof.
  intros c. unfold basic_from_credentials. destruct (b64_decode c) as [b|]; cbn [ok_or bind]; [|now right].
  destruct (utf8_decode b) as [t|]; cbn [ok_or bind]; [|now right]. destruct (splitn2 58 t) as [x [y|]]; [left; eauto|now right].
Qed.
Theorem C45_total : forall h vs v, h_get h (lit "authorization") = Some (vs ++ [v]) ->
  (exists a, basic_from_headers h = Ok (Some a)) \/ basic_from_headers h = Err 400.
Proof.
  intros h vs v G. unfold basic_from_headers. destruct (C46_total h vs v G) as [[[sch c] A]|A]; rewrite A; cbn [bind]; [|now right].
  destruct sch; try (now right). destruct (credentials_total c) as [[r R]|R]; rewrite R; cbn [bind]; [left; eauto|now right].
Qed.
Theorem C45_other_scheme_refused : forall h sch c, sch <> Basic -> basic_from_headers (auth_apply h (sch, c)) = Err 400.
Proof. intros h sch c N. unfold basic_from_headers. rewrite C46_round_trip. cbn [bind]. destruct sch; congruence. Qed.
Example C45_round_trip_example :
  h_get (basic_apply [] (lit "nori", lit "secret_fish!!")) (lit "authorization") = Some [lit "Basic bm9yaTpzZWNyZXRfZmlzaCEh"] /\
  basic_from_headers (basic_apply [] ([233; 8364; 128031], lit "a:b:")) = Ok (Some ([233; 8364; 128031], lit "a:b:")) /\
  basic_from_headers [(lit "authorization", [lit "BASIC bm9yaTpzZWNyZXRfZmlzaCEh"])] = Ok (Some (lit "nori", lit "secret_fish!!")).
Proof. vm_compute. auto. Qed.
Print Assumptions C45_round_trip_partial.
Print Assumptions C45_colon_always_wrong.
Example C45_colon_always_wrong_case : basic_from_headers (basic_apply [] (lit "a:b", lit "c")) = Ok (Some (lit "a", lit "b:c")).
Proof. apply (C45_colon_always_wrong [] (lit "a") (lit "b") (lit "c")); [reflexivity|reflexivity|intros I; cbn in I; intuition discriminate]. Qed.
Print Assumptions C45_colon_refuted.
Print Assumptions C45_total.
Print Assumptions C45_other_scheme_refused.

(** ** C47 *)
Lemma www_read_written : forall h sch r,
  www_from_headers (www_apply h (sch, r)) = Ok (Some (sch, take_while (fun c => negb (c =? 34)) r)).
Proof.
  intros h sch r. unfold www_from_headers, www_apply. rewrite with_last_apply. unfold www_value, www_parse, splitn2. cbn [fst snd].
  change (lit " realm=""") with (32 :: lit "realm="""). cbn [app].
  rewrite (split_once_app 32 _ _ (show_no_space sch)), scheme_show_parse. cbn [bind].
  change (lit "realm=""" ++ r ++ lit """, charset=""UTF-8""") with (lit "realm=""" ++ (r ++ lit """, charset=""UTF-8""")).
  assert (T : forall x, trim_start (lit "realm=""" ++ x) = lit "realm=""" ++ x) by reflexivity. rewrite T.
  rewrite strip_prefix_app. rewrite existsb_app.
  change (existsb (N.eqb 34) (lit """, charset=""UTF-8""")) with true. rewrite orb_true_r. cbn [bind]. do 3 f_equal.
  induction r as [|c r IH]; [reflexivity|]. cbn [app take_while]. destruct (negb (c =? 34)); [|reflexivity]. now rewrite IH.
Qed.
(** What is written, letter for letter. *)
Theorem C47_written : forall h sch r name, In (sch, name)
   [(Basic, "Basic"); (Bearer, "Bearer"); (Digest, "Digest"); (Hoba, "HOBA"); (Mutual, "Mutual"); (Negotiate, "Negotiate"); (OAuth, "OAuth");
    (ScramSha1, "SCRAM-SHA-1"); (ScramSha256, "SCRAM-SHA-256"); (Vapid, "vapid")]%string ->
  h_get (www_apply h (sch, r)) (lit "www-authenticate") = Some [lit name ++ lit " realm=""" ++ r ++ lit """, charset=""UTF-8"""].
Proof.
  intros h sch r name H. unfold www_apply, apply_value. change WWW_AUTHENTICATE with (lit "www-authenticate"). unfold h_get, h_insert, to_header_values. cbn [fst]. rewrite hm_get_insert_same. do 2 f_equal. unfold www_value. cbn [fst snd].
  cbn [In] in H. repeat (destruct H as [H|H]; [injection H as <- <-; reflexivity|]). destruct H.
Qed.
Print Assumptions C47_written.
(** Every scheme and every realm without a double quote come back from any header map. *)
Theorem C47_round_trip_partial : forall h sch r, ~ In 34 r -> www_from_headers (www_apply h (sch, r)) = Ok (Some (sch, r)).
Proof.
  intros h sch r N. rewrite www_read_written. do 3 f_equal. induction r as [|c r IH]; [reflexivity|]. cbn [take_while].
  destruct (N.eqb_spec c 34) as [->|]; [elim N; now left|]. cbn [negb]. f_equal. apply IH. intros I. apply N. now right.
Qed.
(** A realm with a double quote is always cut there. *)
Theorem C47_quote_always_cut : forall h sch r1 r2, ~ In 34 r1 ->
  www_from_headers (www_apply h (sch, r1 ++ [34] ++ r2)) = Ok (Some (sch, r1)).
Proof.
  intros h sch r1 r2 N. rewrite www_read_written. do 3 f_equal. induction r1 as [|c r IH]; [reflexivity|]. cbn [app take_while].
  destruct (N.eqb_spec c 34) as [->|]; [elim N; now left|]. cbn [negb]. f_equal. apply IH. intros I. apply N. now right.
Qed.
Theorem C47_quote_refuted : exists sch r, www_from_headers (www_apply [] (sch, r)) = Ok (Some (sch, lit "a")) /\ r = lit "a""b".
Proof. exists Basic, (lit "a""b"). split; [vm_compute; reflexivity|reflexivity]. Qed.
(** Any header value gives a pair or a 400 error. *)
Theorem C47_total : forall h vs v, h_get h (lit "www-authenticate") = Some (vs ++ [v]) ->
  (exists a, www_from_headers h = Ok (Some a)) \/ www_from_headers h = Err 400.
Proof.
  intros h vs v G. unfold www_from_headers. rewrite (with_last_snoc _ h WWW_AUTHENTICATE vs v www_parse G). unfold www_parse.
  destruct (splitn2 32 v) as [s [r|]]; [|now right].
  destruct (scheme_from_str s) as [sch|e|] eqn:E; cbn [bind].
  - destruct (strip_prefix (lit "realm=""") (trim_start r)) as [q|]; [|now right].
    destruct (existsb (N.eqb 34) q); cbn [bind]; [left; eauto|now right].
  - right. revert E. unfold scheme_from_str. repeat match goal with |- context [if ?b then _ else _] => destruct b; [discriminate|] end. intros X. now inv X.
  - revert E. unfold scheme_from_str. repeat match goal with |- context [if ?b then _ else _] => destruct b; [discriminate|] end. discriminate.
Qed.
(** Legal challenges (RFC 7235) the reader refuses: realm not first, or as a token, or in capitals. *)
Theorem C47_legal_challenge_refuted : exists v1 v2 v3,
  v1 = lit "Basic charset=""UTF-8"", realm=""a""" /\ v2 = lit "Basic realm=a" /\ v3 = lit "Basic Realm=""a""" /\
  www_parse v1 = Err 400 /\ www_parse v2 = Err 400 /\ www_parse v3 = Err 400.
Proof. eexists. eexists. eexists. split; [reflexivity|]. split; [reflexivity|]. split; [reflexivity|]. vm_compute. auto. Qed.
Example C47_round_trip_example :
  www_from_headers (www_apply [] (Basic, lit "Access to the staging site")) = Ok (Some (Basic, lit "Access to the staging site")).
Proof. vm_compute. reflexivity. Qed.
Print Assumptions C47_round_trip_partial.
Print Assumptions C47_quote_always_cut.
Example C47_quote_always_cut_case : www_from_headers (www_apply [] (Digest, lit "a""b")) = Ok (Some (Digest, lit "a")).
Proof. apply (C47_quote_always_cut [] Digest (lit "a") (lit "b")). intros I. cbn in I. intuition discriminate. Qed.
Print Assumptions C47_quote_refuted.
Print Assumptions C47_total.
Print Assumptions C47_legal_challenge_refuted.
