(** Properties C19-C23 and C69: media types. *)
From Verif Require Import Base BaseFacts Mime MimeFacts.
From Coq Require Import ZifyBool ZifyNat ZifyN.

(** C19: printing what was parsed and parsing again is the identity. *)
Theorem C19_mime_round_trip : forall s m, mime_parse s = Ok m -> mime_parse (mime_format m) = Ok m.
Proof.
  intros s m H. apply mime_round_trip. destruct (mime_parse_good s) as [(m' & E & G)|E]; congruence.
Qed.
Print Assumptions C19_mime_round_trip.
Example C19_example : exists m, mime_parse (lit " Text/HTML ; Charset=utf-8;a=""x\""y;z"" ; b=c;a=1") = Ok m
  /\ mime_format m = lit "text/html;charset=utf-8;a=""x\""y;z"";b=c".
Proof. eexists. split; vm_compute; reflexivity. Qed.

(** ** Specification of a token: RFC 7230 tchar. *)
Definition tchar (c : N) : Prop :=
  In c (lit "!#$%&'*+-.^_`|~") \/ 48 <= c <= 57 \/ 65 <= c <= 90 \/ 97 <= c <= 122.
Definition token (s : str) : Prop := s <> [] /\ Forall tchar s.
Definition lower_token (s : str) : Prop := token s /\ Forall (fun c => ~ (65 <= c <= 90)) s.

Lemma is_token_tchar c : is_token_cp c = true <-> tchar c.
Proof.
  unfold is_token_cp, tchar, is_lower, is_upper, is_digit. cbn [existsb lit list_ascii_of_string map In N_of_ascii N_of_digits].
  cbn. rewrite ?orb_true_iff, ?andb_true_iff, ?N.eqb_eq. lia.
Qed.
Lemma tokens_token s : nonempty s = true -> forallb is_token_cp s = true -> token s.
Proof.
  intros N H. split; [destruct s; [discriminate N|discriminate]|]. rewrite forallb_forall in H.
  apply Forall_forall. intros c I. apply is_token_tchar, H, I.
Qed.
Lemma token_tokens s : token s -> nonempty s = true /\ forallb is_token_cp s = true.
Proof.
  intros [N F]. split; [destruct s; [destruct (N eq_refl)|reflexivity]|]. rewrite forallb_forall.
  intros c I. apply is_token_tchar. rewrite Forall_forall in F. auto.
Qed.
Lemma lower_fixed s : to_lower s = s -> Forall (fun c => ~ (65 <= c <= 90)) s.
Proof.
  induction s as [|c s IH]; cbn [to_lower map]; intros H; [constructor|].
  assert (H1 : lower_char c = c) by congruence. assert (H2 : map lower_char s = s) by congruence.
  constructor; [|apply IH; exact H2].
  intros A. unfold lower_char, is_upper in H1. destruct ((65 <=? c) && (c <=? 90)) eqn:E; lia.
Qed.

(** C20: parsing never panics; what it returns is well formed. *)
Theorem C20_mime_parse_total_wellformed : forall s,
  mime_parse s = Err 500 \/
  exists m, mime_parse s = Ok m /\ lower_token (basetype m) /\ lower_token (subtype m) /\
    essence m = basetype m ++ lit "/" ++ subtype m /\
    NoDup (map fst (params m)) /\ (forall n v, In (n, v) (params m) -> lower_token n).
Proof.
  intros s. destruct (mime_parse_good s) as [(m & E & B1 & B2 & B3 & S1 & S2 & S3 & Es & D & G)|E]; [right|left; exact E].
  exists m. repeat apply conj; auto using tokens_token, lower_fixed; try apply (tokens_token _ B1 B2); try apply (tokens_token _ S1 S2).
  intros n v I. apply G in I. destruct I as (G1 & G2 & G3 & _). split; [apply tokens_token|apply lower_fixed]; assumption.
Qed.
(** Every well formed type/subtype is accepted (so the parser is not vacuously safe). *)
Theorem C20_mime_accepts_tokens : forall b s, token b -> token s ->
  exists m, mime_parse (b ++ lit "/" ++ s) = Ok m /\ basetype m = to_lower b /\ subtype m = to_lower s.
Proof.
  intros b s B S. apply token_tokens in B, S. destruct B as [B1 B2], S as [S1 S2].
  assert (P := mime_parse_render b s [] B2 B1 S2 S1). unfold render in P. cbn [flat_map] in P. rewrite app_nil_r in P.
  eexists. split; [apply P; intros n v []|]. split; reflexivity.
Qed.
Print Assumptions C20_mime_parse_total_wellformed.
Print Assumptions C20_mime_accepts_tokens.
Example C20_example : mime_parse (lit "text") = Err 500 /\ mime_parse [255; 47; 255] = Err 500 /\
  exists m, mime_parse (lit "X/y;p=""") = Ok m /\ params m = [(lit "p", [])].
Proof. repeat split; try (vm_compute; reflexivity). eexists. split; vm_compute; reflexivity. Qed.

(** ** C21: parameters.  The text of a media type with the parameters [items], written with the
    quoting rule of the grammar, and the first parameter of a given name. *)
Definition quote_if_needed (v : str) : str :=
  if forallb is_token_cp v && nonempty v then v else lit """" ++ escape_value v ++ lit """".
Definition mime_text (base sub : str) (items : list (str * str)) : str :=
  base ++ lit "/" ++ sub ++ flat_map (fun p => lit ";" ++ fst p ++ lit "=" ++ quote_if_needed (snd p)) items.
Fixpoint first_item (items : list (str * str)) (n : str) : option str :=
  match items with
  | [] => None
  | (k, v) :: r => if eq_ignore_case k n then Some v else first_item r n
  end.

Lemma format_param_quote n v : lit ";" ++ n ++ lit "=" ++ quote_if_needed v = format_param n v.
Proof.
  unfold format_param, quote_if_needed.
  replace (negb match v with [] => true | _ => false end) with (nonempty v) by (destruct v; reflexivity).
  destruct (forallb is_token_cp v && nonempty v); reflexivity.
Qed.

Lemma mime_text_render base sub items : mime_text base sub items = render base sub items.
Proof.
  unfold mime_text, render. do 3 f_equal. apply flat_map_ext. intros [k v]. apply format_param_quote.
Qed.

(** False of the code when a charset other than utf-8 comes first and utf-8 second; removing
    charset then also fails to make it absent. *)
Theorem C21_params_refuted :
  exists items m, mime_parse (mime_text (lit "a") (lit "b") items) = Ok m /\
    first_item items (lit "charset") = Some (lit "gbk") /\ param m (lit "charset") = Ok (Some (lit "utf-8")) /\
    exists m', remove_param m (lit "charset") = Ok (Some (lit "utf-8"), m') /\ param m' (lit "charset") = Ok (Some (lit "gbk")).
Proof.
  exists [(lit "charset", lit "gbk"); (lit "charset", lit "utf-8")]. eexists. repeat split; try (vm_compute; reflexivity).
  eexists. split; vm_compute; reflexivity.
Qed.
Print Assumptions C21_params_refuted.

Lemma find_param_app ps n v x : find_param (ps ++ [(n, v)]) x =
  match find_param ps x with Some w => Some w | None => if seqb n x then Some v else None end.
Proof. induction ps as [|[k w] ps IH]; cbn [find_param app]; [reflexivity|]. destruct (seqb k x); auto. Qed.
Lemma find_param_none ps n : find_param ps n = None <-> ~ In n (map fst ps).
Proof.
  induction ps as [|[k w] ps IH]; cbn [find_param map fst In]; [tauto|].
  destruct (seqb_spec k n) as [->|N]; [split; [discriminate|intros H; destruct H; auto]|]. rewrite IH. tauto.
Qed.

Lemma fold_first : forall items u acc n,
  (forall k v, In (k, v) items -> nonempty k = true /\ forallb is_token_cp k = true /\ forallb is_qs_cp v = true) ->
  (forall k v, In (k, v) items -> to_lower k = lit "charset" -> v <> lit "utf-8") ->
  to_lower n = n ->
  let st := fold_left (fun st p => push_param (to_lower (fst p)) (snd p) st) items (u, acc) in
  fst st = u /\
  find_param (snd st) n = match find_param acc n with Some v => Some v | None => first_item items n end.
Proof.
  induction items as [|[k v] items IH]; intros u acc n H C L; cbn [fold_left fst snd first_item].
  - split; [reflexivity|]. destruct (find_param acc n); reflexivity.
  - destruct (H k v (or_introl eq_refl)) as (H1 & H2 & H3).
    assert (E : push_param (to_lower k) v (u, acc) =
      (u, if existsb (fun p => seqb (fst p) (to_lower k)) acc then acc else acc ++ [(to_lower k, v)])).
    { unfold push_param. destruct (seqb (to_lower k) (lit "charset") && seqb v (lit "utf-8")) eqn:X.
      - apply andb_true_iff in X as [X1 X2]. apply seqb_eq in X1, X2. destruct (C k v (or_introl eq_refl) X1 X2).
      - replace (negb match to_lower k with [] => true | _ => false end) with (nonempty k) by (destruct k; reflexivity).
        rewrite H1, tokens_lower, H2, H3. cbn [andb]. destruct (existsb _ acc); reflexivity. }
    rewrite E.
    destruct (IH u (if existsb (fun p => seqb (fst p) (to_lower k)) acc then acc else acc ++ [(to_lower k, v)]) n) as [I1 I2];
      [intros k' v' I; apply H; right; exact I|intros k' v' I; apply C; right; exact I|exact L|].
    split; [exact I1|]. rewrite I2. clear I1 I2 E IH. unfold eq_ignore_case. rewrite L.
    destruct (existsb (fun p => seqb (fst p) (to_lower k)) acc) eqn:X.
    + destruct (find_param acc n) as [w|] eqn:F; [reflexivity|].
      destruct (seqb_spec (to_lower k) n) as [K|N]; [|reflexivity].
      apply existsb_name in X. rewrite K in X. apply find_param_none in F. contradiction.
    + rewrite find_param_app. destruct (find_param acc n) as [w|] eqn:F; [reflexivity|].
      destruct (seqb (to_lower k) n); reflexivity.
Qed.
Lemma push_utf8 n v acc : fst (push_param n v (true, acc)) = true.
Proof. unfold push_param. destruct (_ && _); [reflexivity|]. destruct (_ && _); [|reflexivity]. destruct (existsb _ acc); reflexivity. Qed.
Lemma fold_utf8_keeps : forall items acc, fst (fold_left (fun st p => push_param (to_lower (fst p)) (snd p) st) items (true, acc)) = true.
Proof.
  induction items as [|[k v] items IH]; intros acc; cbn [fold_left]; [reflexivity|].
  assert (A := push_utf8 (to_lower (fst (k, v))) (snd (k, v)) acc).
  destruct (push_param (to_lower (fst (k, v))) (snd (k, v)) (true, acc)) as [u acc']. cbn [fst] in A. subst u. apply IH.
Qed.

(** The characters that a quoted value may have. *)
Definition quotable (c : N) : Prop := c = 9 \/ 32 <= c <= 126 \/ 128 <= c <= 255.
Lemma quotable_spec : forall v, forallb is_qs_cp v = true <-> Forall quotable v.
Proof. intros v. rewrite forallb_forall, Forall_forall. split; intros H c I; specialize (H c I); revert H; unfold is_qs_cp, quotable; lia. Qed.
(** C21, lookup: for every text without a utf-8 charset the parameter of any ASCII name, in any case,
    is the first one in the text.  Missing: texts naming utf-8 after another charset (refuted). *)
Theorem C21_param_is_first_partial : forall base sub items,
  token base -> token sub ->
  (forall n v, In (n, v) items -> token n /\ Forall quotable v /\ (to_lower n = lit "charset" -> v <> lit "utf-8")) ->
  exists m, mime_parse (mime_text base sub items) = Ok m /\
    forall n, is_ascii n = true -> param m n = Ok (first_item items n).
Proof.
  intros base sub items B S H. apply token_tokens in B, S. destruct B as [B1 B2], S as [S1 S2].
  assert (K : forall n v, In (n, v) items -> nonempty n = true /\ forallb is_token_cp n = true)
    by (intros n v I; apply H in I; destruct I as [I _]; apply token_tokens, I).
  exists (let st := fold_left (fun st p => push_param (to_lower (fst p)) (snd p) st) items (false, []) in
    mkMime (to_lower base ++ [47] ++ to_lower sub) (to_lower base) (to_lower sub) (fst st) (snd st)).
  split.
  - rewrite mime_text_render. apply (mime_parse_render base sub items); assumption.
  - intros n A. unfold param, param_name. rewrite A. cbn [bind].
    destruct (fold_first items false [] (to_lower n)) as [F1 F2].
    + intros k v I. destruct (K k v I). apply H in I. destruct I as (_ & I & _). apply quotable_spec in I. tauto.
    + intros k v I. apply H in I. tauto.
    + apply to_lower_idem.
    + unfold get_param. cbv zeta. cbn [is_utf8 params]. rewrite F1, F2, andb_false_r. cbn [find_param].
      f_equal. clear. induction items as [|[k v] items IH]; cbn [first_item]; [reflexivity|].
      unfold eq_ignore_case. rewrite to_lower_idem. destruct (seqb _ _); [reflexivity|exact IH].
Qed.
(** The characters of a parameter value are those of the WHATWG "HTTP quoted-string": tab, the printable ASCII
    characters, and 128 to 255.  A parameter with any other character is dropped. *)
Theorem C21_value_characters : forall base sub n v,
  token base -> token sub -> token n -> to_lower n <> lit "charset" ->
  exists m, mime_parse (mime_text base sub [(n, v)]) = Ok m /\
    (Forall quotable v -> param m n = Ok (Some v)) /\ (~ Forall quotable v -> param m n = Ok None).
Proof.
  intros base sub n v B S N C. assert (TN := N). apply token_tokens in B, S, N. destruct B as [B1 B2], S as [S1 S2], N as [N1 N2].
  assert (Q := quotable_spec v).
  assert (A : is_ascii n = true).
  { apply forallb_forall. intros c I. destruct TN as [_ F]. rewrite Forall_forall in F. specialize (F c I). unfold tchar in F.
    destruct F as [F|F]; [|lia]. cbn in F. lia. }
  eexists. split. { rewrite mime_text_render. apply (mime_parse_render base sub [(n, v)] B2 B1 S2 S1).
                    intros n' v' [I|[]]. injection I as <- <-. auto. }
  unfold param, param_name. rewrite A. cbn [bind fold_left fst snd]. unfold push_param, get_param.
  destruct (seqb_spec (to_lower n) (lit "charset")) as [E|_]; [congruence|]. cbn [andb].
  replace (negb match to_lower n with [] => true | _ => false end) with true by (destruct n; [discriminate N1|reflexivity]).
  rewrite tokens_lower, N2. cbn [andb].
  destruct (forallb is_qs_cp v) eqn:E; cbn [existsb fst snd is_utf8 params app find_param]; rewrite ?seqb_refl; split; intros F; try reflexivity.
  - destruct F. now apply Q.
  - apply Q in F. discriminate F.
Qed.
Print Assumptions C21_value_characters.
(** ... and when utf-8 is the first charset in the text, [charset] is utf-8. *)
Theorem C21_utf8_charset_partial : forall base sub pre post n,
  token base -> token sub -> to_lower n = lit "charset" ->
  (forall n v, In (n, v) (pre ++ post) -> token n /\ Forall quotable v) ->
  exists m, mime_parse (mime_text base sub (pre ++ (n, lit "utf-8") :: post)) = Ok m /\
    param m (lit "Charset") = Ok (Some (lit "utf-8")).
Proof.
  intros base sub pre post n B S N H. apply token_tokens in B, S. destruct B as [B1 B2], S as [S1 S2].
  assert (NT : nonempty n = true /\ forallb is_token_cp n = true).
  { split; [destruct n; [discriminate N|reflexivity]|]. rewrite <- tokens_lower, N. reflexivity. }
  set (items := pre ++ (n, lit "utf-8") :: post).
  exists (let st := fold_left (fun st p => push_param (to_lower (fst p)) (snd p) st) items (false, []) in
    mkMime (to_lower base ++ [47] ++ to_lower sub) (to_lower base) (to_lower sub) (fst st) (snd st)).
  split.
  - rewrite mime_text_render. apply (mime_parse_render base sub items); try assumption.
    intros k v I. unfold items in I. apply in_app_or in I. destruct I as [I|[I|I]].
    + apply token_tokens. apply (H k v). apply in_or_app. auto.
    + inv I. exact NT.
    + apply token_tokens. apply (H k v). apply in_or_app. auto.
  - unfold param, param_name. change (is_ascii (lit "Charset")) with true. cbn [bind].
    unfold get_param. change (seqb (to_lower (lit "Charset")) (lit "charset")) with true. cbv zeta. cbn [is_utf8 andb].
    unfold items. rewrite fold_left_app. cbn [fold_left fst snd]. rewrite N.
    destruct (fold_left _ pre (false, [])) as [u acc].
    change (push_param (lit "charset") (lit "utf-8") (u, acc)) with (true, acc).
    rewrite fold_utf8_keeps. reflexivity.
Qed.
(** C21, case and removal, for every parsed media type and ASCII name.  A removed parameter is gone
    unless the text gave two charsets, one of them utf-8 (refuted above). *)
Definition one_charset (m : mime) : Prop := is_utf8 m = true -> ~ In (lit "charset") (map fst (params m)).
Lemma find_remove_other ps n x : n <> x -> find_param (remove_first ps n) x = find_param ps x.
Proof.
  intros N. induction ps as [|[k v] ps IH]; cbn [remove_first find_param]; [reflexivity|].
  destruct (seqb_spec k n) as [->|K].
  - destruct (seqb_spec n x); [contradiction|reflexivity].
  - cbn [find_param]. destruct (seqb k x); auto.
Qed.
Lemma find_remove_same ps n : NoDup (map fst ps) -> find_param (remove_first ps n) n = None.
Proof.
  induction ps as [|[k v] ps IH]; cbn [remove_first map fst]; [reflexivity|]. intros D. inv D.
  destruct (seqb_spec k n) as [->|K]; [apply find_param_none; assumption|].
  cbn [find_param]. apply seqb_neq in K. rewrite K. auto.
Qed.
Theorem C21_remove_param_partial : forall s m n, mime_parse s = Ok m -> is_ascii n = true ->
  exists v m', remove_param m n = Ok (v, m') /\ param m n = Ok v /\
    (forall n', is_ascii n' = true -> eq_ignore_case n n' = false -> param m' n' = param m n') /\
    basetype m' = basetype m /\ subtype m' = subtype m /\ essence m' = essence m /\
    (one_charset m -> param m' n = Ok None).
Proof.
  intros s m n P A. destruct (mime_parse_good s) as [(m0 & E & G)|E]; [|congruence].
  assert (m0 = m) by congruence. subst m0. destruct G as (_ & _ & _ & _ & _ & _ & _ & D & _).
  unfold remove_param, param, param_name, get_param. rewrite A. cbn [bind].
  destruct (seqb (to_lower n) (lit "charset") && is_utf8 m) eqn:C; eexists; eexists; (split; [reflexivity|]); cbn [is_utf8 params essence basetype subtype].
  - apply andb_true_iff in C as [C U]. apply seqb_eq in C. repeat apply conj; auto.
    + intros n' A' N. rewrite A'. cbn [bind]. unfold eq_ignore_case in N. rewrite C in N. rewrite seqb_sym in N. rewrite N. reflexivity.
    + intros O. rewrite andb_false_r. f_equal. rewrite C. apply find_param_none. apply O, U.
  - repeat apply conj; auto.
    + intros n' A' N. rewrite A'. cbn [bind]. unfold eq_ignore_case in N. apply seqb_neq in N. rewrite find_remove_other by exact N. reflexivity.
    + intros _. rewrite C. f_equal. apply find_remove_same, D.
Qed.
Theorem C21_param_case_insensitive : forall m n n', to_lower n = to_lower n' -> param m n = param m n'.
Proof.
  intros m n n' H. unfold param, param_name. rewrite <- (is_ascii_to_lower n), H, is_ascii_to_lower. reflexivity.
Qed.
(** A name that is not ASCII panics; nothing else does. *)
Theorem C21_name_panics : forall m n, (param m n = Panic <-> is_ascii n = false) /\ (remove_param m n = Panic <-> is_ascii n = false) /\
  (forall e, param m n <> Err e /\ remove_param m n <> Err e).
Proof.
  intros m n. unfold param, remove_param, param_name. destruct (is_ascii n); cbn [bind].
  - destruct (seqb (to_lower n) (lit "charset") && is_utf8 m); repeat split; intros; discriminate.
  - repeat split; intros; discriminate.
Qed.
Print Assumptions C21_name_panics.
Print Assumptions C21_param_is_first_partial.
Print Assumptions C21_utf8_charset_partial.
Print Assumptions C21_remove_param_partial.
Print Assumptions C21_param_case_insensitive.
Example C21_example : exists m, mime_parse (mime_text (lit "a") (lit "b") [(lit "P", lit "x y"); (lit "q", lit "1"); (lit "p", lit "2")]) = Ok m
  /\ param m (lit "p") = Ok (Some (lit "x y")) /\ param m (lit "Q") = Ok (Some (lit "1"))
  /\ one_charset m /\ exists m', remove_param m (lit "P") = Ok (Some (lit "x y"), m') /\ param m' (lit "p") = Ok None.
Proof.
  eexists. repeat split; try (vm_compute; reflexivity).
  - intros H. vm_compute in H. discriminate H.
  - eexists. split; vm_compute; reflexivity.
Qed.

(** ** C22: matching against a media range. Specification: the range's type and subtype are equal or a
    wildcard, and every parameter the range has, the media type has with the same value. *)
Definition matches (m r : mime) : Prop :=
  (basetype r = lit "*" \/ basetype m = basetype r) /\ (subtype r = lit "*" \/ subtype m = subtype r) /\
  forall n v, get_param r n = Some v -> get_param m n = Some v.

Lemma find_param_in ps n v : NoDup (map fst ps) -> (find_param ps n = Some v <-> In (n, v) ps).
Proof.
  induction ps as [|[k w] ps IH]; intros D; cbn [find_param In map fst] in *; [split; [discriminate|intros []]|]. inv D.
  destruct (seqb_spec k n) as [->|N].
  - split.
    + intros H; inv H. auto.
    + intros [H|H]; [congruence|]. exfalso. apply H1. change n with (fst (n, v)). apply in_map, H.
  - rewrite (IH H2). split; [auto|]. intros [H|H]; [congruence|exact H].
Qed.
Lemma parsed_good s m : mime_parse s = Ok m -> good_params (params m).
Proof. intros P. destruct (mime_parse_good s) as [(m0 & E & G)|E]; [|congruence]. assert (m0 = m) by congruence. subst. apply G. Qed.

Lemma subset_eq_spec m r : subset_eq m r = true <->
  (basetype r = lit "*" \/ basetype m = basetype r) /\ (subtype r = lit "*" \/ subtype m = subtype r) /\
  forall n v, In (n, v) (params r) -> get_param m n = Some v.
Proof.
  unfold subset_eq. change (lit "*") with [42].
  destruct (seqb_spec (basetype r) [42]) as [b1|b1], (seqb_spec (basetype m) (basetype r)) as [b2|b2]; cbn [negb andb];
  destruct (seqb_spec (subtype r) [42]) as [s1|s1], (seqb_spec (subtype m) (subtype r)) as [s2|s2]; cbn [negb andb];
  try (split; [discriminate|tauto]);
  (rewrite forallb_forall; split;
   [ intros H; repeat apply conj; auto; intros n v I; apply H in I; cbn [fst snd] in I; destruct (get_param m n); [apply seqb_eq in I; congruence|discriminate I]
   | intros (_ & _ & H) [n v] I; cbn [fst snd]; rewrite (H n v I); apply seqb_refl ]).
Qed.

(** The code's matching is the specified one whenever the range does not carry charset=utf-8. *)
Theorem C22_subset_eq_is_matching_partial : forall s t m r, mime_parse s = Ok m -> mime_parse t = Ok r ->
  is_utf8 r = false -> subset_eq m r = true <-> matches m r.
Proof.
  intros s t m r Pm Pr U. apply parsed_good in Pr. destruct Pr as [D _]. rewrite subset_eq_spec. unfold matches.
  assert (A : forall n v, get_param r n = Some v <-> In (n, v) (params r)).
  { intros n v. unfold get_param. rewrite U, andb_false_r. apply find_param_in, D. }
  split; intros (H1 & H2 & H3); repeat apply conj; auto; intros n v I; apply H3, A, I.
Qed.
(** With charset=utf-8 in the range it is not: text/html matches the range text/html;charset=utf-8;
    and a type given two charsets does not match itself. *)
Theorem C22_subset_eq_refuted :
  (exists m r, mime_parse (lit "text/html") = Ok m /\ mime_parse (lit "text/html;charset=utf-8") = Ok r /\
     subset_eq m r = true /\ ~ matches m r) /\
  (exists m, mime_parse (lit "text/html;charset=gbk;charset=utf-8") = Ok m /\ subset_eq m m = false).
Proof.
  split.
  - eexists. eexists. split; [vm_compute; reflexivity|]. split; [vm_compute; reflexivity|]. split; [vm_compute; reflexivity|].
    intros (_ & _ & H). specialize (H (lit "charset") (lit "utf-8")). vm_compute in H. discriminate (H eq_refl).
  - eexists. split; vm_compute; reflexivity.
Qed.
Theorem C22_subset_eq_reflexive_partial : forall s m, mime_parse s = Ok m -> one_charset m -> subset_eq m m = true.
Proof.
  intros s m P O. apply parsed_good in P. destruct P as [D _]. rewrite subset_eq_spec. repeat apply conj; auto.
  intros n v I. unfold get_param. destruct (seqb_spec n (lit "charset")) as [->|N]; cbn [andb].
  - destruct (is_utf8 m) eqn:U.
    + exfalso. apply (O U). change (lit "charset") with (fst (lit "charset", v)). apply in_map, I.
    + apply find_param_in; assumption.
  - apply find_param_in; assumption.
Qed.
Theorem C22_subset_eq_transitive : forall s t u a b c,
  mime_parse s = Ok a -> mime_parse t = Ok b -> mime_parse u = Ok c ->
  subset_eq a b = true -> subset_eq b c = true -> subset_eq a c = true.
Proof.
  intros s t u a b c Pa Pb Pc. rewrite !subset_eq_spec. intros (A1 & A2 & A3) (B1 & B2 & B3).
  apply parsed_good in Pb, Pc. destruct Pb as [Db _], Pc as [_ Gc].
  repeat apply conj.
  - destruct B1 as [B1|B1]; [auto|]. destruct A1 as [A1|A1]; [left|right]; congruence.
  - destruct B2 as [B2|B2]; [auto|]. destruct A2 as [A2|A2]; [left|right]; congruence.
  - intros n v I. apply A3. specialize (B3 n v I). unfold get_param in B3.
    destruct (seqb_spec n (lit "charset")) as [->|N]; cbn [andb] in B3.
    + destruct (is_utf8 b); [|apply find_param_in; assumption].
      inv B3. apply Gc in I. destruct I as (_ & _ & _ & _ & I). destruct (I eq_refl).
    + apply find_param_in; assumption.
Qed.
Theorem C22_everything_matches_any : forall m r, mime_parse (lit "*/*") = Ok r -> subset_eq m r = true.
Proof. intros m r P. vm_compute in P. inv P. reflexivity. Qed.
(** Dropping a parameter from the range keeps the match. *)
Theorem C22_fewer_params_match_partial : forall s m n v m', mime_parse s = Ok m -> one_charset m ->
  remove_param m n = Ok (v, m') -> subset_eq m m' = true.
Proof.
  intros s m n v m' P O R. assert (S := C22_subset_eq_reflexive_partial s m P O). revert S. rewrite !subset_eq_spec.
  intros (_ & _ & H). unfold remove_param, param_name in R. destruct (is_ascii n); [|discriminate R]. cbn [bind] in R.
  destruct (seqb (to_lower n) (lit "charset") && is_utf8 m); inv R; cbn [basetype subtype params]; repeat apply conj; auto.
  intros k w I. apply H. revert I. clear. induction (params m) as [|[a b] ps IH]; cbn [remove_first]; [auto|].
  destruct (seqb a (to_lower n)); [right; assumption|]. intros [I|I]; [left; exact I|right; auto].
Qed.
Print Assumptions C22_subset_eq_is_matching_partial.
Print Assumptions C22_subset_eq_refuted.
Print Assumptions C22_subset_eq_reflexive_partial.
Print Assumptions C22_subset_eq_transitive.
Print Assumptions C22_everything_matches_any.
Print Assumptions C22_fewer_params_match_partial.
Example C22_example : exists m r a, mime_parse (lit "text/html;level=1;q=2") = Ok m /\ mime_parse (lit "text/*;LEVEL=1") = Ok r
  /\ mime_parse (lit "*/*") = Ok a /\ is_utf8 r = false /\ one_charset m
  /\ subset_eq m r = true /\ subset_eq r a = true /\ subset_eq r m = false.
Proof. do 3 eexists. repeat split; try (vm_compute; reflexivity). intros H. vm_compute in H. discriminate H. Qed.

(** C23 is false of the code: a parameter with a Latin-1 character yields a non-ASCII header value. *)
Theorem C23_mime_header_value_refuted : exists s m, mime_parse s = Ok m /\ is_ascii (mime_header_value m) = false.
Proof. exists (lit "a/b;c=" ++ [255]). eexists. split; vm_compute; reflexivity. Qed.

Lemma forallb_take_while (p q : N -> bool) s : forallb p s = true -> forallb p (take_while q s) = true.
Proof. induction s as [|c s IH]; cbn [take_while forallb]; [auto|]. intros H. apply andb_true_iff in H as [H1 H2].
  destruct (q c); [cbn [forallb]; rewrite H1; auto|reflexivity]. Qed.
Lemma forallb_drop_while (p q : N -> bool) s : forallb p s = true -> forallb p (drop_while q s) = true.
Proof. induction s as [|c s IH]; cbn [drop_while forallb]; [auto|]. intros H. destruct (q c); [apply andb_true_iff in H as [_ H]; auto|exact H]. Qed.
Lemma ascii_trim_end q s : is_ascii s = true -> is_ascii (trim_end_matches q s) = true.
Proof.
  intros H. destruct (trim_end_prefix q s) as (b & E & _). rewrite E, is_ascii_app in H. apply andb_true_iff in H. tauto.
Qed.
Lemma ascii_quoted : forall k s v, (length s <= k)%nat -> is_ascii s = true -> is_ascii v = true ->
  is_ascii (fst (quoted_loop s v)) = true /\ is_ascii (snd (quoted_loop s v)) = true.
Proof.
  induction k as [|k IH]; intros s v L Hs Hv.
  - destruct s; [auto|cbn in L; lia].
  - destruct s as [|c s]; [auto|]. cbn [quoted_loop]. unfold is_ascii in Hs. cbn [forallb] in Hs.
    apply andb_true_iff in Hs as [Hc Hs]. fold (is_ascii s) in Hs. cbn [length] in L.
    destruct (c =? 34); [auto|]. destruct (c =? 92).
    + destruct s as [|c' s].
      * cbn [fst snd]. rewrite is_ascii_app, Hv. auto.
      * unfold is_ascii in Hs. cbn [forallb] in Hs. apply andb_true_iff in Hs as [Hc' Hs]. cbn [length] in L.
        apply IH; [lia|exact Hs|]. rewrite is_ascii_app, Hv. cbn. rewrite Hc'. reflexivity.
    + apply IH; [lia|exact Hs|]. rewrite is_ascii_app, Hv. cbn. rewrite Hc. reflexivity.
Qed.
Definition ascii_params (ps : list (str * str)) : Prop := forall n v, In (n, v) ps -> is_ascii n = true /\ is_ascii v = true.
Lemma ascii_push n v st : is_ascii n = true -> is_ascii v = true -> ascii_params (snd st) -> ascii_params (snd (push_param n v st)).
Proof.
  destruct st as [u ps]. cbn [snd]. intros N V H. unfold push_param. destruct (_ && _); [exact H|]. destruct (_ && _); [|exact H].
  destruct (existsb _ ps); [exact H|]. cbn [snd]. intros k w I. apply in_app_or in I. destruct I as [I|[I|[]]]; [apply H, I|]. inv I. auto.
Qed.
Lemma slice1_ascii s r : slice1 s = Ok r -> is_ascii s = true -> is_ascii r = true.
Proof.
  destruct s as [|c s]; cbn [slice1]; [discriminate|]. destruct (c <? 128); [|discriminate]. intros H A. inv H.
  unfold is_ascii in *. cbn [forallb] in A. apply andb_true_iff in A. tauto.
Qed.
Lemma ascii_parse_params : forall fuel input st st', is_ascii input = true -> ascii_params (snd st) ->
  parse_params fuel input st = Ok st' -> ascii_params (snd st').
Proof.
  induction fuel as [|f IH]; intros input st st' A H; cbn [parse_params]; [discriminate|].
  destruct input as [|c0 input0]; [intros E; inv E; exact H|].
  destruct (slice1 (c0 :: input0)) as [i1| |] eqn:S1; cbn [bind]; try discriminate.
  apply slice1_ascii in S1; [|exact A]. clear A.
  unfold collect_until, trim_start_matches. set (i2 := drop_while is_http_ws i1).
  assert (A2 : is_ascii i2 = true) by (apply forallb_drop_while, S1).
  set (nm := take_while _ i2). assert (AN : is_ascii (to_lower nm) = true) by (rewrite is_ascii_to_lower; apply forallb_take_while, A2).
  match goal with |- match ?x with [] => _ | _ => _ end = _ -> _ => set (i3 := x) end.
  assert (A3 : is_ascii i3 = true) by (apply forallb_drop_while, A2). clearbody i3 nm.
  destruct i3 as [|c i3]; [intros E; inv E; exact H|].
  destruct (c =? 59); [apply IH; assumption|].
  destruct (slice1 (c :: i3)) as [i4| |] eqn:S4; cbn [bind]; try discriminate.
  apply slice1_ascii in S4; [|exact A3].
  destruct (starts_with [34] i4).
  - unfold collect_quoted. destruct (slice1 i4) as [i5| |] eqn:S5; cbn [bind]; try discriminate.
    apply slice1_ascii in S5; [|exact S4].
    destruct (ascii_quoted (length i5) i5 [] (le_n _) S5 eq_refl) as [Q1 Q2].
    destruct (quoted_loop i5 []) as [v i6]. cbn [fst snd] in *.
    apply IH; [apply forallb_drop_while, Q2|apply ascii_push; assumption].
  - set (v := trim_end_matches is_http_ws (take_while (fun c1 => negb (59 =? c1)) i4)).
    assert (AV : is_ascii v = true) by (apply ascii_trim_end, forallb_take_while, S4).
    assert (AR : is_ascii (drop_while (fun c1 => negb (59 =? c1)) i4) = true) by (apply forallb_drop_while, S4).
    destruct v; apply IH; auto using ascii_push.
Qed.
Lemma ascii_escape v : is_ascii v = true -> is_ascii (escape_value v) = true.
Proof.
  unfold is_ascii, escape_value. induction v as [|c v IH]; cbn [flat_map forallb]; [auto|].
  intros H. apply andb_true_iff in H as [H1 H2]. rewrite forallb_app, IH by exact H2.
  destruct ((c =? 34) || (c =? 92)); cbn [forallb]; rewrite H1; reflexivity.
Qed.
Lemma ascii_format m : is_ascii (essence m) = true -> ascii_params (params m) -> is_ascii (mime_format m) = true.
Proof.
  intros E P. unfold mime_format. rewrite !is_ascii_app, E.
  match goal with |- _ && (?x && _) = _ => assert (U : x = true) by (destruct (is_utf8 m); reflexivity); rewrite U; clear U end.
  cbn [andb]. induction (params m) as [|[n v] ps IH]; cbn [flat_map fst snd]; [reflexivity|].
  destruct (P n v (or_introl eq_refl)) as [N V]. rewrite is_ascii_app, IH by (intros k w I; apply P; right; exact I).
  unfold format_param. match goal with |- context [if ?b then _ else _] => destruct b end;
    rewrite !is_ascii_app, N, ?V, ?ascii_escape by exact V; reflexivity.
Qed.
(** C23, the part that holds: media types parsed from ASCII text (for instance from a header value)
    give ASCII header values.  Missing: media types parsed from non-ASCII text (refuted). *)
Theorem C23_mime_header_value_partial : forall s m, is_ascii s = true -> mime_parse s = Ok m ->
  is_ascii (mime_header_value m) = true.
Proof.
  intros s m A P. apply ascii_format.
  - destruct (mime_parse_good s) as [(m0 & E & G)|E]; [|congruence]. assert (m0 = m) by congruence. subst.
    destruct G as (_ & B & _ & _ & S & _ & -> & _). rewrite !is_ascii_app. unfold is_ascii.
    rewrite (tokens_impl (fun c => c <? 128) _ (fun c H => proj2 (N.ltb_lt _ _) (proj1 (token_cases c H))) B).
    rewrite (tokens_impl (fun c => c <? 128) _ (fun c H => proj2 (N.ltb_lt _ _) (proj1 (token_cases c H))) S). reflexivity.
  - unfold mime_parse, collect_until in P.
    set (t := trim_matches is_http_ws s) in P.
    assert (AT : is_ascii t = true).
    { destruct (trim_matches_decomp is_http_ws s) as (a & b & E & _). rewrite E, !is_ascii_app in A.
      apply andb_true_iff in A as [_ A]. apply andb_true_iff in A as [A _]. exact A. }
    clearbody t. destruct (negb _) in P; [discriminate P|]. destruct (negb _) in P; [discriminate P|].
    assert (AR : is_ascii (drop_while (fun c => negb (47 =? c)) t) = true) by (apply forallb_drop_while, AT).
    destruct (drop_while (fun c => negb (47 =? c)) t) as [|c r]; [discriminate P|].
    destruct (slice1 (c :: r)) as [i| |] eqn:S1; cbn [bind] in P; try discriminate P.
    apply slice1_ascii in S1; [|exact AR].
    destruct (negb _) in P; [discriminate P|]. destruct (negb _) in P; [discriminate P|].
    set (rest := drop_while (fun c0 => negb (59 =? c0)) i) in P.
    assert (A2 : is_ascii rest = true) by (apply forallb_drop_while, S1). clearbody rest.
    destruct (parse_params (S (length rest)) rest (false, [])) as [st| |] eqn:PP; cbn [bind] in P; try discriminate P.
    inv P. cbn [params]. eapply ascii_parse_params; [exact A2| |exact PP]. intros n v [].
Qed.
Print Assumptions C23_mime_header_value_refuted.
Print Assumptions C23_mime_header_value_partial.
Example C23_example : exists m, mime_parse (lit "a/b;c=""d e""") = Ok m /\ is_ascii (lit "a/b;c=""d e""") = true
  /\ mime_header_value m = lit "a/b;c=""d e""".
Proof. eexists. repeat split; vm_compute; reflexivity. Qed.

(** C69: the predefined media types are exactly what their text parses to, and the type chosen for a
    file extension is one of them. *)
Theorem C69_constants_round_trip : forall m, In m mime_constants ->
  mime_parse (mime_format m) = Ok m /\ is_ascii (mime_header_value m) = true.
Proof.
  intros m I. cbv [mime_constants] in I.
  repeat (destruct I as [I|I]; [subst m; split; vm_compute; reflexivity|]). destruct I.
Qed.
Theorem C69_from_extension : forall s m, from_extension s = Some m -> In m mime_constants /\ subset_eq m MIME_ANY = true.
Proof.
  intros s m H. split; [|reflexivity]. revert H. unfold from_extension, extension_table. cbn [lookup_ext].
  repeat match goal with |- context [if seqb s ?x then _ else _] => destruct (seqb s x) end;
    intros H; inv H; cbv [mime_constants]; repeat (first [left; reflexivity | right]).
Qed.
Print Assumptions C69_constants_round_trip.
Print Assumptions C69_from_extension.
Fixpoint nodupb (l : list str) : bool := match l with [] => true | a :: l => negb (existsb (seqb a) l) && nodupb l end.
(** The text each predefined media type is documented to have, and the one each file extension gets. *)
Definition documented : list (string * mime) := (
  [
   ("text/javascript;charset=utf-8", MIME_JAVASCRIPT); ("text/css;charset=utf-8", MIME_CSS);
   ("text/html;charset=utf-8", MIME_HTML); ("text/plain;charset=utf-8", MIME_PLAIN);
   ("application/xml;charset=utf-8", MIME_XML); ("application/rss+xml;charset=utf-8", MIME_RSS);
   ("application/atom+xml;charset=utf-8", MIME_ATOM); ("*/*", MIME_ANY); ("application/json", MIME_JSON);
   ("text/event-stream", MIME_SSE); ("application/octet-stream", MIME_BYTE_STREAM);
   ("application/x-www-form-urlencoded", MIME_FORM); ("multipart/form-data", MIME_MULTIPART_FORM);
   ("application/wasm", MIME_WASM); ("image/bmp", MIME_BMP); ("image/jpeg", MIME_JPEG); ("image/png", MIME_PNG);
   ("image/svg+xml", MIME_SVG); ("image/webp", MIME_WEBP); ("audio/midi", MIME_MIDI); ("audio/mpeg", MIME_MP3);
   ("audio/ogg", MIME_OGG); ("audio/opus", MIME_OPUS); ("audio/mp4", MIME_M4A); ("video/mp4", MIME_MP4);
   ("video/mpeg", MIME_MPEG); ("video/webm", MIME_WEBM); ("video/x-msvideo", MIME_AVI); ("image/x-icon", MIME_ICO);
   ("font/otf", MIME_OTF); ("font/ttf", MIME_TTF); ("font/woff", MIME_WOFF); ("font/woff2", MIME_WOFF2);
   ("application/zip", MIME_ZIP); ("application/x-7z-compressed", MIME_SEVENZIP)])%string.
Definition extensions : list (string * string) := (
  [
   ("7z", "application/x-7z-compressed"); ("atom", "application/atom+xml;charset=utf-8"); ("avi", "video/x-msvideo");
   ("bin", "application/octet-stream"); ("exe", "application/octet-stream"); ("dll", "application/octet-stream");
   ("iso", "application/octet-stream"); ("img", "application/octet-stream"); ("bmp", "image/bmp");
   ("css", "text/css;charset=utf-8"); ("html", "text/html;charset=utf-8"); ("ico", "image/x-icon");
   ("js", "text/javascript;charset=utf-8"); ("mjs", "text/javascript;charset=utf-8");
   ("jsonp", "text/javascript;charset=utf-8"); ("json", "application/json"); ("m4a", "audio/mp4");
   ("mid", "audio/midi"); ("midi", "audio/midi"); ("kar", "audio/midi"); ("mp3", "audio/mpeg"); ("mp4", "video/mp4");
   ("mpeg", "video/mpeg"); ("mpg", "video/mpeg"); ("ogg", "audio/ogg"); ("otf", "font/otf");
   ("rss", "application/rss+xml;charset=utf-8"); ("svg", "image/svg+xml"); ("svgz", "image/svg+xml");
   ("ttf", "font/ttf"); ("txt", "text/plain;charset=utf-8"); ("wasm", "application/wasm"); ("webm", "video/webm");
   ("webp", "image/webp"); ("woff", "font/woff"); ("woff2", "font/woff2"); ("xml", "application/xml;charset=utf-8");
   ("zip", "application/zip")])%string.
Theorem C69_documented_text :
  (forall t m, In (t, m) documented -> mime_format m = lit t) /\ (forall m, In m mime_constants <-> In m (map snd documented)) /\
  NoDup (map snd documented).
Proof.
  split; [|split].
  - intros t m I. cbv [documented] in I. repeat (destruct I as [I|I]; [injection I as <- <-; vm_compute; reflexivity|]). destruct I.
  - intros m. change (map snd documented) with mime_constants. tauto.
  - apply (NoDup_map_inv mime_format). assert (D : forall l : list str, nodupb l = true -> NoDup l).
    { induction l as [|a l IH]; intros H; constructor; cbn [nodupb] in H; apply andb_true_iff in H as [H1 H2]; [|auto].
      intros I. apply negb_true_iff in H1. assert (existsb (seqb a) l = true) by (apply existsb_exists; exists a; split; [exact I|apply seqb_refl]). congruence. }
    apply D. vm_compute. reflexivity.
Qed.
(** A file extension, in lower case and without the point, decides the type; anything else gives nothing. *)
Theorem C69_extension_text : forall s,
  (forall e t, In (e, t) extensions -> s = lit e -> exists m, from_extension s = Some m /\ mime_format m = lit t) /\
  (~ In s (map (fun p => lit (fst p)) extensions) -> from_extension s = None).
Proof.
  intros s. split.
  - intros e t I ->. cbv [extensions] in I. repeat (destruct I as [I|I]; [injection I as <- <-; eexists; split; vm_compute; reflexivity|]). destruct I.
  - intros N. unfold from_extension.
    assert (E : map (fun p => lit (fst p)) extensions = map (fun p => lit (fst p)) extension_table) by (vm_compute; reflexivity).
    rewrite E in N. clear E. induction extension_table as [|[k m] l IH]; [reflexivity|]. cbn [lookup_ext map fst In] in *.
    destruct (seqb_spec s (lit k)) as [->|K]; [tauto|]. apply IH. tauto.
Qed.
Print Assumptions C69_documented_text.
Print Assumptions C69_extension_text.
Example C69_example : from_extension (lit "svgz") = Some MIME_SVG /\ mime_format MIME_HTML = lit "text/html;charset=utf-8"
  /\ from_extension (lit "PNG") = None.
Proof. vm_compute. auto. Qed.
