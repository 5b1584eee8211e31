(** Properties C32, C35-C38: tokens and quoted strings, the Forwarded header, host and remote address. *)
From Verif Require Import Base BaseFacts ParseUtils ParseUtilsFacts Method Headers Body Message Forwarded ForwardedFacts.
From Coq Require Import ZifyBool ZifyNat ZifyN.

(** ** C38 Tokens and quoted strings. *)

(** tchar of RFC 7230 section 3.2.6: "!" / "#" / "$" / "%" / "&" / "'" / "*" / "+" / "-" / "." / "^" /
    "_" / "`" / "|" / "~" / DIGIT / ALPHA: printable characters except the delimiters. *)
Definition rfc_tchar (c : N) : Prop := 33 <= c <= 126 /\ ~ In c (lit "(),/:;<=>?@[\]{}") /\ c <> 34.

Lemma tchar_rfc c : tchar c = true <-> rfc_tchar c.
Proof.
  split.
  - intros T. assert (A := tchar_ascii c T). revert T.
    assert (B := all_below_spec 128 (fun c => implb (tchar c) ((33 <=? c) && (c <=? 126) && negb (existsb (N.eqb c) (lit "(),/:;<=>?@[\]{}")) && negb (c =? 34))) eq_refl c ltac:(lia)).
    intros T. cbv beta in B. rewrite T in B. cbn [implb] in B. rewrite !andb_true_iff, !negb_true_iff in B. destruct B as [[[B1 B2] B3] B4]. split; [lia|]. split; [|lia].
    intros I. apply (fun x => eq_true_false_abs _ x B3). apply existsb_exists. exists c. split; [exact I|apply N.eqb_refl].
  - intros (R & D & Q).
    assert (B := all_below_spec 128 (fun c => implb ((33 <=? c) && (c <=? 126) && negb (existsb (N.eqb c) (lit "(),/:;<=>?@[\]{}")) && negb (c =? 34)) (tchar c)) eq_refl c ltac:(lia)). cbv beta in B.
    destruct (tchar c); [reflexivity|]. exfalso. replace (33 <=? c) with true in B by lia. replace (c <=? 126) with true in B by lia.
    replace (c =? 34) with false in B by lia. destruct (existsb (N.eqb c) (lit "(),/:;<=>?@[\]{}")) eqn:X; [|discriminate B].
    apply existsb_exists in X as (y & I & E). apply N.eqb_eq in E. subst y. contradiction.
Qed.

(** Any string: the longest run of tchar, never a panic, and [None] exactly if that run is empty. *)
Theorem C38_token_longest : forall s, exists t rest, s = t ++ rest /\ (forall c, In c t -> rfc_tchar c) /\
  (forall c r, rest = c :: r -> ~ rfc_tchar c) /\
  parse_token s = Ok (match t with [] => None | _ => Some t end, rest).
Proof.
  intros s. exists (take_while tchar s), (drop_while tchar s). split; [symmetry; apply take_drop_while|].
  split; [intros c I; apply tchar_rfc; assert (F := take_while_all tchar s); rewrite forallb_forall in F; auto|].
  split; [|apply parse_token_spec]. intros c r E. apply drop_while_head in E. rewrite <- tchar_rfc. congruence.
Qed.
Print Assumptions C38_token_longest.

(** qdtext of RFC 7230, ASCII part. *)
Definition rfc_qdtext (c : N) : bool := (c =? 9) || (c =? 32) || (c =? 33) || ((35 <=? c) && (c <=? 91)) || ((93 <=? c) && (c <=? 126)).
(** What the code takes for it: U+000F instead of "!". *)
Definition lax_qdtext (c : N) : bool := (c =? 9) || (c =? 32) || (c =? 15) || ((35 <=? c) && (c <=? 91)) || ((93 <=? c) && (c <=? 126)).

Lemma qbody_ext p q e v : (forall c, In c e -> p c = q c) -> qbody p e v -> qbody q e v.
Proof.
  intros H B. revert H. induction B as [|c e v Q B IH|c e v Q B IH]; intros H; [constructor| |].
  - constructor; [rewrite <- H by (left; reflexivity); exact Q|]. apply IH. intros x I. apply H. right. exact I.
  - apply QB_pair; [exact Q|]. apply IH. intros x I. apply H. right. right. exact I.
Qed.

(** Header text is ASCII.  There the result is exactly the decoding of the quoted string in front, for a
    grammar that differs from the RFC in one character. *)
Theorem C38_quoted_string_decoded_partial : forall s, is_ascii s = true ->
  (forall v rest, parse_quoted_string s = Ok (Some v, rest) <-> exists e, s = 34 :: e ++ 34 :: rest /\ qbody lax_qdtext e v) /\
  ((exists v rest, parse_quoted_string s = Ok (Some v, rest)) \/ parse_quoted_string s = Ok (None, s)).
Proof.
  assert (X : forall e v, (is_ascii e = true /\ qbody lax_qdtext e v) <-> qbody code_qdtext e v).
  { intros e v. split.
    - intros [A B]. eapply qbody_ext; [|exact B]. intros c I. unfold is_ascii in A. rewrite forallb_forall in A. specialize (A c I). unfold lax_qdtext, code_qdtext, qdtext. lia.
    - intros B. assert (A := qbody_ascii e v B). split; [exact A|]. eapply qbody_ext; [|exact B].
      intros c I. unfold is_ascii in A. rewrite forallb_forall in A. specialize (A c I). unfold lax_qdtext, code_qdtext, qdtext. lia. }
  intros s A. split.
  - intros v rest. split.
    + rewrite parse_quoted_spec. destruct s as [|c s]; [discriminate|]. destruct (N.eqb_spec c 34) as [->|N].
      * apply is_ascii_cons in A as [_ A]. destruct (qs s) as [| |v' r'] eqn:Q; try discriminate. intros H. inv H.
        apply (qs_qbody (length s)) in Q as (e & -> & Q); [|reflexivity|exact A]. exists e. split; [reflexivity|]. apply X, Q.
      * intros H. exfalso. destruct c as [|p]; [discriminate|]. repeat (destruct p as [p|p|]; try discriminate). destruct N. reflexivity.
    + intros (e & -> & B). assert (A' : is_ascii e = true).
      { apply is_ascii_cons in A as [_ A]. rewrite is_ascii_app in A. apply andb_true_iff in A. tauto. }
      rewrite parse_quoted_spec. rewrite (qbody_qs e v rest); [reflexivity|]. apply X. auto.
  - destruct (parse_quoted_ascii s A) as [H|(v & r & H & _)]; [auto|eauto].
Qed.
Print Assumptions C38_quoted_string_decoded_partial.

(** Without "!" and U+000F this is RFC 7230. *)
Theorem C38_quoted_string_rfc_partial : forall s v rest, is_ascii s = true -> ~ In 33 s -> ~ In 15 s ->
  (parse_quoted_string s = Ok (Some v, rest) <-> exists e, s = 34 :: e ++ 34 :: rest /\ qbody rfc_qdtext e v).
Proof.
  intros s v rest A N1 N2. destruct (C38_quoted_string_decoded_partial s A) as [C _]. rewrite C.
  assert (E : forall e, s = 34 :: e ++ 34 :: rest -> forall c, In c e -> lax_qdtext c = rfc_qdtext c).
  { intros e -> c I. unfold lax_qdtext, rfc_qdtext.
    assert (c <> 33) by (intros ->; apply N1; right; apply in_or_app; auto).
    assert (c <> 15) by (intros ->; apply N2; right; apply in_or_app; auto). lia. }
  split; intros (e & H & B); exists e; (split; [exact H|]); (eapply qbody_ext; [|exact B]); intros c I; [|symmetry]; eauto.
Qed.
Print Assumptions C38_quoted_string_rfc_partial.

(** The RFC's [quoted-string] "!" is refused and a control character is accepted. *)
Theorem C38_exclamation_refuted : exists s e v, s = 34 :: e ++ [34] /\ qbody rfc_qdtext e v /\ parse_quoted_string s = Ok (None, s).
Proof. exists (lit """hi!"""), (lit "hi!"), (lit "hi!"). split; [reflexivity|]. split; [repeat (constructor; [reflexivity|]); constructor|vm_compute; reflexivity]. Qed.
Theorem C38_control_char_refuted : exists s v, parse_quoted_string s = Ok (Some v, []) /\ exists c, In c v /\ c < 32 /\ c <> 9.
Proof. exists [34; 15; 34], [15]. split; [vm_compute; reflexivity|]. exists 15. split; [left; reflexivity|lia]. Qed.
(** Beyond ASCII the low byte of a character is taken for the character: one is taken for the closing quote
    and cut in two (a panic), another for a backslash and dropped. *)
Theorem C38_character_split_refuted : exists s, valid_str s = true /\ parse_quoted_string s = Panic.
Proof. exists [34; 97; 290]. vm_compute. auto. Qed.
Theorem C38_character_dropped_refuted : exists s v, parse_quoted_string (34 :: s ++ [34]) = Ok (Some v, []) /\ ~ In 92 s /\ v <> s.
Proof. exists [97; 348; 98], [97; 98]. split; [vm_compute; reflexivity|]. split; [cbn; intuition discriminate|discriminate]. Qed.
Print Assumptions C38_exclamation_refuted.
Print Assumptions C38_control_char_refuted.
Print Assumptions C38_character_split_refuted.
Print Assumptions C38_character_dropped_refuted.

Example C38_example : parse_token (lit "key=v") = Ok (Some (lit "key"), lit "=v") /\
  parse_quoted_string (lit """a \""b\"" \\""rest") = Ok (Some (lit "a ""b"" \"), lit "rest") /\
  parse_quoted_string (lit """open") = Ok (None, lit """open").
Proof. vm_compute. auto. Qed.

(** ** C36 Forwarded parsing never panics. *)
Theorem C36_trailing_comma_refuted : exists s, is_ascii s = true /\ fw_parse s = Panic.
Proof. exists (lit "for=a,"). vm_compute. auto. Qed.
Theorem C36_short_element_refuted : exists s, is_ascii s = true /\ fw_parse s = Panic.
Proof. exists (lit "for=192.0.2.43, b"). vm_compute. auto. Qed.
Theorem C36_non_ascii_refuted : exists s, valid_str s = true /\ fw_parse s = Panic.
Proof. exists [102; 111; 111; 233; 120]. vm_compute. auto. Qed.
Print Assumptions C36_trailing_comma_refuted.
Print Assumptions C36_short_element_refuted.
Print Assumptions C36_non_ascii_refuted.

(** Every header whose list of [for] elements ends with a comma panics, whatever the elements. *)
Theorem C36_every_trailing_comma_panics : forall k x more w, sec_ok (SFor k x more) -> forallb is_ws w = true -> is_ascii w = true ->
  fw_parse (sec_text (SFor k x more) ++ 44 :: w) = Panic.
Proof.
  intros k x more w O W A.
  assert (G : forall more fuel f k x, for_ok k -> ev_ok x -> Forall more_ok more -> (length more + 1 < fuel)%nat ->
     parse_for fuel f (k ++ ev_text x ++ flat_map more_text more ++ 44 :: w) = Panic).
  { clear - W. induction more as [|[[w' k'] x'] more IH]; intros fuel f k x K X M L; (destruct fuel as [|fuel]; [cbn in L; lia|]);
      cbn [parse_for]; unfold match_ignore_case; rewrite blen_for;
      (rewrite split_at_at; [|destruct (for_ascii k K) as [A1 A2]; rewrite (blen_ascii k A1), A2; reflexivity]); cbn [bind];
      (replace (eq_ignore_case k (lit "for=")) with true by (unfold eq_ignore_case; rewrite K; reflexivity)); cbn [bind].
    - cbn [flat_map app]. rewrite parse_value_text; [|exact X|reflexivity]. cbn [bind]. change (44 =? 44) with true. cbn iota.
      unfold trim_start, trim_start_matches. rewrite drop_while_all by exact W. destruct fuel as [|fuel]; [reflexivity|].
      cbn [parse_for]. unfold match_ignore_case. rewrite split_at_short by reflexivity. reflexivity.
    - inv M. destruct H1 as (W' & _ & K' & X'). cbn [flat_map more_text app]. rewrite parse_value_text; [|exact X|reflexivity]. cbn [bind].
      change (44 =? 44) with true. cbn iota. unfold trim_start, trim_start_matches. rewrite <- !app_assoc.
      rewrite drop_while_app_all by exact W'. rewrite not_ws_for by exact K'. apply IH; auto. cbn [length] in L. lia. }
  assert (A' : is_ascii (sec_text (SFor k x more) ++ 44 :: w) = true).
  { rewrite is_ascii_app, sec_ascii by exact O. cbn [andb]. apply is_ascii_cons. auto. }
  unfold fw_parse. assert (S4 := starts_ascii _ A'). destruct O as (K & X & M). cbn [sec_text] in *. rewrite <- !app_assoc in *.
  rewrite for_starts in S4 by exact K. assert (Lk := proj2 (for_ascii k K)).
  remember (k ++ ev_text x ++ flat_map more_text more ++ 44 :: w) as s eqn:Es.
  assert (Ls : (length more + 1 < length s)%nat). { subst s. assert (Z := more_length more). rewrite !app_length. cbn [length]. lia. }
  destruct s as [|c s]; [cbn in Ls; lia|]. cbn [length parse_loop]. rewrite S4. cbn [bind]. rewrite Es.
  rewrite G; auto.
Qed.
Print Assumptions C36_every_trailing_comma_panics.

(** ASCII text in which each comma is followed by four characters or more (white space apart). *)
Theorem C36_no_panic_partial : forall s, is_ascii s = true ->
  (forall p r, s = p ++ 44 :: r -> (4 <= length (trim_start r))%nat) -> fw_parse s <> Panic.
Proof. intros s A C. apply parse_loop_ok; auto. Qed.
Print Assumptions C36_no_panic_partial.

(** The X-Forwarded headers never panic or fail (a header present has at least one value, C16). *)
Theorem C36_x_headers_total : forall ipv6 h, (forall n vs, h_get h n = Some vs -> vs <> []) ->
  exists o, from_x_headers ipv6 h = Ok o.
Proof.
  intros ip h H. unfold from_x_headers.
  assert (F : forall n, exists o, first_value h n = Ok o).
  { intros n. unfold first_value. destruct (h_get h n) as [[|v vs]|] eqn:E; [destruct (H n [] E); reflexivity| |]; cbn; eauto. }
  destruct (F (lit "x-forwarded-for")) as [a ->], (F (lit "x-forwarded-by")) as [b ->], (F (lit "x-forwarded-proto")) as [c ->], (F (lit "x-forwarded-host")) as [d ->].
  cbn [bind]. eauto.
Qed.
Print Assumptions C36_x_headers_total.

Example C36_example : fw_parse (lit "for=a;by") = Err 500 /\ fw_parse (lit "for=a, for=") = Err 500 /\ fw_parse (lit "=,;") = Err 500 /\
  is_ok (fw_parse (lit "for=a, for=b")) = true.
Proof. vm_compute. auto. Qed.

(** ** C37 What a Forwarded header means.
    [sections]: [for] lists and other pairs, in any order, separated by semicolons; values are tokens or
    quoted strings; spellings of "for" and white space after commas are arbitrary. *)
Theorem C37_meaning_partial : forall l, Forall sec_ok l ->
  (forall key, In key [lit "by"; lit "host"; lit "proto"] -> (length (given key l) <= 1)%nat) ->
  fw_parse (fw_text l) = Ok (mkForwarded (hd_error (given (lit "by") l)) (fors l) (hd_error (given (lit "host") l)) (hd_error (given (lit "proto") l))).
Proof.
  intros l O D. destruct l as [|s l]; [reflexivity|]. unfold fw_parse. rewrite <- (app_nil_r (fw_text (s :: l))).
  rewrite (parse_text (s :: l) _ fw_new false); [|exact O|discriminate|reflexivity]. rewrite apply_all_spec. cbn [fw_new fw_by fw_for fw_host fw_proto].
  assert (M : forall key, In key [lit "by"; lit "host"; lit "proto"] -> merge None (given key (s :: l)) = Some (hd_error (given key (s :: l)))).
  { intros key I. specialize (D key I). destruct (given key (s :: l)) as [|a [|b g]]; [reflexivity|reflexivity|cbn [length] in D; lia]. }
  rewrite !M by (cbn; auto). reflexivity.
Qed.
Print Assumptions C37_meaning_partial.
Example C37_meaning_partial_case :
  let l := [SFor (lit "For=") (Tok (lit "10.0.0.1")) [(lit " ", lit "for=", Quo (lit "a\""b") (lit "a""b"))]; SPair (lit "host") (Tok (lit "h"))] in
  Forall sec_ok l /\ fw_text l = lit "For=10.0.0.1, for=""a\""b"";host=h" /\
  fw_parse (fw_text l) = Ok (mkForwarded None [lit "10.0.0.1"; lit "a""b"] (Some (lit "h")) None).
Proof.
  cbv zeta. split; [|split; vm_compute; reflexivity].
  constructor; [|constructor; [|constructor]]; cbn [sec_ok].
  - split; [reflexivity|]. split; [split; [discriminate|reflexivity]|]. constructor; [|constructor]. split; [reflexivity|]. split; [reflexivity|]. split; [reflexivity|].
    constructor; [reflexivity|]. apply QB_pair; [reflexivity|]. constructor; [reflexivity|constructor].
  - split; [discriminate|]. split; [reflexivity|]. split; [discriminate|]. split; [discriminate|reflexivity].
Qed.

(** A repeated by, host or proto is an error. *)
Theorem C37_repeated_is_error : forall l key, Forall sec_ok l -> In key [lit "by"; lit "host"; lit "proto"] ->
  (2 <= length (given key l))%nat -> fw_parse (fw_text l) = Err 500.
Proof.
  intros l key O I D. destruct l as [|s l]; [cbn in D; lia|]. unfold fw_parse. rewrite <- (app_nil_r (fw_text (s :: l))).
  rewrite (parse_text (s :: l) _ fw_new false); [|exact O|discriminate|reflexivity]. rewrite apply_all_spec. cbn [fw_new fw_by fw_for fw_host fw_proto].
  assert (M : merge None (given key (s :: l)) = None) by (destruct (given key (s :: l)) as [|a [|b g]]; [cbn in D; lia|cbn in D; lia|reflexivity]).
  destruct I as [<-|[<-|[<-|[]]]]; rewrite M; [reflexivity| |]; destruct (merge None (given (lit "by") (s :: l))); try reflexivity;
    destruct (merge None (given (lit "host") (s :: l))); reflexivity.
Qed.
Print Assumptions C37_repeated_is_error.

(** RFC 7239 headers the code does not understand: parameter names are case-insensitive; an element may
    have several pairs and be followed by another; [for] may not be repeated within an element. *)
Theorem C37_names_case_sensitive_refuted : exists s f, fw_parse s = Ok f /\ s = lit "for=a;Host=b" /\ fw_host f = None.
Proof. eexists _, _. split; [|split; [reflexivity|]]; vm_compute; reflexivity. Qed.
Theorem C37_several_elements_refuted : exists s, s = lit "for=a;by=b, for=c;by=d" /\ fw_parse s = Err 500.
Proof. eexists. split; [reflexivity|]. vm_compute. reflexivity. Qed.
Theorem C37_repeated_for_refuted : exists s f, s = lit "for=a;for=b" /\ fw_parse s = Ok f /\ fw_for f = [lit "a"; lit "b"].
Proof. eexists _, _. split; [reflexivity|]. split; [vm_compute; reflexivity|vm_compute; reflexivity]. Qed.
Print Assumptions C37_names_case_sensitive_refuted.
Print Assumptions C37_several_elements_refuted.
Print Assumptions C37_repeated_for_refuted.

(** The Forwarded header decides when present, even if it is malformed; only the first line counts. *)
Theorem C37_forwarded_first : forall ipv6 h v vs, h_get h (lit "forwarded") = Some (v :: vs) ->
  fw_from_headers ipv6 h = (let* f := fw_parse v in Ok (Some f)).
Proof.
  intros ip h v vs H. unfold fw_from_headers, from_forwarded_header, first_value. change FORWARDED with (lit "forwarded"). rewrite H. cbn [bind values_first].
  destruct (fw_parse v); reflexivity.
Qed.
Print Assumptions C37_forwarded_first.

(** The first line of a header. *)
Definition text_of (h : headers) (n : str) : option str := match h_get h n with Some (v :: _) => Some v | _ => None end.

(** Otherwise each X-Forwarded-* header supplies its part: the entries of the for list trimmed, IPv6
    addresses in brackets. *)
Theorem C37_x_forwarded : forall ipv6 h o, h_get h (lit "forwarded") = None -> fw_from_headers ipv6 h = Ok o ->
  let fors := match text_of h (lit "x-forwarded-for") with
              | None => []
              | Some v => map (fun e => match ipv6 (trim e) with Some t => lit "[" ++ t ++ lit "]" | None => trim e end) (split 44 v)
              end in
  match o with
  | Some f => f = mkForwarded (text_of h (lit "x-forwarded-by")) fors (text_of h (lit "x-forwarded-host")) (text_of h (lit "x-forwarded-proto"))
  | None => forall n, In n [lit "x-forwarded-for"; lit "x-forwarded-by"; lit "x-forwarded-host"; lit "x-forwarded-proto"] -> h_get h n = None
  end.
Proof.
  intros ip h o H E. unfold fw_from_headers, from_forwarded_header in E. unfold first_value at 1 in E. change FORWARDED with (lit "forwarded") in E.
  rewrite H in E. cbn [bind] in E. unfold from_x_headers in E.
  assert (F : forall n, match first_value h n with
     | Ok a => a = text_of h n /\ (a = None -> h_get h n = None)
     | _ => h_get h n = Some [] end).
  { intros n. unfold first_value, text_of. destruct (h_get h n) as [[|v vs]|]; cbn; [reflexivity| |]; split; congruence. }
  pose proof (F (lit "x-forwarded-for")) as F1. pose proof (F (lit "x-forwarded-by")) as F2.
  pose proof (F (lit "x-forwarded-proto")) as F3. pose proof (F (lit "x-forwarded-host")) as F4. clear F.
  destruct (first_value h (lit "x-forwarded-for")) as [a| |]; try discriminate. cbn [bind] in E.
  destruct (first_value h (lit "x-forwarded-by")) as [b| |]; try discriminate. cbn [bind] in E.
  destruct (first_value h (lit "x-forwarded-proto")) as [c| |]; try discriminate. cbn [bind] in E.
  destruct (first_value h (lit "x-forwarded-host")) as [d| |]; try discriminate. cbn [bind] in E.
  destruct F1 as [F1 G1], F2 as [F2 G2], F3 as [F3 G3], F4 as [F4 G4]. cbn zeta. rewrite <- F1, <- F2, <- F3, <- F4. injection E as <-.
  destruct a as [a|].
  - assert (NE := split_nonempty 44 a). destruct (split 44 a) as [|p ps]; [congruence|]. reflexivity.
  - destruct b, c, d; try reflexivity. intros n [<-|[<-|[<-|[<-|[]]]]]; auto.
Qed.
Print Assumptions C37_x_forwarded.

Example C37_example :
  fw_parse (lit "for=192.0.2.43,  FOR=""[2001:db8:cafe::17]"";proto=https;x=y;by=""a;b""")
  = Ok (mkForwarded (Some (lit "a;b")) [lit "192.0.2.43"; lit "[2001:db8:cafe::17]"] None (Some (lit "https"))) /\
  fw_parse (lit "by=a;by=b") = Err 500 /\
  fw_from_headers (fun s => if seqb s (lit "::1") then Some s else None)
    [(lit "x-forwarded-for", [lit "10.0.0.1, ::1 ,unknown"; lit "ignored"]); (lit "x-forwarded-proto", [lit "https"])]
  = Ok (Some (mkForwarded None [lit "10.0.0.1"; lit "[::1]"; lit "unknown"] None (Some (lit "https")))).
Proof. vm_compute. auto. Qed.

(** ** C35 Round trip. *)
Definition token_str (s : str) : Prop := s <> [] /\ forallb tchar s = true.
(** Characters that may be quoted: HTAB, SP, U+000F and the visible ones except "!". *)
Definition quotable (c : N) : bool := (c =? 9) || (c =? 15) || (c =? 32) || ((34 <=? c) && (c <=? 126)).
Definition for_value (v : str) : Prop := v <> [] /\ (forallb tchar v = true \/ forallb quotable v = true).
Definition opt_token (o : option str) : Prop := match o with Some s => token_str s | None => True end.

Definition ev_of (v : str) : evalue := if forallb tchar v then Tok v else Quo (flat_map escape v) v.
Lemma escape_body v : forallb quotable v = true -> qbody code_qdtext (flat_map escape v) v.
Proof.
  induction v as [|c v IH]; cbn [forallb flat_map]; intros H; [constructor|]. apply andb_true_iff in H as [H1 H2]. unfold escape at 1.
  unfold quotable in H1. destruct ((c =? 92) || (c =? 34)) eqn:E; cbn [app]; constructor; auto; [lia|].
  unfold code_qdtext, qdtext. lia.
Qed.
Lemma ev_of_ok v : for_value v -> ev_ok (ev_of v).
Proof.
  intros [N H]. unfold ev_of. destruct (forallb tchar v) eqn:T; cbn [ev_ok]; [auto|]. apply escape_body. destruct H; congruence.
Qed.
Lemma ev_of_val v : ev_val (ev_of v) = v.
Proof. unfold ev_of. destruct (forallb tchar v); reflexivity. Qed.
Lemma format_value_ev v : for_value v -> format_value v = Ok (ev_text (ev_of v)).
Proof.
  intros [N H]. unfold format_value, ev_of. rewrite parse_token_spec. cbn [bind]. destruct (forallb tchar v) eqn:T.
  - rewrite drop_while_all by exact T. reflexivity.
  - destruct (drop_while tchar v) as [|c r] eqn:D; [|reflexivity]. exfalso.
    assert (E := take_drop_while tchar v). rewrite D, app_nil_r in E. rewrite <- E, take_while_all in T. discriminate.
Qed.

Definition for_sec (vs : list str) : list section :=
  match vs with
  | [] => []
  | v :: vs' => [SFor (lit "for=") (ev_of v) (map (fun v => (lit " ", lit "for=", ev_of v)) vs')]
  end.
Definition opt_sec (key : str) (o : option str) : list section := match o with Some v => [SPair key (Tok v)] | None => [] end.
Definition sections_of (f : forwarded) : list section :=
  opt_sec (lit "by") (fw_by f) ++ for_sec (fw_for f) ++ opt_sec (lit "host") (fw_host f) ++ opt_sec (lit "proto") (fw_proto f).

Lemma fors_text vs : Forall for_value vs ->
  map_outcome (fun v => let* t := format_value v in Ok (lit "for=" ++ t)) vs = Ok (map (fun v => lit "for=" ++ ev_text (ev_of v)) vs).
Proof.
  induction 1 as [|v vs H1 H2 IH]; [reflexivity|]. cbn [map_outcome map]. rewrite (format_value_ev v H1). cbn [bind]. rewrite IH. reflexivity.
Qed.
Lemma join_fors v vs : join (lit ", ") (map (fun v => lit "for=" ++ ev_text (ev_of v)) (v :: vs))
  = sec_text (SFor (lit "for=") (ev_of v) (map (fun v => (lit " ", lit "for=", ev_of v)) vs)).
Proof.
  revert v. induction vs as [|w vs IH]; intros v.
  - cbn [map join sec_text flat_map]. rewrite app_nil_r. reflexivity.
  - change (map (fun v => lit "for=" ++ ev_text (ev_of v)) (v :: w :: vs)) with ((lit "for=" ++ ev_text (ev_of v)) :: map (fun v => lit "for=" ++ ev_text (ev_of v)) (w :: vs)).
    assert (J : forall x l, join (lit ", ") (x :: map (fun v => lit "for=" ++ ev_text (ev_of v)) (w :: l)) = x ++ lit ", " ++ join (lit ", ") (map (fun v => lit "for=" ++ ev_text (ev_of v)) (w :: l))) by reflexivity.
    rewrite J, IH. cbn [sec_text map flat_map more_text]. rewrite <- !app_assoc. reflexivity.
Qed.

(** Sections each followed by a semicolon. *)
Lemma semi_text l : flat_map (fun s => sec_text s ++ [59]) l = match l with [] => [] | _ => fw_text l ++ [59] end.
Proof.
  induction l as [|s l IH]; [reflexivity|]. cbn [flat_map]. rewrite IH. unfold fw_text. destruct l as [|s2 l]; cbn [map].
  - cbn [join]. rewrite app_nil_r. reflexivity.
  - change (join [59] (sec_text s :: sec_text s2 :: map sec_text l)) with (sec_text s ++ [59] ++ join [59] (sec_text s2 :: map sec_text l)).
    rewrite <- !app_assoc. reflexivity.
Qed.
Lemma opt_text key k o : k = key ++ [61] -> opt_part k o = flat_map (fun s => sec_text s ++ [59]) (opt_sec key o).
Proof. intros ->. destruct o as [v|]; [|reflexivity]. cbn. rewrite app_nil_r, <- !app_assoc. reflexivity. Qed.

Lemma value_text f : Forall for_value (fw_for f) -> fw_for f <> [] -> fw_value f = Ok (fw_text (sections_of f)).
Proof.
  intros F N. unfold fw_value. rewrite (fors_text _ F). cbn [bind]. f_equal.
  rewrite (opt_text (lit "by") (lit "by=") (fw_by f) eq_refl), (opt_text (lit "host") (lit "host=") (fw_host f) eq_refl), (opt_text (lit "proto") (lit "proto=") (fw_proto f) eq_refl).
  assert (E : join (lit ", ") (map (fun v => lit "for=" ++ ev_text (ev_of v)) (fw_for f)) ++ lit ";" = flat_map (fun s => sec_text s ++ [59]) (for_sec (fw_for f))).
  { destruct (fw_for f) as [|v vs]; [congruence|]. rewrite join_fors. cbn [for_sec flat_map]. rewrite app_nil_r. reflexivity. }
  rewrite (app_assoc (join _ _)), E. rewrite <- !flat_map_app. fold (sections_of f). rewrite semi_text.
  destruct (sections_of f) as [|s l] eqn:S.
  - exfalso. unfold sections_of in S. destruct (fw_for f); [congruence|]. apply app_eq_nil in S as [_ S]. discriminate.
  - apply removelast_last.
Qed.

Lemma opt_sec_ok key o : opt_token o -> key <> [] -> forallb tchar key = true -> to_lower key <> lit "for" -> Forall sec_ok (opt_sec key o).
Proof. intros T N K F. destruct o as [v|]; [|constructor]. repeat constructor; auto; apply T. Qed.
Lemma sections_ok f : opt_token (fw_by f) -> opt_token (fw_host f) -> opt_token (fw_proto f) -> Forall for_value (fw_for f) ->
  Forall sec_ok (sections_of f).
Proof.
  intros B H P F. unfold sections_of. rewrite !Forall_app.
  split; [apply opt_sec_ok; [exact B|discriminate|reflexivity|discriminate]|].
  split; [|split; apply opt_sec_ok; try assumption; solve [discriminate|reflexivity]].
  destruct (fw_for f) as [|v vs]; [constructor|]. inv F. constructor; [|constructor]. cbn [sec_ok]. split; [reflexivity|]. split; [apply ev_of_ok; assumption|].
  clear - H3. induction H3 as [|w ws W1 W2 IH]; cbn [map]; constructor; [|exact IH]. cbn [more_ok]. split; [reflexivity|]. split; [reflexivity|]. split; [reflexivity|]. apply ev_of_ok, W1.
Qed.
Lemma given_opt key k o : given key (opt_sec k o) = if str_eq_dec k key then match o with Some v => [v] | None => [] end else [].
Proof. destruct o; cbn; [destruct (str_eq_dec k key); reflexivity|destruct (str_eq_dec k key); reflexivity]. Qed.
Lemma given_for key vs : given key (for_sec vs) = [].
Proof. destruct vs; reflexivity. Qed.
Lemma given_app key a b : given key (a ++ b) = given key a ++ given key b.
Proof. apply flat_map_app. Qed.
Lemma given_sections f : given (lit "by") (sections_of f) = match fw_by f with Some v => [v] | None => [] end /\
  given (lit "host") (sections_of f) = match fw_host f with Some v => [v] | None => [] end /\
  given (lit "proto") (sections_of f) = match fw_proto f with Some v => [v] | None => [] end.
Proof.
  unfold sections_of. rewrite !given_app, !given_for, !given_opt.
  repeat match goal with |- context [str_eq_dec ?a ?b] => let E := fresh in destruct (str_eq_dec a b) as [E|E]; [first [discriminate E|clear E]|first [exfalso; apply E; reflexivity|clear E]] end.
  cbn [app]. rewrite ?app_nil_r. auto.
Qed.
Lemma fors_sections f : fors (sections_of f) = fw_for f.
Proof.
  unfold sections_of, fors. rewrite !flat_map_app. assert (O : forall k o, flat_map sec_fors (opt_sec k o) = []) by (intros k [v|]; reflexivity).
  rewrite !O, !app_nil_r. cbn [app]. destruct (fw_for f) as [|v vs]; [reflexivity|]. cbn [for_sec flat_map sec_fors]. rewrite app_nil_r, ev_of_val. f_equal.
  rewrite map_map. cbn [snd]. erewrite map_ext; [apply map_id|]. apply ev_of_val.
Qed.

(** by, host and proto tokens; [for] values non-empty and quotable, at least one unless by stands alone. *)
Theorem C35_round_trip_partial : forall f, opt_token (fw_by f) -> opt_token (fw_host f) -> opt_token (fw_proto f) ->
  Forall for_value (fw_for f) -> (fw_for f <> [] \/ fw_host f = None /\ fw_proto f = None) ->
  exists s, fw_value f = Ok s /\ is_ascii s = true /\ fw_parse s = Ok f.
Proof.
  intros f B H P F [N|[E1 E2]].
  - exists (fw_text (sections_of f)). assert (O := sections_ok f B H P F). split; [apply value_text; assumption|]. split; [apply join_ascii, O|].
    destruct (given_sections f) as (G1 & G2 & G3). rewrite C37_meaning_partial; [|exact O|].
    + rewrite G1, G2, G3, fors_sections. destruct f as [[b|] fs [h|] [p|]]; reflexivity.
    + intros key [<-|[<-|[<-|[]]]]; rewrite ?G1, ?G2, ?G3; match goal with |- context [match ?o with _ => _ end] => destruct o end; cbn; lia.
  - destruct (fw_for f) as [|v vs] eqn:Ef.
    + destruct f as [b fs h p]. cbn [fw_by fw_for fw_host fw_proto] in *. subst fs h p. destruct b as [b|]; [|exists []; vm_compute; auto].
      assert (O : Forall sec_ok [SPair (lit "by") (Tok b)]).
      { constructor; [|constructor]. split; [discriminate|]. split; [reflexivity|]. split; [discriminate|exact B]. }
      exists (fw_text [SPair (lit "by") (Tok b)] ++ trail true). split; [|split].
      * unfold fw_value. cbn [fw_for fw_by fw_host fw_proto map_outcome bind opt_part join]. f_equal.
        change (removelast ((lit "by=" ++ b ++ lit ";") ++ [59]) = fw_text [SPair (lit "by") (Tok b)] ++ trail true). rewrite removelast_last.
        reflexivity.
      * rewrite is_ascii_app, join_ascii by exact O. reflexivity.
      * unfold fw_parse. rewrite parse_text; [|exact O|discriminate|reflexivity]. reflexivity.
    + exists (fw_text (sections_of f)). assert (O := sections_ok f B H P). rewrite Ef in O. specialize (O F). split; [apply value_text; rewrite Ef; [exact F|discriminate]|]. split; [apply join_ascii, O|].
      destruct (given_sections f) as (G1 & G2 & G3). rewrite C37_meaning_partial; [|exact O|].
      * rewrite G1, G2, G3, fors_sections, Ef. destruct f as [[b|] fs [h|] [p|]]; cbn in Ef |- *; rewrite Ef; reflexivity.
      * intros key [<-|[<-|[<-|[]]]]; rewrite ?G1, ?G2, ?G3; match goal with |- context [match ?o with _ => _ end] => destruct o end; cbn; lia.
Qed.
Print Assumptions C35_round_trip_partial.
Example C35_round_trip_partial_case : let f := mkForwarded (Some (lit "p")) [lit "a b"; lit "c"] None (Some (lit "https")) in
  opt_token (fw_by f) /\ opt_token (fw_host f) /\ opt_token (fw_proto f) /\ Forall for_value (fw_for f) /\ fw_for f <> [] /\ (let* s := fw_value f in fw_parse s) = Ok f.
Proof.
  cbv zeta. cbn [fw_by fw_host fw_proto fw_for opt_token]. split; [split; [discriminate|reflexivity]|]. split; [exact I|]. split; [split; [discriminate|reflexivity]|].
  split; [|split; [discriminate|vm_compute; reflexivity]]. constructor; [|constructor; [|constructor]]; (split; [discriminate|]); [now right|now left].
Qed.

(** A host without a for; a host with a port; a host that smuggles in a proto; a quoted "!"; an empty for. *)
Theorem C35_host_only_refuted : exists f s, f = set_host fw_new (lit "example.com") /\ fw_value f = Ok s /\ fw_parse s = Err 500.
Proof. eexists _, _. split; [reflexivity|]. split; [vm_compute; reflexivity|vm_compute; reflexivity]. Qed.
Theorem C35_host_port_refuted : exists f s, f = set_host (add_for fw_new (lit "a")) (lit "example.com:80") /\ fw_value f = Ok s /\ fw_parse s = Err 500.
Proof. eexists _, _. split; [reflexivity|]. split; [vm_compute; reflexivity|vm_compute; reflexivity]. Qed.
Theorem C35_injection_refuted : exists f s f', f = set_host (add_for fw_new (lit "a")) (lit "h;proto=https") /\ fw_value f = Ok s /\
  fw_parse s = Ok f' /\ fw_proto f = None /\ fw_proto f' = Some (lit "https").
Proof. eexists _, _, _. split; [reflexivity|]. split; [vm_compute; reflexivity|]. split; [vm_compute; reflexivity|]. split; [vm_compute; reflexivity|vm_compute; reflexivity]. Qed.
Theorem C35_exclamation_refuted : exists f s, f = add_for fw_new (lit "hi there!") /\ fw_value f = Ok s /\ fw_parse s = Err 500.
Proof. eexists _, _. split; [reflexivity|]. split; [vm_compute; reflexivity|vm_compute; reflexivity]. Qed.
Theorem C35_empty_for_refuted : exists f s, f = add_for fw_new [] /\ fw_value f = Ok s /\ fw_parse s = Err 500.
Proof. eexists _, _. split; [reflexivity|]. split; [vm_compute; reflexivity|vm_compute; reflexivity]. Qed.
(** The header value is built without the ASCII check all others go through. *)
Theorem C35_non_ascii_value_refuted : exists f s, fw_value f = Ok s /\ is_ascii s = false.
Proof. exists (add_for fw_new [233]). eexists. split; [vm_compute; reflexivity|vm_compute; reflexivity]. Qed.
Print Assumptions C35_host_only_refuted.
Print Assumptions C35_host_port_refuted.
Print Assumptions C35_injection_refuted.
Print Assumptions C35_exclamation_refuted.
Print Assumptions C35_empty_for_refuted.
Print Assumptions C35_non_ascii_value_refuted.

Example C35_example :
  let f := set_proto (set_by (add_for (add_for fw_new (lit "192.0.2.43")) (lit "a ""quoted\ value"", [::1]")) (lit "proxy")) (lit "https") in
  fw_value f = Ok (lit "by=proxy;for=192.0.2.43, for=""a \""quoted\\ value\"", [::1]"";proto=https") /\
  (let* s := fw_value f in fw_parse s) = Ok f.
Proof. vm_compute. auto. Qed.

(** ** C32 Host and remote address of a request. *)
Definition filled (h : headers) : Prop := forall n vs, h_get h n = Some vs -> vs <> [].

(** The text before the first comma. *)
Definition before_comma (v a : str) : Prop := ~ In 44 a /\ (v = a \/ exists b, v = a ++ 44 :: b).

Lemma first_value_text h n : filled h -> first_value h n = Ok (text_of h n).
Proof. intros F. unfold first_value, text_of. specialize (F n). destruct (h_get h n) as [[|v vs]|]; [destruct (F [] eq_refl eq_refl)|reflexivity|reflexivity]. Qed.
Lemma hd_split v : exists a, hd_error (split 44 v) = Some a /\ before_comma v a.
Proof.
  unfold before_comma. induction v as [|c v IH]; [exists []; cbn; auto|]. cbn [split]. destruct (N.eqb_spec c 44) as [->|N].
  - exists []. cbn. split; [reflexivity|]. split; [auto|]. right. exists v. reflexivity.
  - destruct IH as (a & H & Hn & K). destruct (split 44 v) as [|p ps]; [discriminate|]. cbn in H. inv H. exists (c :: a). split; [reflexivity|].
    split; [intros [E|E]; [congruence|auto]|]. destruct K as [->|[b ->]]; [auto|right; exists b; reflexivity].
Qed.

(** Without a usable Forwarded header: X-Forwarded-Host up to the first comma, Host, the URL. *)
Lemma host_precedence : forall V (r : request V), filled (c_headers (rq_common r)) ->
  let h := c_headers (rq_common r) in
  forwarded_header_part h (lit "host") = Ok None ->
  match text_of h (lit "x-forwarded-host"), text_of h (lit "host") with
  | Some v, _ => exists a, host r = Ok (Some a) /\ before_comma v a
  | None, Some v => host r = Ok (Some v)
  | None, None => host r = Ok (url_host (rq_url r))
  end.
Proof.
  intros V r F h P. unfold host. fold h. rewrite P. unfold first_entry. rewrite !(first_value_text h) by exact F. cbn [or_else bind].
  destruct (text_of h (lit "x-forwarded-host")) as [v|].
  - destruct (hd_split v) as (a & -> & B). exists a. auto.
  - destruct (text_of h (lit "host")); reflexivity.
Qed.
Lemma host_forwarded_wins : forall V (r : request V) v, forwarded_header_part (c_headers (rq_common r)) (lit "host") = Ok (Some v) ->
  host r = Ok (Some v).
Proof. intros V r v P. unfold host. rewrite P. reflexivity. Qed.
Lemma remote_precedence : forall V (r : request V), filled (c_headers (rq_common r)) ->
  let h := c_headers (rq_common r) in
  match forwarded_header_part h (lit "for"), text_of h (lit "x-forwarded-for") with
  | Ok (Some v), _ => remote r = Ok (Some v)
  | Ok None, Some v => exists a, remote r = Ok (Some a) /\ before_comma v a
  | Ok None, None => remote r = Ok (c_peer (rq_common r))
  | _, _ => False
  end.
Proof.
  intros V r F h. assert (E : exists o, forwarded_header_part h (lit "for") = Ok o).
  { unfold forwarded_header_part. rewrite first_value_text by exact F. eexists. reflexivity. }
  destruct E as [o E]. unfold remote, forwarded_for. fold h. rewrite E. destruct o as [v|]; [reflexivity|]. unfold first_entry.
  rewrite first_value_text by exact F. cbn [or_else bind]. destruct (text_of h (lit "x-forwarded-for")) as [v|]; [|reflexivity].
  destruct (hd_split v) as (a & -> & B). exists a. auto.
Qed.

(** Headers the request reads as the Forwarded parser does: a single for element, no quoting, lower-case
    host. *)
Definition plain_sec (s : section) : Prop :=
  match s with
  | SFor _ (Tok _) [] => True
  | SPair key (Tok _) => to_lower key = lit "host" -> key = lit "host"
  | _ => False
  end.

Lemma tchars_no c t : tchar c = false -> forallb tchar t = true -> no_char c t = true.
Proof. intros C T. eapply no_char_forallb; eassumption. Qed.
Lemma for_key k : for_ok k -> exists a, k = a ++ [61] /\ to_lower a = lit "for" /\ no_char 61 a = true /\ no_char 59 k = true.
Proof.
  unfold for_ok, to_lower. intros K. destruct k as [|a [|b [|c [|d [|? ?]]]]]; try discriminate. cbn [map] in K. injection K as K1 K2 K3 K4.
  change (lower_char a = 102) in K1. change (lower_char b = 111) in K2. change (lower_char c = 114) in K3. change (lower_char d = 61) in K4.
  exists [a; b; c]. unfold no_char. cbn [forallb app]. unfold lower_char, is_upper in *.
  destruct ((65 <=? a) && (a <=? 90)) eqn:Ea, ((65 <=? b) && (b <=? 90)) eqn:Eb, ((65 <=? c) && (c <=? 90)) eqn:Ec, ((65 <=? d) && (d <=? 90)) eqn:Ed; try lia.
  all: assert (d = 61) as -> by lia; split; [reflexivity|]; split; [cbn [map]; unfold lower_char, is_upper; rewrite Ea, Eb, Ec, K1, K2, K3; reflexivity|]; split; lia.
Qed.
Lemma sec_piece s : sec_ok s -> plain_sec s -> exists k v, sec_text s = k ++ 61 :: v /\ split 61 (sec_text s) = [k; v] /\ no_char 59 (sec_text s) = true /\
  match s with SFor _ x _ => to_lower k = lit "for" /\ v = ev_val x | SPair key x => k = key /\ v = ev_val x end.
Proof.
  assert (S : forall k v, no_char 61 k = true -> no_char 61 v = true -> split 61 (k ++ 61 :: v) = [k; v]).
  { intros k v A B. rewrite split_app by exact A. rewrite split_no_char by exact B. reflexivity. }
  intros O P. destruct s as [k [t|] [|m more]|key [t|]]; try contradiction; cbn [sec_ok ev_ok sec_text ev_text ev_val flat_map] in *.
  - destruct O as (K & [_ T] & _). destruct (for_key k K) as (a & -> & A1 & A2 & A3). exists a, t. rewrite app_nil_r, <- app_assoc. cbn [app].
    split; [reflexivity|]. split; [apply S; [exact A2|apply tchars_no; [reflexivity|exact T]]|]. split; [|auto].
    rewrite no_char_app in A3. apply andb_true_iff in A3 as [A3 _]. change (a ++ 61 :: t) with (a ++ [61] ++ t). rewrite !no_char_app, A3, (tchars_no 59 t eq_refl T). reflexivity.
  - destruct O as (N & K & F & [_ T]). exists key, t. split; [reflexivity|]. split; [apply S; apply tchars_no; solve [reflexivity|assumption]|]. split; [|auto].
    change (key ++ 61 :: t) with (key ++ [61] ++ t). rewrite !no_char_app, (tchars_no 59 t eq_refl T), (tchars_no 59 key eq_refl K). reflexivity.
Qed.

Theorem C32_agrees_with_parser_partial : forall V (r : request V) l vs f, Forall sec_ok l -> Forall plain_sec l ->
  h_get (c_headers (rq_common r)) (lit "forwarded") = Some (fw_text l :: vs) -> fw_parse (fw_text l) = Ok f ->
  (forall h, fw_host f = Some h -> host r = Ok (Some h)) /\
  (fw_host f = None -> h_get (c_headers (rq_common r)) (lit "x-forwarded-host") = None -> h_get (c_headers (rq_common r)) (lit "host") = None ->
     host r = Ok (url_host (rq_url r))) /\
  (forall x xs, fw_for f = x :: xs -> remote r = Ok (Some x)) /\
  (fw_for f = [] -> h_get (c_headers (rq_common r)) (lit "x-forwarded-for") = None -> remote r = Ok (c_peer (rq_common r))).
Proof.
  intros V r l vs f O P H E.
  assert (D : forall key, In key [lit "by"; lit "host"; lit "proto"] -> (length (given key l) <= 1)%nat).
  { intros key I. destruct (le_lt_dec (length (given key l)) 1) as [L|L]; [exact L|]. rewrite (C37_repeated_is_error l key O I L) in E. discriminate. }
  rewrite (C37_meaning_partial l O D) in E. injection E as <-. cbn [fw_host fw_for].
  assert (FP : forall part, forwarded_header_part (c_headers (rq_common r)) part = Ok (find_map (fun kv => match split 61 kv with [k; x] => if eq_ignore_case k part then Some x else None | _ => None end) (match l with [] => [[]] | _ => map sec_text l end))).
  { intros part. unfold forwarded_header_part, first_value. change FORWARDED with (lit "forwarded"). rewrite H. cbn [values_first bind].
    destruct l as [|s l]; [reflexivity|]. unfold fw_text. rewrite split_join; [reflexivity|discriminate|].
    apply Forall_forall. intros p I. apply in_map_iff in I as (s' & <- & I). rewrite Forall_forall in O, P. destruct (sec_piece s' (O s' I) (P s' I)) as (k & v & _ & _ & Z & _). exact Z. }
  assert (HH : forwarded_header_part (c_headers (rq_common r)) (lit "host") = Ok (hd_error (given (lit "host") l))).
  { rewrite FP. f_equal. clear - O P. destruct l as [|s0 l0]; [reflexivity|]. remember (s0 :: l0) as l eqn:El. clear s0 l0 El.
    induction l as [|s l IH]; [reflexivity|]. inv O. inv P. cbn [map find_map fold_right]. destruct (sec_piece s H1 H3) as (k & v & T & -> & _ & W).
    rewrite given_cons. unfold given at 1. cbn [flat_map]. rewrite app_nil_r. fold (find_map (fun kv => match split 61 kv with [k; x] => if eq_ignore_case k (lit "host") then Some x else None | _ => None end) (map sec_text l)). destruct s as [k0 x more|key x].
    - destruct W as [W _]. unfold eq_ignore_case. rewrite W. cbn [app]. change (seqb (lit "for") (to_lower (lit "host"))) with false. cbn iota. apply IH; assumption.
    - destruct W as [-> ->]. destruct (str_eq_dec key (lit "host")) as [->|N]; [reflexivity|]. replace (eq_ignore_case key (lit "host")) with false; [cbn [app]; apply IH; assumption|].
      symmetry. apply seqb_neq. intros X. apply N. destruct x; [|contradiction]. apply H3, X. }
  assert (HF : forwarded_header_part (c_headers (rq_common r)) (lit "for") = Ok (hd_error (fors l))).
  { rewrite FP. f_equal. clear - O P. destruct l as [|s0 l0]; [reflexivity|]. remember (s0 :: l0) as l eqn:El. clear s0 l0 El.
    induction l as [|s l IH]; [reflexivity|]. inv O. inv P. cbn [map find_map fold_right]. destruct (sec_piece s H1 H3) as (k & v & T & -> & _ & W).
    rewrite fors_cons. fold (find_map (fun kv => match split 61 kv with [k; x] => if eq_ignore_case k (lit "for") then Some x else None | _ => None end) (map sec_text l)). destruct s as [k0 x more|key x].
    - destruct W as [W ->]. unfold eq_ignore_case. rewrite W. reflexivity.
    - destruct W as [-> ->]. destruct H1 as (_ & _ & F & _). replace (eq_ignore_case key (lit "for")) with false; [cbn [sec_fors app]; apply IH; assumption|].
      symmetry. apply seqb_neq. exact F. }
  split; [intros h G; apply host_forwarded_wins; rewrite HH, G; reflexivity|].
  split; [intros G X1 X2; unfold host, first_entry, first_value; rewrite HH, G; cbn [hd_error or_else bind]; rewrite X1, X2; reflexivity|].
  split; [intros x xs G; unfold remote, forwarded_for; rewrite HF, G; reflexivity|].
  intros G X. unfold remote, forwarded_for, first_entry, first_value. rewrite HF, G. cbn [hd_error or_else bind]. rewrite X. reflexivity.
Qed.
Print Assumptions C32_agrees_with_parser_partial.
Example C32_agrees_with_parser_partial_case : let l := [SFor (lit "for=") (Tok (lit "1.2.3.4")) []; SPair (lit "host") (Tok (lit "h.example"))] in
  Forall sec_ok l /\ Forall plain_sec l /\ fw_text l = lit "for=1.2.3.4;host=h.example".
Proof.
  cbv zeta. split; [|split; [|reflexivity]]; (constructor; [|constructor; [|constructor]]); cbn [sec_ok plain_sec]; try exact I; auto.
  - split; [reflexivity|]. split; [split; [discriminate|reflexivity]|constructor].
  - split; [discriminate|]. split; [reflexivity|]. split; [discriminate|]. split; [discriminate|reflexivity].
Qed.

Definition request_with (fw : string) : request str :=
  mkRequest M_Get (mkUrl (lit "http://url.example/") (Some (lit "url.example")))
    (with_headers common_new [(lit "forwarded", [lit fw])]) (mkEnds None None false).
(** Quotes are kept; with two for elements the header is ignored. *)
Theorem C32_quotes_kept_refuted : exists fw f, fw_parse (lit fw) = Ok f /\ fw_host f = Some (lit "a.b:80") /\
  host (request_with fw) = Ok (Some (lit """a.b:80""")).
Proof. exists "for=c;host=""a.b:80"""%string. eexists. split; [vm_compute; reflexivity|]. split; [vm_compute; reflexivity|vm_compute; reflexivity]. Qed.
Theorem C32_for_list_ignored_refuted : exists fw f, fw_parse (lit fw) = Ok f /\ fw_for f = [lit "192.0.2.1"; lit "192.0.2.2"] /\
  remote (request_with fw) = Ok None.
Proof. exists "for=192.0.2.1, for=192.0.2.2"%string. eexists. split; [vm_compute; reflexivity|]. split; [vm_compute; reflexivity|vm_compute; reflexivity]. Qed.
(** A quoted value may even supply the host: the text of another parameter is read as one. *)
Theorem C32_host_from_quoted_refuted : exists fw f, fw_parse (lit fw) = Ok f /\ fw_host f = Some (lit "real") /\
  host (request_with fw) = Ok (Some (lit "evil")).
Proof. exists "for=""x;host=evil;"";host=real"%string. eexists. split; [vm_compute; reflexivity|]. split; [vm_compute; reflexivity|vm_compute; reflexivity]. Qed.
Print Assumptions C32_quotes_kept_refuted.
Print Assumptions C32_for_list_ignored_refuted.
Print Assumptions C32_host_from_quoted_refuted.

Example C32_example : host (request_with "for=1.2.3.4;host=h.example"%string) = Ok (Some (lit "h.example")) /\
  remote (request_with "for=1.2.3.4;host=h.example"%string) = Ok (Some (lit "1.2.3.4")) /\
  host (request_with "for=1.2.3.4"%string) = Ok (Some (lit "url.example")).
Proof. vm_compute. auto. Qed.
