(** C32, C64 and C94, continued: what is cut out of Forwarded for host and remote address, and exactly the texts of traceparent and Timing-Allow-Origin. *)
From Coq Require Import ZifyBool ZifyNat ZifyN Lia.
From Verif Require Import Base BaseFacts Headers HeadersFacts Typed TypedFacts Message Forwarded ForwardedProps Trace TraceProps Other OtherProps NegotiateExactProps GrammarProps TimingGrammarProps.
Open Scope N_scope.

(** ** C32 *)
(** A piece [k=x] with one equals sign, the key as asked up to case. *)
Definition pair_piece (part p x : str) : Prop := exists k, p = k ++ 61 :: x /\ ~ In 61 k /\ ~ In 61 x /\ to_lower k = to_lower part.
(** The first such piece among those between semicolons. *)
Definition part_of (v part x : str) : Prop := exists pre p post, v = join [59] (pre ++ p :: post) /\ Forall (fun q => ~ In 59 q) (pre ++ p :: post) /\
  pair_piece part p x /\ Forall (fun q => forall y, ~ pair_piece part q y) pre.

Definition piece_value (part kv : str) : option str :=
  match split 61 kv with [k; x] => if eq_ignore_case k part then Some x else None | _ => None end.
Lemma piece_value_iff : forall part kv x, piece_value part kv = Some x <-> pair_piece part kv x.
Proof.
  intros part kv x. unfold piece_value. split.
  - assert (P := split_pieces 61 kv). assert (J := split_join_inv 61 kv). destruct (split 61 kv) as [|k [|y [|? ?]]]; try discriminate.
    unfold eq_ignore_case. destruct (seqb_spec (to_lower k) (to_lower part)) as [E|]; [|discriminate]. intros H. injection H as <-. exists k.
    cbn [join app] in J. inversion P as [|? ? P1 P2]; subst. inversion P2 as [|? ? P3 _]; subst. split; [reflexivity|]. split; [now apply no_char_in|]. split; [now apply no_char_in|exact E].
  - intros (k & -> & K & X & E). rewrite split_app by (now apply no_char_in). rewrite split_no_char by (now apply no_char_in). unfold eq_ignore_case. rewrite E, seqb_refl. reflexivity.
Qed.
Lemma find_map_iff : forall A B (f : A -> option B) l b, find_map f l = Some b <-> exists pre a post, l = pre ++ a :: post /\ f a = Some b /\ Forall (fun x => f x = None) pre.
Proof.
  intros A B f. unfold find_map. induction l as [|a l IH]; intros b; cbn [fold_right].
  - split; [discriminate|]. intros (pre & a & post & E & _). destruct pre; discriminate E.
  - destruct (f a) as [c|] eqn:F.
    + split.
      * intros H. injection H as <-. exists [], a, l. split; [reflexivity|]. split; [exact F|constructor].
      * intros (pre & a' & post & E & F' & N). destruct pre as [|x pre]; injection E as <- ->; [congruence|]. inversion N; subst. congruence.
    + rewrite IH. split; intros (pre & a' & post & E & F' & N).
      * subst l. exists (a :: pre), a', post. split; [reflexivity|]. split; [exact F'|]. constructor; assumption.
      * destruct pre as [|x pre]; injection E as <- ->; [congruence|]. inversion N; subst. exists pre, a', post. split; [reflexivity|]. split; assumption.
Qed.
Lemma part_of_iff : forall v part x, find_map (piece_value part) (split 59 v) = Some x <-> part_of v part x.
Proof.
  intros v part x. rewrite find_map_iff. split.
  - intros (pre & p & post & E & F & N). exists pre, p, post. rewrite <- E. split; [symmetry; apply split_join_inv|]. split.
    + eapply Forall_impl; [|apply split_pieces]. intros q Q. now apply no_char_in.
    + split; [now apply piece_value_iff|]. eapply Forall_impl; [|exact N]. intros q Q y Y. apply piece_value_iff in Y. congruence.
  - intros (pre & p & post & -> & D & F & N). exists pre, p, post. split.
    + apply split_join; [destruct pre; discriminate|]. eapply Forall_impl; [|exact D]. intros q Q. now apply no_char_in.
    + split; [now apply piece_value_iff|]. eapply Forall_impl; [|exact N]. intros q Q. cbn beta in *. destruct (piece_value part q) as [y|] eqn:Y; [|reflexivity]. apply piece_value_iff in Y. destruct (Q y Y).
Qed.
Lemma before_comma_iff : forall v a, hd_error (split 44 v) = Some a <-> before_comma v a.
Proof.
  intros v a. split.
  - intros H. destruct (hd_split v) as (b & E & B). congruence.
  - intros (N & [->|(b & ->)]); [rewrite split_no_char by (now apply no_char_in); reflexivity|]. rewrite split_app by (now apply no_char_in). reflexivity.
Qed.

(** What a header says first, if it is there; a header stored with no value at all makes the accessors panic. *)
Definition says (h : headers) (n : str) (o : option str) : Prop :=
  match o with Some v => exists vs, h_get h n = Some (v :: vs) | None => h_get h n = None end.
Lemma first_says : forall h n o, first_value h n = Ok o <-> says h n o.
Proof.
  intros h n o. unfold first_value, says. destruct (h_get h n) as [[|v vs]|]; cbn [values_first bind].
  - split; [discriminate|]. destruct o; [intros (? & H)|intros H]; discriminate H.
  - split; [intros H; inv H; eauto|]. destruct o as [w|]; [intros (ws & H); now inv H|discriminate].
  - split; [intros H; now inv H|]. destruct o as [w|]; [intros (ws & H); discriminate H|reflexivity].
Qed.
Definition no_part (h : headers) (part : str) : Prop := exists o, says h (lit "forwarded") o /\ forall v x, o = Some v -> ~ part_of v part x.
Lemma header_part_iff : forall h part o, forwarded_header_part h part = Ok o <->
  match o with Some x => exists v, says h (lit "forwarded") (Some v) /\ part_of v part x | None => no_part h part end.
Proof.
  intros h part o. unfold forwarded_header_part. change FORWARDED with (lit "forwarded"). assert (S := first_says h (lit "forwarded")).
  change (fun kv : str => match split 61 kv with | [k; x] => if eq_ignore_case k part then Some x else None | _ => None end) with (piece_value part).
  destruct (first_value h (lit "forwarded")) as [[v|]| |]; cbn [bind].
  - assert (P := part_of_iff v part). assert (Sv := proj1 (S (Some v)) eq_refl). assert (U : forall w, says h (lit "forwarded") w -> w = Some v) by (intros w W; apply S in W; congruence).
    split.
    + intros H. injection H as <-. destruct (find_map (piece_value part) (split 59 v)) as [x|]; [exists v; split; [exact Sv|now apply P]|]. exists (Some v). split; [exact Sv|].
      intros w x Q X. injection Q as <-. apply P in X. discriminate X.
    + destruct o as [x|].
      * intros (w & W & X). apply U in W. injection W as ->. apply P in X. now rewrite X.
      * intros (w & W & N). apply U in W. subst w. f_equal. destruct (find_map (piece_value part) (split 59 v)) as [x|]; [|reflexivity]. destruct (N v x eq_refl). now apply P.
  - assert (Sv := proj1 (S None) eq_refl). assert (U : forall w, says h (lit "forwarded") w -> w = None) by (intros w W; apply S in W; congruence). split.
    + intros H. injection H as <-. exists None. split; [exact Sv|]. discriminate.
    + destruct o as [x|]; [intros (w & W & _); apply U in W; discriminate W|reflexivity].
  - split; [discriminate|]. destruct o as [x|]; [intros (w & W & _)|intros (w & W & _)]; apply S in W; discriminate W.
  - split; [discriminate|]. destruct o as [x|]; [intros (w & W & _)|intros (w & W & _)]; apply S in W; discriminate W.
Qed.

(** The host of a request, in full: the host part of the first Forwarded value; otherwise X-Forwarded-Host up to its first comma; otherwise the first Host value;
    otherwise what the URL says.  Quotes around a part are kept. *)
Theorem C32_host_iff : forall V (r : request V) o, let h := c_headers (rq_common r) in host r = Ok o <->
  (exists v x, says h (lit "forwarded") (Some v) /\ part_of v (lit "host") x /\ o = Some x) \/
  (no_part h (lit "host") /\
   ((exists v a, says h (lit "x-forwarded-host") (Some v) /\ before_comma v a /\ o = Some a) \/
    (says h (lit "x-forwarded-host") None /\
     ((exists v, says h (lit "host") (Some v) /\ o = Some v) \/ (says h (lit "host") None /\ o = url_host (rq_url r)))))).
Proof.
  intros V r o h. unfold host. fold h. assert (P := header_part_iff h (lit "host")). destruct (forwarded_header_part h (lit "host")) as [[x|]|e|] eqn:E; cbn [or_else bind].
  - destruct (proj1 (P (Some x)) eq_refl) as (v & S & X). split.
    + intros H. injection H as <-. left. eauto.
    + intros [(v' & x' & S' & X' & ->)|(N & _)]; [|apply (P None) in N; discriminate N].
      assert (Q : Ok (Some x) = Ok (Some x')) by (apply (P (Some x')); eauto). exact Q.
  - assert (N := proj1 (P None) eq_refl). unfold first_entry. assert (S1 := first_says h (lit "x-forwarded-host")). assert (S2 := first_says h (lit "host")).
    assert (K : forall o', Ok (@None str) = Ok o' -> o' = None) by congruence.
    split.
    + intros H. right. split; [exact N|]. destruct (first_value h (lit "x-forwarded-host")) as [[v|]| |]; cbn [bind or_else] in H; try discriminate H.
      * left. destruct (hd_split v) as (a & A & B). rewrite A in H. cbn [or_else] in H. injection H as <-. exists v, a. split; [now apply S1|]. split; [exact B|reflexivity].
      * right. split; [now apply S1|]. destruct (first_value h (lit "host")) as [[v|]| |]; cbn [or_else] in H; try discriminate H; injection H as <-.
        -- left. exists v. split; [now apply S2|reflexivity].
        -- right. split; [now apply S2|reflexivity].
    + intros [(v' & x' & S' & X' & _)|(_ & H)]; [exfalso; assert (Q : Ok None = Ok (Some x')) by (apply (P (Some x')); eauto); discriminate Q|].
      destruct H as [(v & a & S & B & ->)|(S & H)]; apply S1 in S; rewrite S; cbn [bind or_else].
      * apply before_comma_iff in B. rewrite B. reflexivity.
      * destruct H as [(v & S' & ->)|(S' & ->)]; apply S2 in S'; rewrite S'; reflexivity.
  - split; [discriminate|]. intros [(v' & x' & S' & X' & _)|(N & _)]; exfalso.
    + assert (Q : Err e = Ok (Some x')) by (apply (P (Some x')); eauto). discriminate Q.
    + apply (P None) in N. discriminate N.
  - split; [discriminate|]. intros [(v' & x' & S' & X' & _)|(N & _)]; exfalso.
    + assert (Q : Panic = Ok (Some x')) by (apply (P (Some x')); eauto). discriminate Q.
    + apply (P None) in N. discriminate N.
Qed.
(** The remote address likewise: the for part, X-Forwarded-For up to its first comma, the address of the peer. *)
Theorem C32_remote_iff : forall V (r : request V) o, let h := c_headers (rq_common r) in remote r = Ok o <->
  (exists v x, says h (lit "forwarded") (Some v) /\ part_of v (lit "for") x /\ o = Some x) \/
  (no_part h (lit "for") /\
   ((exists v a, says h (lit "x-forwarded-for") (Some v) /\ before_comma v a /\ o = Some a) \/
    (says h (lit "x-forwarded-for") None /\ o = c_peer (rq_common r)))).
Proof.
  intros V r o h. unfold remote, forwarded_for. fold h. assert (P := header_part_iff h (lit "for")). destruct (forwarded_header_part h (lit "for")) as [[x|]|e|] eqn:E; cbn [or_else bind].
  - destruct (proj1 (P (Some x)) eq_refl) as (v & S & X). split.
    + intros H. injection H as <-. left. eauto.
    + intros [(v' & x' & S' & X' & ->)|(N & _)]; [|apply (P None) in N; discriminate N].
      assert (Q : Ok (Some x) = Ok (Some x')) by (apply (P (Some x')); eauto). exact Q.
  - assert (N := proj1 (P None) eq_refl). unfold first_entry. assert (S1 := first_says h (lit "x-forwarded-for")).
    split.
    + intros H. right. split; [exact N|]. destruct (first_value h (lit "x-forwarded-for")) as [[v|]| |]; cbn [bind or_else] in H; try discriminate H.
      * left. destruct (hd_split v) as (a & A & B). rewrite A in H. cbn [or_else] in H. injection H as <-. exists v, a. split; [now apply S1|]. split; [exact B|reflexivity].
      * right. split; [now apply S1|]. now injection H as <-.
    + intros [(v' & x' & S' & X' & _)|(_ & H)]; [exfalso; assert (Q : Ok None = Ok (Some x')) by (apply (P (Some x')); eauto); discriminate Q|].
      destruct H as [(v & a & S & B & ->)|(S & ->)]; apply S1 in S; rewrite S; cbn [bind or_else]; [|reflexivity].
      apply before_comma_iff in B. rewrite B. reflexivity.
  - split; [discriminate|]. intros [(v' & x' & S' & X' & _)|(N & _)]; exfalso.
    + assert (Q : Err e = Ok (Some x')) by (apply (P (Some x')); eauto). discriminate Q.
    + apply (P None) in N. discriminate N.
  - split; [discriminate|]. intros [(v' & x' & S' & X' & _)|(N & _)]; exfalso.
    + assert (Q : Panic = Ok (Some x')) by (apply (P (Some x')); eauto). discriminate Q.
    + apply (P None) in N. discriminate N.
Qed.
(** Non-trivial: a part is found in another list element and in any case, a piece with two equals signs is passed over, blanks belong to the key. *)
Example C32_parts_example :
  host (request_with "for=a=b;HOST=h,x; host=i"%string) = Ok (Some (lit "h,x")) /\ remote (request_with "for=a=b;HOST=h,x; for=i"%string) = Ok None /\
  part_of (lit "for=a=b;HOST=h,x; host=i") (lit "host") (lit "h,x") /\ says (c_headers (rq_common (request_with "a"%string))) (lit "forwarded") (Some (lit "a")).
Proof.
  split; [vm_compute; reflexivity|]. split; [vm_compute; reflexivity|]. split; [|exists []; vm_compute; reflexivity].
  apply part_of_iff. vm_compute. reflexivity.
Qed.
Print Assumptions C32_host_iff.
Print Assumptions C32_remote_iff.
(** Both always have an answer, unless a header was stored with no value at all. *)
Theorem C32_total : forall V (r : request V), filled (c_headers (rq_common r)) -> (exists o, host r = Ok o) /\ exists o, remote r = Ok o.
Proof.
  intros V r F. assert (P : forall part, exists o, forwarded_header_part (c_headers (rq_common r)) part = Ok o).
  { intros part. unfold forwarded_header_part. rewrite first_value_text by exact F. eexists. reflexivity. }
  split.
  - destruct (P (lit "host")) as ([x|] & E); [exists (Some x); now apply host_forwarded_wins|]. assert (Q := host_precedence V r F E). cbv zeta in Q.
    destruct (text_of _ _); [destruct Q as (a & Q & _); eauto|]. destruct (text_of _ _); eauto.
  - assert (Q := remote_precedence V r F). cbv zeta in Q. destruct (P (lit "for")) as ([x|] & E); rewrite E in Q; [eauto|]. destruct (text_of _ _); [destruct Q as (a & Q & _); eauto|eauto].
Qed.
Print Assumptions C32_total.

(** ** traceparent: the first value is four or more texts with dashes between them, the first four of them numbers in base 16 (a plus sign in front is let through) that fit
    the version, the trace id, the parent id and the flags. *)
Theorem C94_traceparent : forall h new vs v c, h_get h (lit "traceparent") = Some (v :: vs) ->
  (context_from_headers new h = Ok (Some c) <->
   exists p0 p1 p2 p3 rest ver tr par fl, v = join [45] (p0 :: p1 :: p2 :: p3 :: rest) /\ Forall (fun p => ~ In 45 p) (p0 :: p1 :: p2 :: p3 :: rest) /\
     hex_text p0 ver /\ ver < 2 ^ 8 /\ hex_text p1 tr /\ tr < 2 ^ 128 /\ hex_text p2 par /\ par < 2 ^ 64 /\ hex_text p3 fl /\ fl < 2 ^ 8 /\
     c = Context new ver tr (Some par) fl).
Proof.
  intros h new vs v c G. unfold context_from_headers. change TRACEPARENT with (lit "traceparent"). rewrite G. cbn [values_first bind]. unfold context_parse.
  assert (M8 : u8_max + 1 = 2 ^ 8) by reflexivity. assert (M64 : u64_max + 1 = 2 ^ 64) by reflexivity. assert (M128 : u128_max + 1 = 2 ^ 128) by reflexivity.
  revert M8 M64 M128. generalize (2 ^ 8) (2 ^ 64) (2 ^ 128). intros b8 b64 b128 M8 M64 M128. split.
  - assert (J := split_join_inv 45 v). assert (F := split_pieces 45 v). unfold part.
    destruct (split 45 v) as [|p0 [|p1 [|p2 [|p3 rest]]]]; cbn [nth_error unwrap bind]; unfold hex;
      repeat (match goal with |- context [parse_uint 16 ?m ?p] => let E := fresh "E" in destruct (parse_uint 16 m p) eqn:E; cbn [ok_or bind unwrap] end; try discriminate); try discriminate.
    intros H. injection H as <-. apply parse_hex_spec in E as (? & ?), E0 as (? & ?), E1 as (? & ?), E2 as (? & ?).
    exists p0, p1, p2, p3, rest, n, n0, n1, n2. split; [now symmetry|]. split; [eapply Forall_impl; [|exact F]; intros q Q; now apply no_char_in|].
    repeat (split; [first [assumption|lia]|]). reflexivity.
  - intros (p0 & p1 & p2 & p3 & rest & ver & tr & par & fl & -> & F & H0 & B0 & H1 & B1 & H2 & B2 & H3 & B3 & ->).
    rewrite split_join; [|discriminate|eapply Forall_impl; [|exact F]; intros q Q; now apply no_char_in]. unfold part, hex. cbn [nth_error unwrap bind].
    rewrite (proj2 (parse_hex_spec u8_max p0 ver)) by (split; [assumption|lia]). cbn [ok_or bind]. rewrite (proj2 (parse_hex_spec u128_max p1 tr)) by (split; [assumption|lia]). cbn [ok_or bind].
    rewrite (proj2 (parse_hex_spec u64_max p2 par)) by (split; [assumption|lia]). cbn [ok_or bind]. rewrite (proj2 (parse_hex_spec u8_max p3 fl)) by (split; [assumption|lia]). reflexivity.
Qed.
Example C94_traceparent_example : context_from_headers 7 [(lit "traceparent", [lit "0-+aB-00000000000000000001-1-x-y"; lit "x"])] = Ok (Some (Context 7 0 171 (Some 1) 1)).
Proof. vm_compute. reflexivity. Qed.
Print Assumptions C94_traceparent.

(** ** Timing-Allow-Origin *)
Inductive origin_item (url : Type) := AnyOrigin | NullOrigin | OneOrigin (u : url).
Arguments AnyOrigin {url}. Arguments NullOrigin {url}. Arguments OneOrigin {url}.
(** Blanks, then a text that does not start with one. *)
Definition led (t c : str) : Prop := exists a, t = a ++ c /\ forallb is_ws a = true /\ match c with x :: _ => is_ws x = false | [] => True end.
Lemma led_trim : forall t c, led t c <-> c = trim_start_matches is_ws t.
Proof.
  intros t c. unfold led, trim_start_matches. split.
  - intros (a & -> & A & C). rewrite drop_while_app_all by exact A. destruct c as [|x c]; [reflexivity|]. cbn [drop_while]. now rewrite C.
  - intros ->. destruct (drop_while_suffix is_ws t) as (a & E & A). exists a. split; [exact E|]. split; [exact A|]. destruct (drop_while is_ws t) eqn:D; [exact I|]. eapply drop_while_head, D.
Qed.
Section Origins.
  Context {url : Type} (url_parse : str -> option url).
  (** A piece without the blanks before it (blanks after it are kept): a star, a quoted null, or what the URL parser takes. *)
  Definition origin_means (c : str) (o : origin_item url) : Prop :=
    match o with AnyOrigin => c = lit "*" | NullOrigin => c = lit """null""" | OneOrigin u => c <> lit "*" /\ c <> lit """null""" /\ url_parse c = Some u end.
  Definition origin_urls (os : list (origin_item url)) : list url := flat_map (fun o => match o with OneOrigin u => [u] | _ => [] end) os.
  Lemma origins_read_iff : forall ps us w, origins_read url_parse ps = Ok (us, w) <->
    exists os, Forall2 (fun t o => exists c, led t c /\ origin_means c o) ps os /\ us = origin_urls os /\ (w = true <-> In AnyOrigin os).
  Proof.
    induction ps as [|p ps IH]; intros us w; cbn [origins_read].
    - split.
      + intros H. injection H as <- <-. exists []. split; [constructor|]. split; [reflexivity|]. split; [discriminate|intros []].
      + intros (os & F & -> & W). inversion F; subst. destruct w; [destruct (proj1 W eq_refl)|reflexivity].
    - assert (Lt : led p (trim_start_matches is_ws p)) by now apply led_trim. set (o := trim_start_matches is_ws p) in *.
      assert (Lu : forall c, led p c -> c = o) by (intros c C; apply led_trim in C; exact C).
      destruct (seqb_spec o (lit "*")) as [E|E]; [|destruct (seqb_spec o (lit """null""")) as [E'|E']].
      + split.
        * destruct (origins_read url_parse ps) as [[us' w']| |] eqn:R; cbn [bind]; try discriminate. intros H. injection H as <- <-. destruct (proj1 (IH us' w') eq_refl) as (os & F & -> & W).
          exists (AnyOrigin :: os). split; [constructor; [exists o; split; [exact Lt|exact E]|exact F]|]. split; [reflexivity|]. split; [now left|reflexivity].
        * intros (os & F & -> & W). apply forall2_cons_l in F as (x & os' & -> & (c & C & M) & F). apply Lu in C. subst c.
          destruct x as [| |u]; cbn [origin_means] in M; [|rewrite E in M; discriminate M|destruct M as (M & _); congruence].
          assert (X : exists b, origins_read url_parse ps = Ok (origin_urls os', b)).
          { destruct (existsb (fun o : origin_item url => match o with AnyOrigin => true | _ => false end) os') eqn:B; [exists true|exists false]; apply IH; exists os'; (split; [exact F|]; split; [reflexivity|]).
            - apply existsb_exists in B as ([| |u] & I & B); try discriminate. split; auto.
            - split; [discriminate|]. intros I. rewrite <- B. apply existsb_exists. now exists AnyOrigin. }
          destruct X as (b & ->). cbn [bind]. rewrite (proj2 W) by now left. reflexivity.
      + rewrite IH. split.
        * intros (os & F & -> & W). exists (NullOrigin :: os). split; [constructor; [exists o; split; [exact Lt|exact E']|exact F]|]. split; [reflexivity|].
          rewrite W. cbn [In]. split; [now right|]. intros [Q|Q]; [discriminate Q|exact Q].
        * intros (os & F & -> & W). apply forall2_cons_l in F as (x & os' & -> & (c & C & M) & F). apply Lu in C. subst c.
          destruct x as [| |u]; cbn [origin_means] in M; [congruence| |destruct M as (_ & M & _); congruence].
          exists os'. split; [exact F|]. split; [reflexivity|]. rewrite W. cbn [In]. split; [intros [Q|Q]; [discriminate Q|exact Q]|now right].
      + split.
        * destruct (url_parse o) as [u|] eqn:U; cbn [ok_or bind]; [|discriminate]. destruct (origins_read url_parse ps) as [[us' w']| |] eqn:R; cbn [bind]; try discriminate.
          intros H. injection H as <- <-. destruct (proj1 (IH us' w') eq_refl) as (os & F & -> & W).
          exists (OneOrigin u :: os). split; [constructor; [exists o; split; [exact Lt|split; [exact E|split; [exact E'|exact U]]]|exact F]|]. split; [reflexivity|].
          rewrite W. cbn [In]. split; [now right|]. intros [Q|Q]; [discriminate Q|exact Q].
        * intros (os & F & -> & W). apply forall2_cons_l in F as (x & os' & -> & (c & C & M) & F). apply Lu in C. subst c.
          destruct x as [| |u]; cbn [origin_means] in M; [congruence|congruence|]. destruct M as (_ & _ & ->). cbn [ok_or bind].
          rewrite (proj2 (IH (origin_urls os') w)); [reflexivity|]. exists os'. split; [exact F|]. split; [reflexivity|]. rewrite W. cbn [In]. split; [intros [Q|Q]; [discriminate Q|exact Q]|now right].
  Qed.
  Theorem C94_timing_allow_origin : forall h vs us (w : bool), h_get h (lit "timing-allow-origin") = Some vs ->
    (origins_from_headers url_parse h = Ok (Some (us, w)) <->
     exists tss os, Forall2 (fun v ts => ts <> [] /\ v = join [44] ts /\ Forall (fun t => ~ In 44 t) ts) vs tss /\
       Forall2 (fun t o => exists c, led t c /\ origin_means c o) (concat tss) os /\ us = origin_urls os /\ (w = true <-> In AnyOrigin os)).
  Proof.
    intros h vs us w G. unfold origins_from_headers. rewrite (with_all_iff _ _ TIMING_ALLOW_ORIGIN vs _ _ G). rewrite origins_read_iff. change c_comma with 44.
    assert (T : forall tss, Forall2 (fun v ts => ts <> [] /\ v = join [44] ts /\ Forall (fun t => ~ In 44 t) ts) vs tss <-> tss = map (split 44) vs).
    { clear. induction vs as [|v vs IH]; intros tss; cbn [map].
      - split; [intros F; now inversion F|intros ->; constructor].
      - split.
        + intros F. apply forall2_cons_l in F as (ts & tss' & -> & (N & -> & D) & F). rewrite split_join; [|exact N|eapply Forall_impl; [|exact D]; intros q Q; now apply no_char_in].
          f_equal. now apply IH.
        + intros ->. constructor; [|now apply IH]. split; [apply split_nonempty|]. split; [symmetry; apply split_join_inv|]. eapply Forall_impl; [|apply split_pieces]. intros q Q. now apply no_char_in. }
    rewrite flat_map_concat_map. split.
    - intros (os & F & U & W). exists (map (split 44) vs), os. split; [now apply T|auto].
    - intros (tss & os & F & F2 & U & W). apply T in F. subst tss. exists os. auto.
  Qed.
End Origins.
Example C94_timing_allow_origin_example : let p := fun s : str => if seqb s (lit "u") then Some 1 else None in
  origins_from_headers p [(lit "timing-allow-origin", [lit " u,""null"""; lit "*,  u"])] = Ok (Some ([1; 1], true)) /\
  origins_from_headers p [(lit "timing-allow-origin", [lit "* "])] = Err 400.
Proof. vm_compute. split; reflexivity. Qed.
Print Assumptions C94_timing_allow_origin.
