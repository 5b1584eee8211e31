(** C84: exactly which values survive being written into a message and read out again. *)
From Verif Require Import Base BaseFacts Headers HeadersFacts Typed TypedFacts Conditional ConditionalProps Cache CacheProps Auth AuthProps
  Float FloatFacts Mime MimeFacts MimeProps Negotiate NegotiateFacts NegotiateProps HttpDate Method EnumProps Other OtherProps Trace TraceProps LastProps StableProps.
From Coq Require Import ZifyBool ZifyNat ZifyN.

Definition survives {A} (from : headers -> outcome (option A)) (apply : headers -> A -> headers) (x : A) : Prop :=
  forall h, from (apply h x) = Ok (Some x).
(** The same for writers that can fail. *)
Definition survives_o {A} (from : headers -> outcome (option A)) (apply : headers -> A -> outcome headers) (x : A) : Prop :=
  forall h, exists h', apply h x = Ok h' /\ from h' = Ok (Some x).

(** ETag: the characters of the RFC. *)
Theorem C84_etag : forall e, survives etag_from_headers etag_apply e <-> Forall etagc (opaque e).
Proof.
  intros e. split; [|intros V h; now apply C39_round_trip_partial]. intros S.
  destruct (forallb etag_char (opaque e)) eqn:F; [now apply etag_chars_spec|].
  specialize (S []). rewrite C39_invalid_tag_never_read_as_another in S; [discriminate S|]. intros V. apply etag_chars_spec in V. congruence.
Qed.
Print Assumptions C84_etag.

(** If-Match and If-None-Match: valid tags without a comma, and something to say. *)
Theorem C84_if_match : forall k l w, survives (cond_from_headers k) (cond_apply k) (l, w) <->
  Forall (fun e => Forall etagc (opaque e) /\ ~ In 44 (opaque e)) l /\ (l <> [] \/ w = true).
Proof.
  intros k l w. split; [|intros [F N] h; now apply C40_round_trip_partial]. intros S. specialize (S []).
  assert (V : Forall valid_etag l).
  { unfold cond_from_headers, cond_apply in S. rewrite with_all_apply in S.
    destruct (read_parts _ _ _) as [[es w']| |] eqn:R in S; cbn [bind] in S; try discriminate S. injection S as -> ->.
    apply read_parts_inv in R as (R & _ & _). eapply Forall_impl; [|exact R]. intros e (p & _ & P & _).
    destruct (from_str_inv (trim p)) as [(wk & t & E)|E]; [|congruence]. rewrite E, from_str_quoted in P.
    destruct (forallb etag_char t) eqn:F; [|discriminate P]. apply etag_chars_spec in F. injection P as <-. destruct wk; exact F. }
  assert (D : Forall (fun e => no_char 44 (opaque e) = true) l \/ Exists (fun e => ~ no_comma (opaque e)) l).
  { clear. induction l as [|e l IH]; [left; constructor|]. destruct (no_char 44 (opaque e)) eqn:E.
    - destruct IH as [IH|IH]; [left; constructor; assumption|right; now apply Exists_cons_tl].
    - right. apply Exists_cons_hd. intros C. apply no_comma_spec in C. congruence. }
  destruct D as [D|D]; [|rewrite (C40_comma_always_fails k [] l w V D) in S; discriminate S].
  split.
  - rewrite Forall_forall in *. intros e I. split; [now apply V|]. apply no_comma_spec. now apply D.
  - destruct l; [|left; discriminate]. right. destruct w; [reflexivity|]. destruct k; vm_compute in S; discriminate S.
Qed.
Print Assumptions C84_if_match.

(** Vary, for names as they are stored (lower-case ASCII): no comma, no white space at the ends, not the wildcard
    itself; not nothing at all; and not the empty name alone next to the wildcard. *)
Lemma join_star : forall (l : list str), join (lit ", ") l <> [] \/ l = [] -> forall star,
  match join (lit ", ") l with [] => star | _ => join (lit ", ") l ++ lit ", " ++ star end = join (lit ", ") (l ++ [star]).
Proof.
  intros l H star. assert (G : forall ts t, join (lit ", ") ((t :: ts) ++ [star]) = join (lit ", ") (t :: ts) ++ lit ", " ++ star).
  { clear. induction ts as [|u ts IH]; intros t; [reflexivity|].
    change (join (lit ", ") ((t :: u :: ts) ++ [star])) with (t ++ lit ", " ++ join (lit ", ") ((u :: ts) ++ [star])).
    rewrite IH. change (join (lit ", ") (t :: u :: ts)) with (t ++ lit ", " ++ join (lit ", ") (u :: ts)). now rewrite <- !app_assoc. }
  destruct l as [|t ts]; [reflexivity|]. rewrite G. destruct H as [H|H]; [|discriminate H].
  destruct (join (lit ", ") (t :: ts)) as [|c r] eqn:E; [congruence|]. rewrite <- E. reflexivity.
Qed.
Theorem C84_vary : forall names w, Forall (fun n => is_ascii n = true /\ to_lower n = n) names ->
  (survives_o vary_from_headers vary_apply (names, w) <->
   Forall (fun n => ~ In 44 n /\ trim n = n /\ n <> lit "*") names /\ (names <> [] \/ w = true) /\ ~ (names = [[]] /\ w = true)).
Proof.
  intros names w AL.
  assert (A : Forall (fun n => is_ascii n = true) names) by (eapply Forall_impl; [|exact AL]; intros n [X _]; exact X).
  assert (AP : forall h, vary_apply h (names, w) = Ok (apply_value h VARY (list_value (lit "*") names w))).
  { intros h. unfold vary_apply, vary_value. cbn [fst snd]. rewrite (vary_texts_ok _ A). reflexivity. }
  assert (RD : forall h, vary_from_headers (apply_value h VARY (list_value (lit "*") names w)) =
    let* a := read_parts (lit "*") (fun p => name_from_str (trim p)) (comma_parts [list_value (lit "*") names w]) in Ok (Some a)).
  { intros h. unfold vary_from_headers. now rewrite with_all_apply. }
  split.
  - intros S. destruct (S []) as (h' & E & R). rewrite AP in E. injection E as <-. rewrite RD in R.
    destruct (read_parts _ _ _) as [[es w']| |] eqn:P in R; cbn [bind] in R; try discriminate R. injection R as -> ->.
    split; [|split].
    + apply read_parts_inv in P as (P & _ & _). eapply Forall_impl; [|exact P]. intros n (p & Ip & X & NS).
      assert (TT : trim (trim p) = trim p) by (unfold trim; apply trim_matches_idem). rewrite TT in X.
      unfold name_from_str in X. destruct (is_ascii (trim p)); [|discriminate X]. injection X as <-.
      split; [|split].
      * apply no_comma_spec. rewrite lower_comma. apply trim_no_comma. apply (part_no_comma _ p Ip).
      * rewrite <- lower_trim, TT. reflexivity.
      * intros Y. apply lower_star in Y. congruence.
    + destruct names; [|left; discriminate]. right. destruct w; [reflexivity|]. vm_compute in P. discriminate P.
    + intros [-> ->]. vm_compute in P. discriminate P.
  - intros (F & N & Z) h. eexists. split; [apply AP|]. rewrite RD.
    assert (C : forallb clean names = true).
    { apply forallb_forall. intros n I. rewrite Forall_forall in F. destruct (F n I) as (F1 & F2 & _).
      unfold clean. now rewrite (proj2 (no_comma_spec n) F1), (no_edge_of_trim n F2). }
    assert (T : forall n, In n names -> trim n = n) by (intros n I; rewrite Forall_forall in F; apply (F n I)).
    assert (R : read_parts (lit "*") (fun p => name_from_str (trim p)) names = Ok (names, false)).
    { rewrite <- (map_id names) at 1. apply (read_parts_shown _ _ _ (fun n => n)). apply Forall_forall. intros n I.
      rewrite Forall_forall in F, AL. destruct (F n I) as (_ & F2 & F3). destruct (AL n I) as [A1 A2].
      split; [exact F2|]. split; [exact F3|]. rewrite F2. unfold name_from_str. now rewrite A1, A2. }
    unfold comma_parts. cbn [flat_map]. rewrite app_nil_r. change c_comma with 44. unfold list_value. destruct w.
    + rewrite join_star.
      * rewrite (read_parts_ext _ _ _ _ (names ++ [lit "*"])).
        -- rewrite read_parts_app, R. cbn [bind]. change (read_parts (lit "*") (fun p => name_from_str (trim p)) [lit "*"]) with (@Ok (list str * bool) ([], true)).
           cbn [bind]. now rewrite app_nil_r.
        -- rewrite pieces_text.
           ++ rewrite map_app. cbn [map]. change (trim (lit "*")) with (lit "*"). f_equal. rewrite <- (map_id names) at 1. apply map_ext_in. intros n I. symmetry. now apply T.
           ++ destruct names; discriminate.
           ++ rewrite forallb_app, C. reflexivity.
      * destruct names as [|a [|b r]]; [now right| |].
        -- left. destruct a; [elim Z; auto|discriminate].
        -- left. change (join (lit ", ") (a :: b :: r)) with (a ++ lit ", " ++ join (lit ", ") (b :: r)). destruct a; discriminate.
    + destruct N as [N|N]; [|discriminate N]. rewrite (read_parts_ext _ _ _ _ names); [now rewrite R|].
      rewrite pieces_text; [|exact N|exact C]. rewrite <- (map_id names) at 1. apply map_ext_in. intros n I. symmetry. now apply T.
Qed.
Print Assumptions C84_vary.
Example C84_vary_case : Forall (fun n => is_ascii n = true /\ to_lower n = n) [lit "accept"; []; lit "x-a b"] /\
  survives_o vary_from_headers vary_apply ([lit "accept"; []; lit "x-a b"], true) /\ ~ survives_o vary_from_headers vary_apply ([lit "a,b"], false).
Proof.
  assert (A : Forall (fun n => is_ascii n = true /\ to_lower n = n) [lit "accept"; []; lit "x-a b"]) by (repeat constructor).
  split; [exact A|]. split.
  - apply (C84_vary _ _ A). split; [|split; [left; discriminate|intros [E _]; discriminate E]].
    repeat (apply Forall_cons; [split; [intros I; cbn in I; intuition discriminate|split; [vm_compute; reflexivity|discriminate]]|]). constructor.
  - intros S. apply C84_vary in S; [|repeat constructor]. destruct S as [F _]. inv F. destruct H1 as [N _]. apply N. cbn. auto.
Qed.

(** Cache-Control: whole seconds and no s-maxage.  (A [Duration] holds at most 2^64-1 seconds.) *)
Theorem C84_cache_control : forall l, Forall u64_secs l ->
  (survives cache_from_headers cache_apply l <->
   Forall (fun d => (match dur_of d with Some t => nanos t = 0 | None => True end) /\ forall t, d <> SMaxAge t) l).
Proof.
  intros l U. split.
  - intros S. specialize (S []). rewrite C42_reads_back_as in S by exact U. injection S as S. clear U.
    assert (L : forall d, survivor d = [] \/ exists d', survivor d = [d']) by (intros [|t|[t|]|t| | | | | | | | |t|t|t]; cbn [survivor]; eauto).
    assert (M : forall l, (length (flat_map survivor l) <= length l)%nat).
    { clear - L. induction l as [|d l IH]; [auto|]. cbn [flat_map length]. rewrite app_length. destruct (L d) as [-> |(d' & ->)]; cbn [length]; lia. }
    induction l as [|d l IH]; [constructor|]. cbn [flat_map] in S. destruct (L d) as [E|(d' & E)]; rewrite E in S; cbn [app] in S.
    + specialize (M l). rewrite S in M. cbn [length] in M. lia.
    + injection S as -> S. constructor; [|now apply IH].
      destruct d as [|t|[t|]|t| | | | | | | | |t|t|t]; cbn [survivor] in E; try discriminate E; cbn [dur_of]; (split; [|congruence]); auto;
        destruct t as [s n]; injection E as E; cbn [nanos]; congruence.
  - intros F h. apply C42_round_trip_partial. rewrite Forall_forall in *. intros d I. split; [now apply U|now apply F].
Qed.
Print Assumptions C84_cache_control.

(** Age: whole seconds that a 64-bit float holds exactly. *)
Theorem C84_age : forall d, secs d <= u64_max ->
  (survives age_from_headers age_apply d <-> nanos d = 0 /\ exact53 (secs d)).
Proof.
  intros d U. assert (P := fun h => C43_round_trip_iff h (secs d) U). split.
  - intros S. specialize (S []). unfold age_from_headers, age_apply in *. rewrite with_last_apply in S.
    rewrite parse_show_dec in S by exact U. cbn [ok_or bind] in S. unfold from_secs_f64 in S.
    destruct (f64_of_u64 (secs d) <? 2 ^ 64) eqn:L; cbn [bind] in S; [|discriminate S]. injection S as S.
    assert (Z : nanos d = 0) by (rewrite <- S; reflexivity). split; [exact Z|]. apply f64_exact.
    apply (f_equal secs) in S. exact S.
  - intros [Z X] h. destruct d as [s n]. cbn [nanos secs] in *. subst n. now apply P.
Qed.
Print Assumptions C84_age.

(** Clear-Site-Data: anything but nothing. *)
Theorem C84_clear_site_data : forall l w, survives clear_from_headers clear_apply (l, w) <-> l <> [] \/ w = true.
Proof.
  intros l w. split; [|intros N h; now apply C44_round_trip_partial]. intros S. specialize (S []).
  destruct l; [|left; discriminate]. right. destruct w; [reflexivity|]. vm_compute in S. discriminate S.
Qed.
Print Assumptions C84_clear_site_data.

Lemma first_char : forall c (s : str), In c s -> exists a b, s = a ++ [c] ++ b /\ ~ In c a.
Proof.
  intros c. induction s as [|x s IH]; intros I; [destruct I|]. destruct (N.eq_dec x c) as [->|N].
  - exists [], s. split; [reflexivity|intros []].
  - destruct I as [->|I]; [congruence|]. destruct (IH I) as (a & b & -> & A). exists (x :: a), b. split; [reflexivity|].
    intros [E|J]; [congruence|auto].
Qed.
(** Basic credentials: no colon in the user name. *)
Theorem C84_basic : forall u p, valid_str u = true -> valid_str p = true ->
  (survives basic_from_headers basic_apply (u, p) <-> ~ In 58 u).
Proof.
  intros u p U P. split; [|intros N h; now apply C45_round_trip_partial]. intros S I. specialize (S []).
  apply first_char in I as (a & b & -> & A). rewrite C45_colon_always_wrong in S by assumption.
  injection S as S _. apply (f_equal (@length N)) in S. rewrite !app_length in S. cbn [length] in S. lia.
Qed.
Print Assumptions C84_basic.
(** WWW-Authenticate: no double quote in the realm. *)
Theorem C84_challenge : forall sch r, survives www_from_headers www_apply (sch, r) <-> ~ In 34 r.
Proof.
  intros sch r. split; [|intros N h; now apply C47_round_trip_partial]. intros S I. specialize (S []).
  apply first_char in I as (a & b & -> & A). rewrite C47_quote_always_cut in S by assumption.
  injection S as S. apply (f_equal (@length N)) in S. rewrite !app_length in S. cbn [length] in S. lia.
Qed.
Print Assumptions C84_challenge.

(** Accept-Encoding and TE: known codings with no weight or one of the 1001 weights 0.000 to 1.000. *)
Definition thousandth (w : option float) : Prop := exists m, m <= 1000 /\ w = milli m.
Lemma to_milli_fixed : forall w, good_weight w -> to_milli w = w -> w = None \/ thousandth w.
Proof.
  intros [x|] G E; [right|now left]. destruct G as (v & -> & L). exists (thousandths f32 v). split; [now apply thousandths_le|]. now symmetry.
Qed.
Theorem C84_codings : forall k l w, survives (accept_from_headers k) (accept_apply k) (l, w) <->
  Forall (fun p => in_family k (p_coding p) = true /\ (p_weight p = None \/ thousandth (p_weight p))) l.
Proof.
  intros k l w. split; [|intros F h; now apply C53_exact]. intros S. specialize (S []).
  assert (F : Forall (fun p => in_family k (p_coding p) = true /\ good_weight (p_weight p)) l).
  { assert (H := S). apply with_all_inv in H as (vs & _ & H). eapply (skipping_all _ (proposal_from_str k)); [|exact H].
    intros t x X. split; [eapply proposal_family; exact X|eapply proposal_from_str_good; exact X]. }
  rewrite C53_round_trip in S by exact F. injection S as S.
  induction F as [|[c x] l [A G] F IH]; [constructor|]. cbn [map p_coding p_weight] in *. injection S as S1 S2.
  constructor; [|now apply IH]. cbn [p_coding p_weight]. split; [exact A|]. now apply to_milli_fixed.
Qed.
Print Assumptions C84_codings.
(** Accept: types as parsing produces them, without a parameter called q and without a comma in a value, each with
    one of the 1001 weights. *)
Lemma media_read_types : forall h l w, media_from_headers h = Ok (Some (l, w)) -> Forall (fun p => sendable (mp_type p)) l.
Proof.
  intros h l w H. apply with_all_inv in H as (vs & _ & H). unfold read_media in H. assert (PC := part_no_comma vs).
  revert l w H. induction (comma_parts vs) as [|p ps IH]; intros l w H; cbn [read_skipping] in H.
  - injection H as <- <-. constructor.
  - assert (PC' : forall q, In q ps -> no_char 44 q = true) by (intros q I; apply PC; right; exact I).
    destruct (seqb (trim p) []); [apply (IH PC' _ _ H)|]. destruct (seqb (trim p) (lit "*")).
    + destruct (read_skipping _ ps) as [[es w']| |] eqn:R; cbn [bind] in H; try discriminate H. injection H as <- <-. apply (IH PC' es w' eq_refl).
    + destruct (media_from_str (trim p)) as [m| |] eqn:M; cbn [bind] in H; try discriminate H.
      destruct (read_skipping _ ps) as [[es w']| |] eqn:R; cbn [bind] in H; try discriminate H. injection H as <- <-.
      constructor; [|apply (IH PC' es w' eq_refl)]. eapply media_read_sendable; [|exact M]. apply trim_no_comma, PC. left. reflexivity.
Qed.
Theorem C84_accept : forall l w, Forall (fun p => exists s, mime_parse s = Ok (mp_type p)) l ->
  (survives media_from_headers media_apply (l, w) <->
   Forall (fun p => thousandth (mp_weight p) /\ ~ In (lit "q") (map fst (params (mp_type p))) /\
                    forall n v, In (n, v) (params (mp_type p)) -> ~ In 44 v) l).
Proof.
  intros l w P. split.
  - intros S. specialize (S []). assert (T := media_read_types _ _ _ S). assert (G := C52_media_parsed _ _ _ S).
    rewrite C71_round_trip_partial in S by (rewrite Forall_forall in *; intros p I; split; [now apply T|apply (G p I)]).
    injection S as S. clear P. induction l as [|[m x] l IH]; [constructor|]. inv T. inv G. cbn [map mp_type mp_weight] in *. injection S as S1 S2.
    constructor; [|now apply IH]. cbn [mp_type mp_weight]. destruct H3 as [N W]. destruct H1 as (_ & Q & C). split; [|split; [exact Q|]].
    + destruct x as [x|]; [|congruence]. destruct (to_milli_fixed _ W S1) as [E|E]; [congruence|exact E].
    + intros n v I. apply no_comma_spec. exact (C n v I).
  - intros F h. rewrite C71_round_trip_partial.
    + do 3 f_equal. clear P. induction F as [|[m x] l (T & _) F IH]; [reflexivity|]. cbn [map mp_type mp_weight] in *. f_equal; [|exact IH]. f_equal.
      destruct T as (k & K & ->). exact (to_milli_id k K).
    + rewrite Forall_forall in *. intros p I. destruct (F p I) as ((k & K & T) & Q & C). destruct (P p I) as (s & M). split.
      * split; [destruct (mime_parse_good s) as [(m & E & G)|E]; congruence|]. split; [exact Q|]. intros n v J. apply no_comma_spec. exact (C n v J).
      * rewrite T. destruct (C52_three_decimals k K) as (x & -> & G & _). exact G.
Qed.
Print Assumptions C84_accept.
Example C84_accept_case :
  Forall (fun p => exists s, mime_parse s = Ok (mp_type p)) [MediaProposal MIME_JSON (milli 333)] /\
  survives media_from_headers media_apply ([MediaProposal MIME_JSON (milli 333)], true).
Proof.
  assert (A : Forall (fun p => exists s, mime_parse s = Ok (mp_type p)) [MediaProposal MIME_JSON (milli 333)]).
  { constructor; [|constructor]. exists (lit "application/json"). vm_compute. reflexivity. }
  split; [exact A|]. apply (C84_accept _ _ A). constructor; [|constructor].
  split; [exists 333; split; [vm_compute; discriminate|reflexivity]|]. split; [intros I; vm_compute in I; intuition discriminate|].
  intros n v I. vm_compute in I. intuition discriminate.
Qed.
(** Content-Encoding and Transfer-Encoding: the codings of the family. *)
Theorem C84_applied_coding : forall k c, survives (encoding_from_headers k) (encoding_apply k) c <-> in_family k c = true.
Proof.
  intros k c. split; [|intros F h; now apply C54_round_trip]. intros S. specialize (S []). apply C54_value_partial in S.
  destruct S as (_ & _ & _ & _ & F & _). exact F.
Qed.
Print Assumptions C84_applied_coding.

(** Content-Length: every 64-bit length.  Content-Type: exactly the types that some text parses to. *)
Theorem C84_content_length : forall n, survives length_from_headers length_apply n <-> n <= u64_max.
Proof.
  intros n. split; [|intros L h; now apply C55_round_trip]. intros S. specialize (S []).
  apply with_last_inv in S as (v & S). unfold length_parse in S. destruct (parse_uint 10 u64_max (trim v)) as [k|] eqn:P; [|discriminate S].
  injection S as <-. eapply parse_uint_bound; exact P.
Qed.
Print Assumptions C84_content_length.
Theorem C84_content_type : forall m, survives ctype_from_headers ctype_apply m <-> exists s, mime_parse s = Ok m.
Proof.
  intros m. split; [|intros (s & P) h; now apply (C56_round_trip h s)]. intros S. specialize (S []).
  apply with_last_inv in S as (v & S). unfold ctype_parse in S. destruct (mime_parse v) as [m'| |] eqn:P; try discriminate S.
  injection S as <-. now exists v.
Qed.
Print Assumptions C84_content_type.

(** Date, Expires, Last-Modified, If-Modified-Since and If-Unmodified-Since: whole seconds from 1970 to 9999. *)
Theorem C84_dates : forall d t, survives_o (date_from_headers d) (date_apply d) t <-> in_range t /\ whole_seconds t = t.
Proof.
  intros d t. split.
  - intros S. destruct (S []) as (h' & A & R). destruct (with_last_get _ _ _ _ _ R) as (vs & v & G).
    destruct (C72_read_total d h' vs v G) as [(t' & E & I & W)|E]; rewrite R in E; [|discriminate E]. injection E as <-. auto.
  - intros [I W] h. destruct (C72_round_trip d h t I) as (h' & A & B). exists h'. rewrite W in B. auto.
Qed.
Print Assumptions C84_dates.
(** Retry-After: whole seconds as well. *)
Theorem C84_retry_after : forall r, (forall d, r = After d -> secs d <= u64_max) ->
  (survives_o retry_from_headers retry_apply r <->
   match r with After d => nanos d = 0 | At t => in_range t /\ whole_seconds t = t end).
Proof.
  intros r U. split.
  - intros S. destruct (S []) as (h' & A & R). destruct r as [d|t].
    + destruct (C57_delay_round_trip [] d (U d eq_refl)) as (h'' & A' & R'). rewrite A in A'. injection A' as <-. rewrite R in R'. injection R' as R'.
      rewrite R'. reflexivity.
    + destruct (retry_apply [] (At t)) as [x| |] eqn:E; try discriminate A. injection A as <-.
      assert (I : in_range t).
      { unfold in_range. destruct (Z_le_dec 0 t), (Z_lt_dec t (253402300800 * 1000000000)); try lia;
        (assert (X : retry_apply [] (At t) = Panic) by (apply C57_write_panics; exists t; split; [reflexivity|unfold in_range; lia]); congruence). }
      destruct (C57_date_round_trip [] t I) as (h'' & A' & R'). rewrite E in A'. injection A' as <-. rewrite R in R'. injection R' as R'. auto.
  - destruct r as [d|t].
    + intros Z h. destruct (C57_delay_round_trip h d (U d eq_refl)) as (h' & A & R). exists h'. split; [exact A|]. rewrite R.
      destruct d as [s n]. cbn [nanos secs] in *. subst n. reflexivity.
    + intros [I W] h. destruct (C57_date_round_trip h t I) as (h' & A & R). exists h'. rewrite W in R. auto.
Qed.
Print Assumptions C84_retry_after.
Example C84_retry_after_case : (forall d, After (from_secs 5) = After d -> secs d <= u64_max) /\
  survives_o retry_from_headers retry_apply (After (from_secs 5)) /\ ~ survives_o retry_from_headers retry_apply (After (Dur 5 1)).
Proof.
  assert (A : forall a b c, b <= u64_max -> After (Dur b a) = After c -> secs c <= u64_max) by (intros a b c L E; injection E as <-; exact L).
  assert (L : 5 <= u64_max) by (vm_compute; discriminate).
  split; [intros d; now apply A|]. split; [apply C84_retry_after; [intros d; now apply A|reflexivity]|].
  intros S. apply C84_retry_after in S; [discriminate S|intros d; now apply A].
Qed.
(** Strict-Transport-Security: whole seconds, and not for the subdomains. *)
Theorem C84_hsts : forall s, secs (max_age s) <= u64_max ->
  (survives hsts_from_headers hsts_apply s <-> nanos (max_age s) = 0 /\ include_subdomains s = false).
Proof.
  intros [[x y] sub pre] U. cbn [max_age include_subdomains secs nanos] in *. split.
  - intros S. specialize (S []). rewrite C60_reads_back_partial in S by exact U. cbn [max_age preload secs] in S. unfold from_secs in S. injection S as -> ->. auto.
  - intros [-> ->] h. rewrite C60_reads_back_partial by exact U. reflexivity.
Qed.
Print Assumptions C84_hsts.
(** Allow: every set but the empty one. *)
Theorem C84_allow : forall order, (forall h, exists s, allow_from_headers (allow_apply h order) = Ok (Some s) /\ forall m, In m s <-> In m order) <-> order <> [].
Proof.
  intros order. split.
  - intros S ->. destruct (S []) as (s & E & _). vm_compute in E. discriminate E.
  - intros N h. destruct (C59_round_trip_partial h order N) as (s & E & _ & I). exists s. auto.
Qed.
Print Assumptions C84_allow.
(** Timing-Allow-Origin, over any URL library keeping the contract of C73: among origins without a comma in
    their text, anything but nothing.  (Missing: with a comma, what is read depends on the URL library.) *)
Theorem C84_origins_partial : forall (url : Type) (p : str -> option url) (j : url -> str -> option url) (s : url -> str), url_contract p j s -> forall us w,
  Forall (fun u => ~ In 44 (s u)) us -> (survives (origins_from_headers p) (origins_apply s) (us, w) <-> us <> [] \/ w = true).
Proof.
  intros url p j s C us w F. split.
  - intros S. specialize (S []). destruct us; [|left; discriminate]. right. destruct w; [reflexivity|]. rewrite (C73_origins_empty p j s C) in S. discriminate S.
  - intros N h. apply (C73_origins_round_trip_partial p j s C); [|exact N]. eapply Forall_impl; [|exact F]. intros u X. now apply no_comma_spec.
Qed.
Print Assumptions C84_origins_partial.

Example C84_example :
  vary_from_headers (apply_value [] (lit "vary") (lit "a, , b")) = Ok (Some ([lit "a"; []; lit "b"], false)) /\
  vary_from_headers (apply_value [] (lit "vary") (lit "*")) = Ok (Some ([], true)) /\
  survives cache_from_headers cache_apply [Public; MaxAge (from_secs 60)] /\
  ~ survives cache_from_headers cache_apply [Public; SMaxAge (from_secs 60)] /\
  survives age_from_headers age_apply (from_secs (2 ^ 53)) /\ ~ survives age_from_headers age_apply (Dur 5 1) /\
  survives basic_from_headers basic_apply (lit "user", lit "pass:word") /\ ~ survives basic_from_headers basic_apply (lit "us:er", lit "x") /\
  survives (accept_from_headers Content) (accept_apply Content) ([Proposal Gzip (milli 333); Proposal Brotli None], true) /\
  ~ survives (accept_from_headers Content) (accept_apply Content) ([Proposal Chunked None], false).
Proof.
  split; [vm_compute; reflexivity|]. split; [vm_compute; reflexivity|]. split; [|split; [|split; [|split; [|split; [|split; [|split]]]]]].
  - apply C84_cache_control; [repeat constructor; discriminate|]. repeat constructor; discriminate.
  - intros S. apply C84_cache_control in S; [|repeat constructor; discriminate]. inv S. inv H2. destruct H3 as [_ X]. now elim (X (from_secs 60)).
  - apply C84_age; [vm_compute; discriminate|]. split; [reflexivity|]. exists 1, 53. split; vm_compute; reflexivity.
  - intros S. apply C84_age in S; [|vm_compute; discriminate]. destruct S as [S _]. discriminate S.
  - apply C84_basic; [reflexivity|reflexivity|]. intros H. vm_compute in H. intuition discriminate.
  - intros S. apply C84_basic in S; [|reflexivity|reflexivity]. apply S. right. right. left. reflexivity.
  - apply C84_codings. constructor; [|constructor; [|constructor]]; (split; [reflexivity|]); [|left; reflexivity]. right. exists 333. split; [lia|reflexivity].
  - intros S. apply C84_codings in S. inv S. destruct H1 as [X _]. discriminate X.
Qed.
