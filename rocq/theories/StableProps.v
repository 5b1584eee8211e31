(** C75: reading a header, writing it back and reading it again gives what was read first.  Unlike the round trips
    (C39-C73), which start from values built by hand, this quantifies over every header map that can be read. *)
From Verif Require Import Base BaseFacts Headers HeadersFacts Utf8 Typed TypedFacts Conditional ConditionalProps Cache CacheProps Auth AuthProps
  Float FloatFacts Mime MimeFacts Negotiate NegotiateFacts NegotiateProps HttpDate Method Other OtherProps.
From Coq Require Import ZifyBool ZifyNat ZifyN.
From Verif Require Forwarded.

Definition stable {A} (from : headers -> outcome (option A)) (apply : headers -> A -> headers) : Prop :=
  forall h a, from h = Ok (Some a) -> forall h', from (apply h' a) = Ok (Some a).
(** For writers that can panic: they do not. *)
Definition stable_o {A} (from : headers -> outcome (option A)) (apply : headers -> A -> outcome headers) : Prop :=
  forall h a, from h = Ok (Some a) -> forall h', exists h'', apply h' a = Ok h'' /\ from h'' = Ok (Some a).

Lemma with_last_inv : forall A h n (k : str -> outcome A) a, with_last h n k = Ok (Some a) ->
  exists v, k v = Ok a.
Proof.
  intros A h n k a H. unfold with_last in H. destruct (h_get h n) as [vs|]; [|discriminate H].
  destruct (values_last vs) as [v| |]; cbn [bind] in H; try discriminate H. exists v.
  destruct (k v); cbn [bind] in H; try discriminate H. congruence.
Qed.
Lemma with_all_inv : forall A h n (k : list str -> outcome A) a, with_all h n k = Ok (Some a) ->
  exists vs, h_get h n = Some vs /\ k vs = Ok a.
Proof.
  intros A h n k a H. unfold with_all in H. destruct (h_get h n) as [vs|]; [|discriminate H]. exists vs. split; [reflexivity|].
  destruct (k vs); cbn [bind] in H; try discriminate H. congruence.
Qed.
Lemma part_no_comma : forall vs p, In p (comma_parts vs) -> no_char 44 p = true.
Proof.
  intros vs p H. unfold comma_parts in H. apply in_flat_map in H as (v & _ & H). assert (F := split_pieces 44 (trim v)).
  rewrite Forall_forall in F. apply F. exact H.
Qed.
Lemma trim_no_comma : forall p, no_char 44 p = true -> no_char 44 (trim p) = true.
Proof.
  intros p H. destruct (trim_matches_decomp is_ws p) as (a & b & E & _ & _). unfold trim. rewrite E in H. rewrite !no_char_app in H. lia.
Qed.
Lemma read_parts_inv : forall A star (parse : str -> outcome A) ps es w, read_parts star parse ps = Ok (es, w) ->
  Forall (fun e => exists p, In p ps /\ parse (trim p) = Ok e /\ trim p <> star) es /\
  (w = true <-> exists p, In p ps /\ trim p = star) /\ (ps <> [] -> es <> [] \/ w = true).
Proof.
  intros A star parse. induction ps as [|p ps IH]; intros es w H; cbn [read_parts] in H.
  - injection H as <- <-. split; [constructor|]. split; [|congruence]. split; [discriminate|]. intros (p & [] & _).
  - destruct (seqb (trim p) star) eqn:S.
    + apply seqb_eq in S. destruct (read_parts star parse ps) as [[es' w']| |]; cbn [bind] in H; try discriminate H. injection H as <- <-.
      destruct (IH _ _ eq_refl) as (F & _ & _). split; [|split; [|right; reflexivity]].
      * eapply Forall_impl; [|exact F]. intros e (q & I & P). exists q. split; [right; exact I|exact P].
      * split; [|reflexivity]. intros _. exists p. split; [left; reflexivity|exact S].
    + apply seqb_neq in S. destruct (parse (trim p)) as [e| |] eqn:P; cbn [bind] in H; try discriminate H.
      destruct (read_parts star parse ps) as [[es' w']| |]; cbn [bind] in H; try discriminate H. injection H as <- <-.
      destruct (IH _ _ eq_refl) as (F & W & _). split; [|split; [|left; discriminate]].
      * constructor; [exists p; split; [left; reflexivity|split; assumption]|].
        eapply Forall_impl; [|exact F]. intros e' (q & I & Q). exists q. split; [right; exact I|exact Q].
      * rewrite W. split; intros (q & I & E); exists q; [split; [right; exact I|exact E]|]. destruct I as [->|I]; [contradiction|]. split; assumption.
Qed.
Lemma parts_nonempty : forall vs, vs <> [] -> comma_parts vs <> [].
Proof.
  intros [|v vs] N; [congruence|]. unfold comma_parts. cbn [flat_map]. assert (S := split_nonempty c_comma (trim v)).
  destruct (split c_comma (trim v)); [congruence|discriminate].
Qed.

(** ** ETag, If-Match, If-None-Match, Vary *)
Theorem C75_etag : stable etag_from_headers etag_apply.
Proof.
  intros h e H h'. apply with_last_inv in H as (v & H). apply C39_round_trip_partial. destruct e as [t|t].
  - destruct (proj1 (C39_grammar v false t) H) as [F _]. exact F.
  - destruct (proj1 (C39_grammar v true t) H) as [F _]. exact F.
Qed.
(** A header stored without any value (see C16) is the one exception for all lists. *)
Theorem C75_conditions : forall k h c, h_get h (cond_name k) <> Some [] -> cond_from_headers k h = Ok (Some c) ->
  forall h', cond_from_headers k (cond_apply k h' c) = Ok (Some c).
Proof.
  intros k h [es w] N H h'. apply with_all_inv in H as (vs & G & H). apply read_parts_inv in H as (F & _ & Nn).
  apply C40_round_trip_partial.
  - eapply Forall_impl; [|exact F]. intros e (p & I & P & _). apply part_no_comma in I. apply trim_no_comma in I. 
    assert (X : entity_tag (match e with Weak _ => true | _ => false end) (opaque e) (trim p)) by (apply C39_grammar; destruct e; exact P).
    destruct X as [V E]. split; [exact V|]. apply no_comma_spec. rewrite E in I. rewrite !no_char_app in I. lia.
  - apply Nn. apply parts_nonempty. intros ->. exact (N G).
Qed.
(** Vary: every list without empty elements. *)
Theorem C75_vary_partial : forall h c, h_get h (lit "vary") <> Some [] -> vary_from_headers h = Ok (Some c) -> ~ In [] (fst c) ->
  forall h', exists h'', vary_apply h' c = Ok h'' /\ vary_from_headers h'' = Ok (Some c).
Proof.
  intros h [es w] N H E h'. cbn [fst] in E. apply with_all_inv in H as (vs & G & H). apply read_parts_inv in H as (F & _ & Nn).
  assert (L : Forall (fun n => to_lower n = n /\ name_ok n) es).
  { rewrite Forall_forall in *. intros n I. destruct (F n I) as (p & J & P & S). unfold name_from_str in P.
    destruct (is_ascii (trim (trim p))) eqn:A; [|discriminate P]. injection P as <-.
    assert (T : trim (trim p) = trim p) by apply trim_matches_idem. rewrite T in *.
    split; [apply to_lower_idem|]. split; [rewrite is_ascii_to_lower; exact A|]. split; [intros X; apply E; rewrite <- X; exact I|].
    split; [apply no_comma_spec; rewrite lower_comma; apply trim_no_comma; eapply part_no_comma; exact J|].
    split; [rewrite <- lower_trim, T; reflexivity|]. intros X. apply lower_star in X. contradiction. }
  assert (M : map to_lower es = es).
  { clear - L. induction L as [|n l [P _] L IH]; [reflexivity|]. cbn [map]. rewrite P, IH. reflexivity. }
  destruct (C41_round_trip_partial h' es w) as (v & h'' & _ & A & B & V).
  - eapply Forall_impl; [|exact L]. intros n X. apply X.
  - apply Nn. apply parts_nonempty. intros ->. exact (N G).
  - subst v. rewrite M in A, B. exists h''. split; assumption.
Qed.
Theorem C75_vary_refuted : exists h c h'', h_get h (lit "vary") = Some [lit ",*"] /\ vary_from_headers h = Ok (Some c) /\
  vary_apply [] c = Ok h'' /\ vary_from_headers h'' <> Ok (Some c).
Proof.
  exists [(lit "vary", [lit ",*"])], ([[]], true), [(lit "vary", [lit "*"])]. vm_compute.
  split; [reflexivity|]. split; [reflexivity|]. split; [reflexivity|discriminate].
Qed.
Print Assumptions C75_etag.
Print Assumptions C75_conditions.
Example C75_conditions_case :
  let h := [(lit "if-match", [lit "W/""a"" ,*"; lit """b"""])] in
  h_get h (cond_name IfMatch) <> Some [] /\ cond_from_headers IfMatch h = Ok (Some ([Weak (lit "a"); Strong (lit "b")], true)).
Proof. split; [discriminate|vm_compute; reflexivity]. Qed.
Print Assumptions C75_vary_partial.
Example C75_vary_partial_case :
  let h := [(lit "vary", [lit "Accept ,*"; lit "x-b"])] in
  h_get h (lit "vary") <> Some [] /\ vary_from_headers h = Ok (Some ([lit "accept"; lit "x-b"], true)) /\ ~ In [] [lit "accept"; lit "x-b"].
Proof. split; [discriminate|]. split; [vm_compute; reflexivity|]. intros [E|[E|[]]]; discriminate E. Qed.
Print Assumptions C75_vary_refuted.

(** ** Cache-Control, Age, Clear-Site-Data *)
(** Cache-Control: what a rewrite does to a list that was read is exactly to drop the shared-cache ages. *)
Definition not_shared (d : directive) : bool := match d with SMaxAge _ => false | _ => true end.
Lemma get_dur_whole : forall ps d, get_dur ps = Ok d -> secs d <= u64_max /\ nanos d = 0.
Proof.
  intros [|p ps] d H; [discriminate H|]. unfold get_dur in H. cbn [hd_error ok_or bind] in H.
  destruct (parse_uint 10 u64_max p) as [n|] eqn:P; cbn [ok_or bind] in H; [|discriminate H]. injection H as <-.
  apply parse_uint_bound in P. split; [exact P|reflexivity].
Qed.
Lemma directive_read_whole : forall s d, directive_from_str s = Ok (Some d) ->
  u64_secs d /\ (match dur_of d with Some t => nanos t = 0 | None => True end).
Proof.
  intros s d H. unfold directive_from_str in H. destruct (trim s) as [|c t]; [discriminate H|].
  destruct (split c_eq (to_lower (c :: t))) as [|n ps]; [discriminate H|]. cbv zeta in H.
  assert (T : forall (f : duration -> directive), (forall x, dur_of (f x) = Some x) -> (let* x := get_dur ps in Ok (Some (f x))) = Ok (Some d) ->
    u64_secs d /\ (match dur_of d with Some t => nanos t = 0 | None => True end)).
  { intros f F E. destruct (get_dur ps) as [x| |] eqn:G; cbn [bind] in E; try discriminate E. injection E as <-.
    unfold u64_secs. rewrite F. apply get_dur_whole in G. exact G. }
  repeat match type of H with (if seqb n ?x then _ else _) = _ =>
    destruct (seqb n x); [first [injection H as <-; split; exact I | exact (T MaxAge (fun _ => eq_refl) H) | exact (T MinFresh (fun _ => eq_refl) H) | exact (T SMaxAge (fun _ => eq_refl) H) | exact (T StaleIfError (fun _ => eq_refl) H) | exact (T StaleWhileRevalidate (fun _ => eq_refl) H) | idtac]|] end.
  - destruct ps as [|p ps]; [injection H as <-; split; exact I|]. destruct (parse_uint 10 u64_max p) as [k|] eqn:P; cbn [ok_or bind] in H; [|discriminate H].
    injection H as <-. apply parse_uint_bound in P. split; [exact P|reflexivity].
  - discriminate H.
Qed.
Theorem C75_cache_control_partial : forall h l, cache_from_headers h = Ok (Some l) ->
  forall h', cache_from_headers (cache_apply h' l) = Ok (Some (filter not_shared l)).
Proof.
  intros h l H h'. apply with_all_inv in H as (vs & _ & H).
  assert (F : Forall (fun d => u64_secs d /\ (match dur_of d with Some t => nanos t = 0 | None => True end)) l).
  { revert l H. induction (comma_parts vs) as [|p ps IH]; intros l H; cbn [read_directives] in H; [injection H as <-; constructor|].
    destruct (directive_from_str p) as [o| |] eqn:D; cbn [bind] in H; try discriminate H.
    destruct (read_directives ps) as [es| |]; cbn [bind] in H; try discriminate H. injection H as <-. specialize (IH _ eq_refl).
    destruct o as [d|]; [|exact IH]. constructor; [|exact IH]. apply (directive_read_whole _ _ D). }
  rewrite C42_reads_back_as by (eapply Forall_impl; [|exact F]; intros d X; apply X). do 2 f_equal.
  clear H. induction F as [|d l (_ & W) F IH]; [reflexivity|]. cbn [flat_map filter]. rewrite IH.
  destruct d as [|t|[t|]|t| | | | | | | | |t|t|t]; try reflexivity; cbn [dur_of] in W; destruct t as [s n]; cbn [nanos] in W; subst n; reflexivity.
Qed.
Theorem C75_cache_control_refuted : exists h l, h_get h (lit "cache-control") = Some [lit "public, s-maxage=60"] /\
  cache_from_headers h = Ok (Some l) /\ cache_from_headers (cache_apply [] l) = Ok (Some [Public]) /\ l = [Public; SMaxAge (from_secs 60)].
Proof. exists [(lit "cache-control", [lit "public, s-maxage=60"])], [Public; SMaxAge (from_secs 60)]. vm_compute. auto. Qed.

(** Age: rounding to a double happens in the first reading and then no more. *)
Lemma rounded_exact : forall n, exact53 (f64_of_u64 n).
Proof.
  intros n. destruct (N.eq_dec n 0) as [->|P]; [exists 0, 0; split; vm_compute; reflexivity|].
  unfold f64_of_u64. set (e := N.size n - 53). 
  assert (Q : n / 2 ^ e < 2 ^ 53).
  { apply N.div_lt_upper_bound; [apply N.pow_nonzero; discriminate|]. rewrite <- N.pow_add_r.
    eapply N.lt_le_trans; [apply N.size_gt|]. apply N.pow_le_mono_r; [discriminate|]. unfold e. lia. }
  destruct (_ || _); [exists (n / 2 ^ e), e; split; [reflexivity|exact Q]|].
  destruct (N.eq_dec (n / 2 ^ e + 1) (2 ^ 53)) as [E|E]; [|exists (n / 2 ^ e + 1), e; split; [reflexivity|]; clear - Q E; change (2 ^ 53) with 9007199254740992 in *; lia].
  rewrite E, <- N.pow_add_r. exists 1, (53 + e). split; [rewrite N.mul_1_l; reflexivity|vm_compute; reflexivity].
Qed.
Theorem C75_age : stable age_from_headers age_apply.
Proof.
  intros h d H h'. apply with_last_inv in H as (v & H). destruct (parse_uint 10 u64_max v) as [n|]; cbn [ok_or bind] in H; [|discriminate H].
  unfold from_secs_f64 in H. destruct (f64_of_u64 n <? 2 ^ 64) eqn:L; [|discriminate H]. injection H as <-.
  apply C43_round_trip_iff; [|apply rounded_exact]. unfold u64_max. change (2 ^ 64) with 18446744073709551616 in L. lia.
Qed.
Theorem C75_clear_site_data : forall h c, h_get h (lit "clear-site-data") <> Some [] -> clear_from_headers h = Ok (Some c) ->
  forall h', clear_from_headers (clear_apply h' c) = Ok (Some c).
Proof.
  intros h [es w] N H h'. apply with_all_inv in H as (vs & G & H). apply read_parts_inv in H as (_ & _ & Nn).
  apply C44_round_trip_partial. apply Nn, parts_nonempty. intros ->. exact (N G).
Qed.
Print Assumptions C75_cache_control_partial.
Example C75_cache_control_partial_case :
  cache_from_headers [(lit "cache-control", [lit "Public, max-age=60"; lit "s-maxage=5,x"])] = Ok (Some [Public; MaxAge (from_secs 60); SMaxAge (from_secs 5)]) /\
  filter not_shared [Public; MaxAge (from_secs 60); SMaxAge (from_secs 5)] = [Public; MaxAge (from_secs 60)].
Proof. split; vm_compute; reflexivity. Qed.
Print Assumptions C75_cache_control_refuted.
Print Assumptions C75_age.
Print Assumptions C75_clear_site_data.
Example C75_clear_site_data_case :
  let h := [(lit "clear-site-data", [lit """cookies"" ,""*"""; lit """cache"""])] in
  h_get h (lit "clear-site-data") <> Some [] /\ exists c, clear_from_headers h = Ok (Some c) /\ length (fst c) = 2%nat /\ snd c = true.
Proof. split; [discriminate|]. eexists. split; [vm_compute; reflexivity|]. split; reflexivity. Qed.

(** ** Authentication *)
Theorem C75_authorization : stable auth_from_headers auth_apply.
Proof. intros h [sch c] _ h'. apply C46_round_trip. Qed.
Theorem C75_basic : stable basic_from_headers basic_apply.
Proof.
  intros h [u p] H h'. unfold basic_from_headers in H. destruct (auth_from_headers h) as [[[sch c]|]| |]; cbn [bind] in H; try discriminate H.
  destruct sch; try discriminate H. unfold basic_from_credentials in H. destruct (b64_decode c) as [bs|]; cbn [ok_or bind] in H; [|discriminate H].
  destruct (utf8_decode bs) as [t|] eqn:D; cbn [ok_or bind] in H; [|discriminate H].
  unfold splitn2 in H. destruct (split_once 58 t) as [[u' p']|] eqn:S; cbn [bind] in H; [|discriminate H]. injection H as <- <-.
  apply split_once_some in S as [E N]. apply utf8_decode_sound in D as [_ D]. subst t. unfold valid_str in D. rewrite forallb_app in D. cbn [forallb] in D.
  apply C45_round_trip_partial; unfold valid_str; [lia|lia|]. intros I. unfold no_char in N. rewrite forallb_forall in N. apply N in I. lia.
Qed.
Theorem C75_challenge : stable www_from_headers www_apply.
Proof.
  intros h [sch r] H h'. apply with_last_inv in H as (v & H). unfold www_parse in H. destruct (splitn2 32 v) as [s [c|]]; [|discriminate H].
  destruct (scheme_from_str s); cbn [bind] in H; try discriminate H. destruct (strip_prefix _ _) as [q|]; [|discriminate H].
  destruct (existsb (N.eqb 34) q); [|discriminate H]. injection H as _ <-. apply C47_round_trip_partial. intros I. clear - I.
  induction q as [|c q IH]; [exact I|]. cbn [take_while] in I. destruct (negb (c =? 34)) eqn:E; [|exact I]. destruct I as [->|I]; [discriminate E|exact (IH I)].
Qed.
Print Assumptions C75_authorization.
Print Assumptions C75_basic.
Print Assumptions C75_challenge.

(** ** Negotiation headers *)
Lemma proposal_family : forall k t p, proposal_from_str k t = Ok (Some p) -> in_family k (p_coding p) = true.
Proof.
  intros k t p H. unfold proposal_from_str in H. destruct (split c_semi t) as [|c rest]; [discriminate H|].
  destruct (coding_from_str k c) as [d|] eqn:C; [|discriminate H]. apply coding_from_str_spec in C as [C _].
  destruct (match rest with [] => _ | _ => _ end) as [w| |]; cbn [bind] in H; try discriminate H. unfold proposal_new in H.
  destruct (weight_ok w); cbn [bind] in H; [|discriminate H]. injection H as <-. exact C.
Qed.
Lemma to_milli_idem : forall w, good_weight w -> to_milli (to_milli w) = to_milli w.
Proof.
  intros [x|] G; [|reflexivity]. destruct G as (v & -> & L). cbn [to_milli]. apply to_milli_id, thousandths_le, L.
Qed.
Lemma to_milli_good : forall w, good_weight w -> good_weight (to_milli w).
Proof.
  intros [x|] G; [|exact I]. destruct G as (v & -> & L). cbn [to_milli]. destruct (C52_three_decimals _ (thousandths_le v L)) as (y & -> & G & _). exact G.
Qed.
(** Accept-Encoding and TE: the codings and the wildcard stay; a weight is rounded to three decimals by the first
    rewrite and then stays.  Weights given with at most three decimals stay from the start. *)
Theorem C75_codings_partial : forall k h l w, accept_from_headers k h = Ok (Some (l, w)) -> exists l',
  map p_coding l' = map p_coding l /\
  (forall h', accept_from_headers k (accept_apply k h' (l, w)) = Ok (Some (l', w))) /\
  (forall h', accept_from_headers k (accept_apply k h' (l', w)) = Ok (Some (l', w))) /\
  (Forall (fun p => p_weight p = None \/ exists m, m <= 1000 /\ p_weight p = milli m) l -> l' = l).
Proof.
  intros k h l w H. apply with_all_inv in H as (vs & _ & H).
  assert (F : Forall (fun p => in_family k (p_coding p) = true /\ good_weight (p_weight p)) l).
  { eapply (skipping_all _ (proposal_from_str k)); [|exact H]. intros t x X. split; [eapply proposal_family; exact X|eapply proposal_from_str_good; exact X]. }
  exists (map (fun p => Proposal (p_coding p) (to_milli (p_weight p))) l). split; [|split; [|split]].
  - rewrite map_map. reflexivity.
  - intros h'. apply C53_round_trip. exact F.
  - intros h'. rewrite C53_round_trip.
    + do 3 f_equal. rewrite map_map. apply map_ext_in. intros p I. cbn [p_coding p_weight]. rewrite Forall_forall in F. destruct (F p I) as [_ G].
      rewrite to_milli_idem by exact G. reflexivity.
    + clear - F. induction F as [|p l [A G] F IH]; [constructor|]. cbn [map]. constructor; [|exact IH]. cbn [p_coding p_weight].
      split; [exact A|apply to_milli_good; exact G].
  - intros E. clear - E. induction E as [|[c x] l X E IH]; [reflexivity|]. cbn [map p_coding p_weight] in *. rewrite IH. do 2 f_equal.
    destruct X as [->|(m & M & ->)]; [reflexivity|]. apply to_milli_id. exact M.
Qed.
(** The rounding is not harmless: it can change which coding is negotiated. *)
Theorem C75_codings_refuted : exists k h a a', h_get h (accept_name k) = Some [lit "gzip;q=0.1234, br;q=0.1231"] /\
  accept_from_headers k h = Ok (Some a) /\ accept_from_headers k (accept_apply k [] a) = Ok (Some a') /\
  negotiate a [Gzip; Brotli] = Ok Gzip /\ negotiate a' [Gzip; Brotli] = Ok Brotli.
Proof.
  set (a := match accept_from_headers Content [(accept_name Content, [lit "gzip;q=0.1234, br;q=0.1231"])] with Ok (Some a) => a | _ => ([], false) end).
  set (a' := match accept_from_headers Content (accept_apply Content [] a) with Ok (Some a) => a | _ => ([], false) end).
  exists Content, [(accept_name Content, [lit "gzip;q=0.1234, br;q=0.1231"])], a, a'. vm_compute. auto.
Qed.
Print Assumptions C75_codings_partial.
Example C75_codings_partial_case : exists p,
  accept_from_headers Content [(lit "accept-encoding", [lit " br;q=0.25 , unknown,*"])] = Ok (Some ([p], true)) /\ p_weight p = milli 250.
Proof. eexists. split; vm_compute; reflexivity. Qed.
Print Assumptions C75_codings_refuted.

(** Parameter values of a parsed media type consist of characters of the text. *)
Section Chars.
  Context (ok : N -> bool).
  Lemma drop_ok : forall p s, forallb ok s = true -> forallb ok (drop_while p s) = true.
  Proof. induction s as [|c s IH]; intros H; [reflexivity|]. cbn [forallb drop_while] in *. destruct (p c); [apply IH; lia|exact H]. Qed.
  Lemma take_ok : forall p s, forallb ok s = true -> forallb ok (take_while p s) = true.
  Proof. induction s as [|c s IH]; intros H; [reflexivity|]. cbn [forallb take_while] in *. destruct (p c); [|reflexivity]. cbn [forallb]. rewrite IH; lia. Qed.
  Lemma rev_ok : forall s, forallb ok (rev s) = forallb ok s.
  Proof.
    intros s. destruct (forallb ok s) eqn:E.
    - rewrite forallb_forall in *. intros c I. apply E. apply in_rev. exact I.
    - destruct (forallb ok (rev s)) eqn:F; [|reflexivity]. rewrite <- E. symmetry. rewrite forallb_forall in *. intros c I. apply F. apply -> in_rev. exact I.
  Qed.
  Lemma trim_end_ok : forall p s, forallb ok s = true -> forallb ok (trim_end_matches p s) = true.
  Proof. intros p s H. unfold trim_end_matches. rewrite rev_ok. apply drop_ok. rewrite rev_ok. exact H. Qed.
  Lemma slice1_ok : forall s r, slice1 s = Ok r -> forallb ok s = true -> forallb ok r = true.
  Proof. intros [|c s] r H F; [discriminate H|]. unfold slice1 in H. destruct (c <? 128); [|discriminate H]. injection H as <-. cbn [forallb] in F. lia. Qed.
  Lemma quoted_ok : forall n s v, (length s <= n)%nat -> forallb ok s = true -> forallb ok v = true ->
    forallb ok (fst (quoted_loop s v)) = true /\ forallb ok (snd (quoted_loop s v)) = true.
  Proof.
    induction n as [|n IH]; intros s v L S V; (destruct s as [|c s]; [split; [exact V|reflexivity]|]); cbn [length] in L; [lia|].
    cbn [forallb] in S. cbn [quoted_loop]. destruct (c =? 34); [cbn [fst snd]; split; [exact V|lia]|]. destruct (c =? 92) eqn:B.
    - destruct s as [|d s]; [cbn [fst snd]; split; [rewrite forallb_app, V; cbn [forallb]; replace 92 with c by lia; lia|reflexivity]|].
      cbn [forallb length] in *. apply IH; [lia|lia|]. rewrite forallb_app, V. cbn [forallb]. lia.
    - apply IH; [lia|lia|]. rewrite forallb_app, V. cbn [forallb]. lia.
  Qed.
  Definition values_ok (st : bool * list (str * str)) : Prop := forall n v, In (n, v) (snd st) -> forallb ok v = true.
  Lemma push_ok : forall n v st, forallb ok v = true -> values_ok st -> values_ok (push_param n v st).
  Proof.
    intros n v [u ps] V S. unfold push_param. destruct (_ && _); [exact S|]. destruct (_ && _); [|exact S].
    destruct (existsb _ _); [exact S|]. intros n' v' I. cbn [snd] in I. apply in_app_or in I as [I|[I|[]]]; [apply (S n' v' I)|]. injection I as _ <-. exact V.
  Qed.
  Lemma parse_params_ok : forall fuel s st st', Mime.parse_params fuel s st = Ok st' -> forallb ok s = true -> values_ok st -> values_ok st'.
  Proof.
    induction fuel as [|f IH]; intros s st st' H S V; [discriminate H|]. cbn [Mime.parse_params] in H.
    destruct s as [|c0 s0]; [injection H as <-; exact V|]. destruct (slice1 (c0 :: s0)) as [s1| |] eqn:E1; cbn [bind] in H; try discriminate H.
    apply slice1_ok in E1; [|exact S]. clear S. unfold collect_until in H at 1.
    set (s2 := trim_start_matches is_http_ws s1) in *. assert (S2 : forallb ok s2 = true) by (apply drop_ok; exact E1).
    set (name := to_lower (take_while _ s2)) in *. clearbody name.
    assert (S3 := drop_ok (fun c => negb ((c =? 59) || (c =? 61))) s2 S2). set (s3 := drop_while _ s2) in *. clearbody s3.
    destruct s3 as [|c s3']; [injection H as <-; exact V|]. destruct (c =? 59); [apply (IH _ _ _ H); assumption|].
    destruct (slice1 (c :: s3')) as [s4| |] eqn:E4; cbn [bind] in H; try discriminate H. apply slice1_ok in E4; [|exact S3].
    destruct (starts_with [34] s4).
    - unfold collect_quoted in H. destruct (slice1 s4) as [s5| |] eqn:E5; cbn [bind] in H; try discriminate H. apply slice1_ok in E5; [|exact E4].
      assert (Q := quoted_ok (length s5) s5 [] (le_n _) E5 eq_refl). destruct (quoted_loop s5 []) as [v s6]. cbn [fst snd] in Q. destruct Q as [Q1 Q2].
      unfold collect_until in H. apply (IH _ _ _ H); [apply drop_ok; exact Q2|]. apply push_ok; assumption.
    - unfold collect_until in H. assert (S6 := drop_ok (fun c0 => negb (59 =? c0)) s4 E4).
      assert (Tv := trim_end_ok is_http_ws _ (take_ok (fun c0 => negb (59 =? c0)) s4 E4)).
      destruct (trim_end_matches is_http_ws (take_while (fun c0 => negb (59 =? c0)) s4)) as [|a b]; [apply (IH _ _ _ H); assumption|].
      apply (IH _ _ _ H); [exact S6|]. apply push_ok; assumption.
  Qed.
  Lemma mime_parse_chars : forall s m, mime_parse s = Ok m -> forallb ok s = true -> forall n v, In (n, v) (params m) -> forallb ok v = true.
  Proof.
    intros s m H S. unfold mime_parse, collect_until in H.
    assert (S1 : forallb ok (trim_matches is_http_ws s) = true) by (unfold trim_matches; apply trim_end_ok, drop_ok, S).
    set (s1 := trim_matches is_http_ws s) in *. clearbody s1. assert (S2 := drop_ok (fun c => negb (47 =? c)) s1 S1).
    set (s2 := drop_while _ s1) in *. clearbody s2. destruct (negb _); [discriminate H|]. destruct (negb _); [discriminate H|].
    destruct s2 as [|c s2]; [discriminate H|]. destruct (slice1 (c :: s2)) as [s3| |] eqn:E; cbn [bind] in H; try discriminate H. apply slice1_ok in E; [|exact S2].
    destruct (negb _); [discriminate H|]. destruct (negb _); [discriminate H|].
    destruct (Mime.parse_params _ _ _) as [st| |] eqn:P; cbn [bind] in H; try discriminate H. injection H as <-. cbn [params].
    apply parse_params_ok in P; [exact P|apply drop_ok; exact E|]. intros n v [].
  Qed.
End Chars.

Lemma removed_absent : forall ps n, NoDup (map fst ps) -> ~ In n (map fst (remove_first ps n)).
Proof.
  induction ps as [|[a b] ps IH]; intros n D; cbn [remove_first map fst] in *; [intros []|]. inv D.
  destruct (seqb_spec a n) as [->|N]; [exact H1|]. cbn [map fst]. intros [E|I]; [contradiction|]. exact (IH n H2 I).
Qed.
Lemma removed_in : forall ps n x, In x (remove_first ps n) -> In x ps.
Proof.
  induction ps as [|[a b] ps IH]; intros n x I; cbn [remove_first] in I; [exact I|]. destruct (seqb a n); [right; exact I|].
  destruct I as [I|I]; [left; exact I|right; apply (IH n x I)].
Qed.
Lemma removed_nodup : forall ps n, NoDup (map fst ps) -> NoDup (map fst (remove_first ps n)).
Proof.
  induction ps as [|[a b] ps IH]; intros n D; cbn [remove_first map fst] in *; [constructor|]. inv D. destruct (seqb a n); [exact H2|].
  cbn [map fst]. constructor; [|apply IH; exact H2]. intros I. apply H1. apply in_map_iff in I as (x & E & I). apply in_map_iff. exists x. split; [exact E|]. apply removed_in in I. exact I.
Qed.
Lemma media_read_sendable : forall t p, no_char 44 t = true -> media_from_str t = Ok p -> sendable (mp_type p).
Proof.
  intros t p C H. unfold media_from_str in H. destruct (mime_parse t) as [m| |] eqn:M; cbn [bind] in H; try discriminate H.
  assert (G : good_mime m) by (destruct (mime_parse_good t) as [(m' & E & G)|E]; congruence).
  assert (V := mime_parse_chars _ t m M C).
  unfold remove_param in H. change (param_name (lit "q")) with (Ok (lit "q")) in H. cbn [bind] in H. change (seqb (lit "q") (lit "charset")) with false in H. cbn [andb bind] in H.
  match type of H with bind ?x _ = _ => destruct x as [w| |]; cbn [bind] in H; try discriminate H end.
  unfold media_new in H. destruct (weight_ok w); [|discriminate H]. injection H as <-. cbn [mp_type].
  destruct G as (B1 & B2 & B3 & S1 & S2 & S3 & E & D & G). unfold sendable, good_mime. cbn [essence basetype subtype is_utf8 params].
  split; [|split].
  - repeat (split; [assumption|]). split; [apply removed_nodup; exact D|]. intros x I. apply G. apply removed_in in I. exact I.
  - apply removed_absent. exact D.
  - intros n v I. apply removed_in in I. apply (V n v I).
Qed.
(** Accept: the media types with all their parameters and the wildcard stay; weights as above. *)
Theorem C75_accept_partial : forall h l w, media_from_headers h = Ok (Some (l, w)) -> exists l',
  map mp_type l' = map mp_type l /\
  (forall h', media_from_headers (media_apply h' (l, w)) = Ok (Some (l', w))) /\
  (forall h', media_from_headers (media_apply h' (l', w)) = Ok (Some (l', w))) /\
  (Forall (fun p => exists m, m <= 1000 /\ mp_weight p = milli m) l -> l' = l).
Proof.
  intros h l w H. assert (W := C52_media_parsed h l w H). apply with_all_inv in H as (vs & _ & H).
  assert (F : Forall (fun p => sendable (mp_type p)) l).
  { unfold read_media in H. assert (PC := part_no_comma vs). revert l w H W. induction (comma_parts vs) as [|p ps IH]; intros l w H W; cbn [read_skipping] in H.
    - injection H as <- <-. constructor.
    - assert (PC' : forall q, In q ps -> no_char 44 q = true) by (intros q I; apply PC; right; exact I).
      destruct (seqb (trim p) []); [apply (IH PC' _ _ H W)|]. destruct (seqb (trim p) (lit "*")).
      + destruct (read_skipping _ ps) as [[es w']| |] eqn:R; cbn [bind] in H; try discriminate H. injection H as <- <-. apply (IH PC' es w' eq_refl W).
      + destruct (media_from_str (trim p)) as [m| |] eqn:M; cbn [bind] in H; try discriminate H.
        destruct (read_skipping _ ps) as [[es w']| |] eqn:R; cbn [bind] in H; try discriminate H. injection H as <- <-. inv W.
        constructor; [|apply (IH PC' es w' eq_refl); assumption]. eapply media_read_sendable; [|exact M]. apply trim_no_comma, PC. left. reflexivity. }
  assert (FG : Forall (fun p => sendable (mp_type p) /\ good_weight (mp_weight p)) l).
  { rewrite Forall_forall in *. intros p I. split; [apply F; exact I|apply W; exact I]. }
  assert (FW : map (fun p => MediaProposal (mp_type p) (full_weight (mp_weight p))) l = map (fun p => MediaProposal (mp_type p) (to_milli (mp_weight p))) l).
  { apply map_ext_in. intros p I. rewrite Forall_forall in W. destruct (W p I) as [N _]. destruct (mp_weight p); [reflexivity|congruence]. }
  assert (TN : forall x, good_weight (Some x) -> exists y, to_milli (Some x) = Some y).
  { intros x (v & -> & L). cbn [to_milli]. eexists. reflexivity. }
  exists (map (fun p => MediaProposal (mp_type p) (to_milli (mp_weight p))) l). split; [|split; [|split]].
  - rewrite map_map. reflexivity.
  - intros h'. rewrite C71_round_trip_partial by exact FG. rewrite FW. reflexivity.
  - intros h'. rewrite C71_round_trip_partial.
    + do 3 f_equal. rewrite map_map. apply map_ext_in. intros p I. cbn [mp_type mp_weight]. f_equal. rewrite Forall_forall in W. destruct (W p I) as [N G].
      destruct (mp_weight p) as [x|]; [|congruence]. destruct (TN x G) as (y & Y). rewrite <- (to_milli_idem (Some x) G) at 2. rewrite Y. reflexivity.
    + rewrite Forall_forall in *. intros q I. apply in_map_iff in I as (p & <- & I). cbn [mp_type mp_weight]. split; [apply F; exact I|]. apply to_milli_good, W, I.
  - intros E. clear - E. induction E as [|[c x] l X E IH]; [reflexivity|]. cbn [map mp_type mp_weight] in *. rewrite IH. do 2 f_equal.
    destruct X as (m & M & ->). apply to_milli_id. exact M.
Qed.
Print Assumptions C75_accept_partial.
Example C75_accept_partial_case : exists p,
  media_from_headers [(lit "accept", [lit "text/html;q=0.25"])] = Ok (Some ([p], false)) /\ mp_weight p = milli 250.
Proof. eexists. split; vm_compute; reflexivity. Qed.
Theorem C75_applied_coding : forall k, stable (encoding_from_headers k) (encoding_apply k).
Proof. intros k h c H h'. apply C54_round_trip. apply C54_value_partial in H as (_ & _ & _ & _ & H & _). exact H. Qed.
Print Assumptions C75_applied_coding.

(** ** Single-value headers *)
Lemma with_last_get : forall A h n (k : str -> outcome A) a, with_last h n k = Ok (Some a) -> exists vs v, h_get h n = Some (vs ++ [v]).
Proof.
  intros A h n k a H. unfold with_last in H. destruct (h_get h n) as [l|]; [|discriminate H].
  destruct l as [|x l]; [discriminate H|]. assert (N : x :: l <> []) by discriminate. destruct (exists_last N) as (vs & v & E). exists vs, v. rewrite E. reflexivity.
Qed.
Theorem C75_content_length : stable length_from_headers length_apply.
Proof.
  intros h n H h'. apply with_last_inv in H as (v & H). unfold length_parse in H. destruct (parse_uint 10 u64_max (trim v)) as [k|] eqn:P; [|discriminate H].
  injection H as <-. apply C55_round_trip. eapply parse_uint_bound; exact P.
Qed.
Theorem C75_content_type : stable ctype_from_headers ctype_apply.
Proof.
  intros h m H h'. apply with_last_inv in H as (v & H). unfold ctype_parse in H. destruct (mime_parse v) as [m'| |] eqn:P; try discriminate H.
  injection H as <-. eapply C56_round_trip; exact P.
Qed.
Theorem C75_dates : forall d, stable_o (date_from_headers d) (date_apply d).
Proof.
  intros d h t H h'. destruct (with_last_get _ _ _ _ _ H) as (vs & v & G).
  destruct (C72_read_total d h vs v G) as [(t' & E & R & W)|E]; [|congruence]. rewrite H in E. injection E as <-.
  destruct (C72_round_trip d h' t R) as (h'' & A & B). exists h''. rewrite W in B. auto.
Qed.
Theorem C75_retry_after : stable_o retry_from_headers retry_apply.
Proof.
  intros h r H h'. destruct (with_last_get _ _ _ _ _ H) as (vs & v & G).
  destruct (C57_texts h vs v G) as [(n & _ & L & E)|(_ & [(t & P & E)|(_ & E)])]; [| |congruence]; rewrite H in E; injection E as ->.
  - apply (C57_delay_round_trip h' (from_secs n)). exact L.
  - assert (X : date_from_headers Expires [(date_name Expires, [v])] = Ok (Some t)).
    { unfold date_from_headers, with_last. change (h_get [(date_name Expires, [v])] (date_name Expires)) with (Some [v]). cbn [values_last rev app bind date_parse]. rewrite P. reflexivity. }
    destruct (C72_read_total Expires [(date_name Expires, [v])] [] v eq_refl) as [(t' & E & R & W)|E]; [|congruence]. rewrite X in E. injection E as <-.
    destruct (C57_date_round_trip h' t R) as (h'' & A & B). exists h''. rewrite W in B. auto.
Qed.
Theorem C75_expect : forall h, expect_from_headers h = Ok (Some tt) -> forall h', expect_from_headers (expect_apply h') = Ok (Some tt).
Proof. intros h _ h'. apply C58_round_trip. Qed.
Print Assumptions C75_content_length.
Print Assumptions C75_content_type.
Print Assumptions C75_dates.
Print Assumptions C75_retry_after.
Print Assumptions C75_expect.
(** Allow is a set, written in whatever order the set is iterated. *)
Lemma allow_read_nodup : forall ps s s', allow_read ps s = Ok s' -> NoDup s -> NoDup s' /\ (ps <> [] \/ s <> [] -> s' <> []).
Proof.
  induction ps as [|p ps IH]; intros s s' H D; cbn [allow_read] in H; [injection H as <-; split; [exact D|intros [N|N]; congruence]|].
  destruct (method_from_str (trim p)) as [m| |]; cbn [bind] in H; try discriminate H. destruct (IH _ _ H) as [A B].
  - unfold set_insert. destruct (existsb (method_eqb m) s) eqn:E; [exact D|]. constructor; [|exact D]. intros I.
    assert (X : existsb (method_eqb m) s = true) by (apply existsb_exists; exists m; split; [exact I|apply method_eqb_iff; reflexivity]). congruence.
  - split; [exact A|]. intros _. apply B. right. unfold set_insert. destruct (existsb (method_eqb m) s) eqn:E; [|discriminate].
    intros ->. discriminate E.
Qed.
Theorem C75_allow : forall h s, h_get h (lit "allow") <> Some [] -> allow_from_headers h = Ok (Some s) -> forall h' order, Permutation.Permutation order s ->
  exists s', allow_from_headers (allow_apply h' order) = Ok (Some s') /\ Permutation.Permutation s' s.
Proof.
  intros h s N H h' order P. apply with_all_inv in H as (vs & G & H). apply allow_read_nodup in H as [D E]; [|constructor].
  assert (NE : order <> []).
  { intros ->. apply Permutation.Permutation_nil in P. apply E; [|exact P]. left. apply parts_nonempty. intros ->. exact (N G). }
  destruct (C59_round_trip_partial h' order NE) as (s' & A & D' & I). exists s'. split; [exact A|].
  apply Permutation.NoDup_Permutation; [exact D'|exact D|]. intros m. rewrite I. split; apply Permutation.Permutation_in; [exact P|apply Permutation.Permutation_sym; exact P].
Qed.
Print Assumptions C75_allow.
Example C75_allow_case :
  let h := [(lit "allow", [lit "get, POST"; lit "PUT,GET"])] in
  h_get h (lit "allow") <> Some [] /\ exists s, allow_from_headers h = Ok (Some s) /\ Permutation.Permutation [M_Put; M_Post; M_Get] s.
Proof.
  split; [discriminate|]. eexists. split; [vm_compute; reflexivity|]. reflexivity.
Qed.
(** Strict-Transport-Security: the subdomain flag is lost, nothing else. *)
Lemma hsts_read_whole : forall ps a s p a' s' p', hsts_read ps (a, s, p) = Ok (a', s', p') ->
  (forall d, a = Some d -> secs d <= u64_max /\ nanos d = 0) -> forall d, a' = Some d -> secs d <= u64_max /\ nanos d = 0.
Proof.
  induction ps as [|x ps IH]; intros a s p a' s' p' H A; cbn [hsts_read] in H; [injection H as <- _ _; exact A|].
  destruct (seqb (trim x) (lit "includesubdomains")); [apply (IH _ _ _ _ _ _ H A)|]. destruct (seqb (trim x) (lit "preload")); [apply (IH _ _ _ _ _ _ H A)|].
  destruct (split_once c_eq (trim x)) as [[k v]|]; [|apply (IH _ _ _ _ _ _ H A)]. destruct (seqb k (lit "max-age")); [|apply (IH _ _ _ _ _ _ H A)].
  destruct (parse_uint 10 u64_max v) as [n|] eqn:P; cbn [ok_or bind] in H; [|discriminate H]. apply (IH _ _ _ _ _ _ H). intros d E. injection E as <-.
  split; [eapply parse_uint_bound; exact P|reflexivity].
Qed.
Theorem C75_hsts_partial : forall h s, hsts_from_headers h = Ok (Some s) -> forall h',
  hsts_from_headers (hsts_apply h' s) = Ok (Some (Hsts (max_age s) false (preload s))).
Proof.
  intros h s H h'. apply with_last_inv in H as (v & H). unfold hsts_parse in H.
  destruct (hsts_read (split c_semi v) (None, false, false)) as [[[a sub] pre]| |] eqn:R; cbn [bind] in H; try discriminate H.
  destruct a as [d|]; [|discriminate H]. injection H as <-. destruct (hsts_read_whole _ _ _ _ _ _ _ R ltac:(discriminate) d eq_refl) as [L Z].
  rewrite C60_reads_back_partial by exact L. cbn [max_age preload]. destruct d as [x y]. cbn [nanos] in Z. subst y. reflexivity.
Qed.
Theorem C75_hsts_refuted : exists h s, h_get h (lit "strict-transport-security") = Some [lit "max-age=1;includesubdomains"] /\
  hsts_from_headers h = Ok (Some s) /\ include_subdomains s = true /\
  hsts_from_headers (hsts_apply [] s) = Ok (Some (Hsts (max_age s) false (preload s))).
Proof. exists [(lit "strict-transport-security", [lit "max-age=1;includesubdomains"])], (Hsts (from_secs 1) true false). vm_compute. auto. Qed.
Print Assumptions C75_hsts_partial.
Example C75_hsts_partial_case :
  hsts_from_headers [(lit "strict-transport-security", [lit "max-age=5; preload"])] = Ok (Some (Hsts (from_secs 5) false true)).
Proof. vm_compute. reflexivity. Qed.
Print Assumptions C75_hsts_refuted.

(** Headers with URLs, over any URL library keeping the contract of C73; the base may change between readings. *)
Theorem C75_urls : forall (url : Type) (p : str -> option url) (j : url -> str -> option url) (s : url -> str), url_contract p j s ->
  (forall b h u, location_from_headers j b h = Ok (Some u) -> forall b' h', location_from_headers j (Some b') (location_apply s h' u) = Ok (Some u)) /\
  (forall r b h u, reference_from_headers p j r b h = Ok (Some u) -> forall b' h', reference_from_headers p j r b' (reference_apply s r h' u) = Ok (Some u)).
Proof.
  intros url p j s C. split.
  - intros b h u _ b' h'. apply (C73_location_round_trip p j s C).
  - intros r b h u _ b' h'. apply (C73_reference_round_trip p j s C).
Qed.
(** Origins whose texts have no comma; a header with nothing but ["null"] entries cannot be written back. *)
Theorem C75_origins_partial : forall (url : Type) (p : str -> option url) (j : url -> str -> option url) (s : url -> str), url_contract p j s ->
  forall h us w, origins_from_headers p h = Ok (Some (us, w)) -> Forall (fun u => no_char 44 (s u) = true) us ->
  forall h', origins_from_headers p (origins_apply s h' (us, w)) =
    if (match us with [] => true | _ => false end) && negb w then Err 400 else Ok (Some (us, w)).
Proof.
  intros url p j s C h us w _ F h'. destruct us as [|u us].
  - destruct w; cbn [andb negb]; [apply (C73_origins_round_trip_partial p j s C); [constructor|right; reflexivity]|apply (C73_origins_empty p j s C)].
  - apply (C73_origins_round_trip_partial p j s C); [exact F|left; discriminate].
Qed.
Theorem C75_origins_refuted : exists h a, origins_from_headers toy_parse h = Ok (Some a) /\ h_get h (lit "timing-allow-origin") = Some [lit """null"""] /\
  origins_from_headers toy_parse (origins_apply toy_show [] a) = Err 400.
Proof. exists [(lit "timing-allow-origin", [lit """null"""])], ([], false). vm_compute. auto. Qed.
Print Assumptions C75_urls.
Print Assumptions C75_origins_partial.
Print Assumptions C75_origins_refuted.

(** Forwarded: a quoted host is written without quotes and no longer read. *)
Theorem C75_forwarded_refuted : exists s f t, s = lit "for=a;host=""h:80""" /\ Forwarded.fw_parse s = Ok f /\ Forwarded.fw_value f = Ok t /\ Forwarded.fw_parse t = Err 500.
Proof.
  exists (lit "for=a;host=""h:80"""), (Forwarded.mkForwarded None [lit "a"] (Some (lit "h:80")) None), (lit "for=a;host=h:80"). vm_compute. auto.
Qed.
Print Assumptions C75_forwarded_refuted.

Example C75_example :
  let once h := (let* o := accept_from_headers Content h in match o with Some a => Ok (accept_value a) | None => Err 0 end) in
  once [(lit "accept-encoding", [lit " br;q=1 , unknown"; lit "gzip;q=0.33333,,*"])] = Ok (lit "br;q=1.000, gzip;q=0.333, *") /\
  once [(lit "accept-encoding", [lit "br;q=1.000, gzip;q=0.333, *"])] = Ok (lit "br;q=1.000, gzip;q=0.333, *") /\
  (let* o := cond_from_headers IfMatch [(lit "if-match", [lit "W/""a"" ,*"; lit """b"""])] in match o with Some c => Ok (cond_value c) | None => Err 0 end)
    = Ok (lit "W/""a"", ""b"", *").
Proof. vm_compute. auto. Qed.
