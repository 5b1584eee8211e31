(** C80: optional white space (RFC 7230: spaces and tabs) around the elements of a list does not matter. *)
From Verif Require Import Base BaseFacts Headers HeadersFacts Typed TypedFacts Conditional ConditionalProps Cache CacheProps Auth AuthProps
  Float FloatFacts Mime MimeFacts MimeProps Negotiate NegotiateFacts NegotiateProps HttpDate Method EnumProps Other OtherProps Timing TimingProps LastProps Trace.
From Coq Require Import ZifyBool ZifyNat ZifyN.

Definition ows (s : str) : Prop := Forall (fun c => c = 32 \/ c = 9) s.
(** [p] and [q] are the same text up to optional white space around it. *)
Definition same_core (p q : str) : Prop :=
  exists a b a' b' t, ows a /\ ows b /\ ows a' /\ ows b' /\ ~ In 44 t /\ p = a ++ t ++ b /\ q = a' ++ t ++ b'.
(** Two header values that are lists of the same elements. *)
Definition same_list (v w : str) : Prop :=
  exists ps qs, ps <> [] /\ v = join [44] ps /\ w = join [44] qs /\ Forall2 same_core ps qs.
Definition ignores_blanks {A} (from : headers -> outcome A) (n : str) : Prop :=
  forall h h' vs ws, h_get h n = Some vs -> h_get h' n = Some ws -> Forall2 same_list vs ws -> from h = from h'.

Lemma ows_ws : forall s, ows s -> forallb is_ws s = true.
Proof. intros s H. apply forallb_forall. intros c I. unfold ows in H. rewrite Forall_forall in H. destruct (H c I) as [-> | ->]; reflexivity. Qed.
Lemma same_core_trim : forall p q, same_core p q -> trim p = trim q.
Proof.
  intros p q (a & b & a' & b' & t & A & B & A' & B' & _ & -> & ->). unfold trim. rewrite !trim_matches_pad by (apply ows_ws; assumption). reflexivity.
Qed.
Lemma same_core_comma : forall p q, same_core p q -> no_char 44 p = true /\ no_char 44 q = true.
Proof.
  intros p q (a & b & a' & b' & t & A & B & A' & B' & T & -> & ->). rewrite !no_char_app.
  rewrite (no_comma_ws a), (no_comma_ws b), (no_comma_ws a'), (no_comma_ws b') by (apply ows_ws; assumption). rewrite (proj2 (no_comma_spec t)); [split; reflexivity|exact T].
Qed.
Lemma same_list_parts : forall vs ws, Forall2 same_list vs ws -> map trim (comma_parts vs) = map trim (comma_parts ws).
Proof.
  intros vs ws F. induction F as [|v w vs ws S F IH]; [reflexivity|]. unfold comma_parts in *. cbn [flat_map]. rewrite !map_app, IH. f_equal.
  destruct S as (ps & qs & N & -> & -> & G). change c_comma with 44. rewrite !pieces_trim, !split_join.
  - clear N. induction G as [|p q ps qs C G IG]; [reflexivity|]. cbn [map]. rewrite IG. f_equal. apply same_core_trim, C.
  - destruct G; [congruence|discriminate].
  - clear N. induction G as [|p q ps qs C G IG]; constructor; [apply same_core_comma in C; apply C|exact IG].
  - exact N.
  - clear N. induction G as [|p q ps qs C G IG]; constructor; [apply same_core_comma in C; apply C|exact IG].
Qed.
Lemma with_all_blanks : forall A n (k : list str -> outcome A), (forall ps qs, map trim ps = map trim qs -> k ps = k qs) ->
  ignores_blanks (fun h => with_all h n (fun vs => k (comma_parts vs))) n.
Proof. intros A n k K h h' vs ws G G' F. unfold with_all. rewrite G, G'. rewrite (K _ _ (same_list_parts vs ws F)). reflexivity. Qed.
Theorem C80_lists : forall c k nanos_of,
  ignores_blanks (cond_from_headers c) (cond_name c) /\
  ignores_blanks vary_from_headers (lit "vary") /\
  ignores_blanks cache_from_headers (lit "cache-control") /\
  ignores_blanks clear_from_headers (lit "clear-site-data") /\
  ignores_blanks (accept_from_headers k) (accept_name k) /\
  ignores_blanks media_from_headers (lit "accept") /\
  ignores_blanks allow_from_headers (lit "allow") /\
  ignores_blanks (timing_from_headers nanos_of) (lit "server-timing").
Proof.
  intros c k nanos.
  split; [apply (with_all_blanks _ (cond_name c) (fun ps => read_parts (lit "*") etag_from_str ps)); intros; apply read_parts_ext; assumption|].
  split; [apply (with_all_blanks _ VARY (fun ps => read_parts (lit "*") (fun p => name_from_str (trim p)) ps)); intros; apply read_parts_ext; assumption|].
  split; [apply (with_all_blanks _ CACHE_CONTROL read_directives); intros ps qs E; rewrite (read_directives_trim ps), (read_directives_trim qs), E; reflexivity|].
  split; [apply (with_all_blanks _ CLEAR_SITE_DATA (fun ps => read_parts (lit """*""") clear_from_str ps)); intros; apply read_parts_ext; assumption|].
  split; [apply (with_all_blanks _ (accept_name k) (fun ps => read_proposals k ps)); intros; apply skipping_ext; assumption|].
  split; [apply (with_all_blanks _ ACCEPT read_media); intros; apply skipping_ext; assumption|].
  split; [apply (with_all_blanks _ ALLOW (fun ps => allow_read ps [])); intros; apply allow_read_ext; assumption|].
  apply (with_all_blanks _ SERVER_TIMING (parse_entries nanos)); intros; apply parse_entries_ext; assumption.
Qed.
Print Assumptions C80_lists.
(** Single values: these readers ignore blanks around the value. *)
Definition trims {A} (from : headers -> outcome A) (n : str) : Prop :=
  forall h h' vs ws v a b, h_get h n = Some (vs ++ [v]) -> h_get h' n = Some (ws ++ [a ++ v ++ b]) -> ows a -> ows b -> from h = from h'.
Lemma with_last_trims : forall A n (k : str -> outcome A), (forall a v b, ows a -> ows b -> k v = k (a ++ v ++ b)) -> trims (fun h => with_last h n k) n.
Proof. intros A n k K h h' vs ws v a b G G' Oa Ob. rewrite (with_last_snoc _ h n vs v k G), (with_last_snoc _ h' n ws _ k G'), <- K by assumption. reflexivity. Qed.
Theorem C80_values : forall url (join : url -> str -> option url) base d,
  trims length_from_headers (lit "content-length") /\
  trims ctype_from_headers (lit "content-type") /\
  trims (date_from_headers d) (date_name d) /\
  trims (location_from_headers join base) (lit "content-location").
Proof.
  assert (T : forall a v b, ows a -> ows b -> trim (a ++ v ++ b) = trim v) by (intros a v b A B; unfold trim; rewrite trim_matches_pad by (apply ows_ws; assumption); reflexivity).
  intros url join base d. split; [|split; [|split]].
  - apply with_last_trims. intros a v b A B. unfold length_parse. rewrite T by assumption. reflexivity.
  - apply with_last_trims. intros a v b A B. unfold ctype_parse, mime_parse. rewrite trim_matches_pad; [reflexivity| |];
      apply forallb_forall; intros c I; [unfold ows in A; rewrite Forall_forall in A; destruct (A c I) as [-> | ->]|unfold ows in B; rewrite Forall_forall in B; destruct (B c I) as [-> | ->]]; reflexivity.
  - apply with_last_trims. intros a v b A B.
    assert (H : forall a, ows a -> is_ascii a = true).
    { intros x X. unfold is_ascii. apply forallb_forall. intros c I. unfold ows in X. rewrite Forall_forall in X. destruct (X c I) as [-> | ->]; reflexivity. }
    assert (D : parse_http_date v = parse_http_date (a ++ v ++ b)).
    { unfold parse_http_date, date_from_str. rewrite !is_ascii_app, !T, (H a A), (H b B) by assumption. rewrite andb_true_r. reflexivity. }
    destruct d; try exact D. unfold date_parse. rewrite T by assumption. reflexivity.
  - apply with_last_trims. intros a v b A B. rewrite T by assumption. reflexivity.
Qed.
Print Assumptions C80_values.
(** Content-Encoding and Transfer-Encoding, every value. *)
Theorem C80_codings : forall k h h' vs ws, h_get h (encoding_name k) = Some vs -> h_get h' (encoding_name k) = Some ws -> Forall2 same_core vs ws ->
  encoding_from_headers k h = encoding_from_headers k h'.
Proof.
  intros k h h' vs ws G G' F. unfold encoding_from_headers, with_all. rewrite G, G'.
  assert (E : forall acc, fold_left (fun acc v => match coding_from_str k v with Some c => Some c | None => acc end) vs acc =
                          fold_left (fun acc v => match coding_from_str k v with Some c => Some c | None => acc end) ws acc).
  { clear G G'. induction F as [|v w vs ws S F IH]; intros acc; [reflexivity|]. cbn [fold_left]. unfold coding_from_str at 2 4. rewrite (same_core_trim v w S). apply IH. }
  unfold last_coding. rewrite E. reflexivity.
Qed.
Print Assumptions C80_codings.
Example C80_codings_case : Forall2 same_core [lit "gzip"] [[9] ++ lit "gzip" ++ [32; 32]] /\
  encoding_from_headers Content [(encoding_name Content, [lit "gzip"])] = encoding_from_headers Content [(encoding_name Content, [[9] ++ lit "gzip" ++ [32; 32]])].
Proof.
  assert (F : Forall2 same_core [lit "gzip"] [[9] ++ lit "gzip" ++ [32; 32]]).
  { constructor; [|constructor]. exists [], [], [9], [32; 32], (lit "gzip").
    repeat split; try reflexivity; unfold ows; repeat (constructor; auto). intros I. cbn in I. intuition discriminate. }
  split; [exact F|]. eapply C80_codings; [vm_compute; reflexivity|vm_compute; reflexivity|exact F].
Qed.
(** Strict-Transport-Security: around every directive. *)
Theorem C80_hsts : forall h h' vs ws ps qs, h_get h (lit "strict-transport-security") = Some (vs ++ [join (lit ";") ps]) ->
  h_get h' (lit "strict-transport-security") = Some (ws ++ [join (lit ";") qs]) -> ps <> [] -> Forall (fun p => ~ In 59 p) ps ->
  Forall2 (fun p q => exists a b a' b' t, ows a /\ ows b /\ ows a' /\ ows b' /\ p = a ++ t ++ b /\ q = a' ++ t ++ b') ps qs ->
  hsts_from_headers h = hsts_from_headers h'.
Proof.
  intros h h' vs ws ps qs G G' N S F. unfold hsts_from_headers. rewrite (with_last_snoc _ h STRICT_TRANSPORT_SECURITY vs _ hsts_parse G), (with_last_snoc _ h' STRICT_TRANSPORT_SECURITY ws _ hsts_parse G').
  assert (NS : forall s, no_char 59 s = true <-> ~ In 59 s).
  { intros s. unfold no_char. rewrite forallb_forall. split; [intros H I; apply H in I; discriminate I|intros H c I]. destruct (N.eqb_spec c 59) as [->|]; [contradiction|reflexivity]. }
  assert (W : forall a, ows a -> ~ In 59 a) by (intros a A I; unfold ows in A; rewrite Forall_forall in A; destruct (A _ I); discriminate).
  change (lit ";") with [59]. unfold hsts_parse. change c_semi with 59. rewrite !split_join; [| | |exact N|].
  - assert (E : forall st, hsts_read ps st = hsts_read qs st).
    { clear N S G G'. induction F as [|p q ps qs (a & b & a' & b' & t & A & B & A' & B' & -> & ->) F IH]; intros [[x y] z]; [reflexivity|]. cbn [hsts_read].
      unfold trim. rewrite !trim_matches_pad by (apply ows_ws; assumption). rewrite !IH. destruct (seqb _ _); [reflexivity|]. destruct (seqb _ _); [reflexivity|].
      destruct (split_once _ _) as [[k v]|]; [|reflexivity]. destruct (seqb _ _); [|reflexivity]. destruct (ok_or _ _); cbn [bind]; [rewrite IH|..]; reflexivity. }
    rewrite E. reflexivity.
  - destruct F; [congruence|discriminate].
  - clear N G G'. induction F as [|p q ps qs (a & b & a' & b' & t & A & B & A' & B' & -> & ->) F IH]; constructor; [|apply IH; inversion S; assumption].
    inversion S as [|? ? X _]; subst. apply NS. rewrite !in_app_iff in *. intros [I|[I|I]]; [exact (W a' A' I)|tauto|exact (W b' B' I)].
  - eapply Forall_impl; [|exact S]. intros p X. apply NS. exact X.
Qed.
Print Assumptions C80_hsts.

(** FALSE for these: one blank in front of a value that is read without it makes it unreadable. *)
Definition one (n v : str) : headers := [(n, [v])].
Theorem C80_values_refuted : exists b, b = lit " " /\
  (etag_from_headers (one (lit "etag") (lit """a""")) = Ok (Some (Strong (lit "a"))) /\ etag_from_headers (one (lit "etag") (b ++ lit """a""")) = Err 400) /\
  (age_from_headers (one (lit "age") (lit "5")) = Ok (Some (from_secs 5)) /\ age_from_headers (one (lit "age") (b ++ lit "5")) = Err 400) /\
  (expect_from_headers (one (lit "expect") (lit "100-continue")) = Ok (Some tt) /\ expect_from_headers (one (lit "expect") (b ++ lit "100-continue")) = Err 400) /\
  (retry_from_headers (one (lit "retry-after") (lit "5")) = Ok (Some (After (from_secs 5))) /\ retry_from_headers (one (lit "retry-after") (b ++ lit "5")) = Err 400) /\
  (auth_from_headers (one (lit "authorization") (lit "Basic x")) = Ok (Some (Basic, lit "x")) /\ auth_from_headers (one (lit "authorization") (b ++ lit "Basic x")) = Err 400) /\
  (www_from_headers (one (lit "www-authenticate") (lit "Basic realm=""x""")) = Ok (Some (Basic, lit "x")) /\ www_from_headers (one (lit "www-authenticate") (b ++ lit "Basic realm=""x""")) = Err 400).
Proof. exists (lit " "). vm_compute. repeat split. Qed.
(** Timing-Allow-Origin trims only the front of an element, and leaves the blanks behind it to the URL parser.  With a parser that
    ignores them, as url::Url::parse does, they matter after "*" and the quoted null only. *)
Definition origin_core (p q : str) : Prop :=
  exists a b a' b' t, ows a /\ ows b /\ ows a' /\ ows b' /\ ~ In 44 t /\ p = a ++ t ++ b /\ q = a' ++ t ++ b' /\
    (b = [] /\ b' = [] \/ no_edge is_ws t = true /\ t <> lit "*" /\ t <> lit """null""").
Lemma drop_ows : forall a s, ows a -> trim_start_matches is_ws (a ++ s) = trim_start_matches is_ws s.
Proof. intros a s A. apply ows_ws in A. unfold trim_start_matches. induction a as [|c a IH]; [reflexivity|]. cbn [app drop_while forallb] in *. apply andb_true_iff in A as [-> A]. exact (IH A). Qed.
Lemma word_tail : forall w t b, ows b -> ~ In 32 w -> ~ In 9 w -> t <> w -> seqb (t ++ b) w = false.
Proof.
  intros w t b B X Y T. destruct (seqb (t ++ b) w) eqn:E; [|reflexivity]. exfalso. apply seqb_eq in E. destruct b as [|c b]; [rewrite app_nil_r in E; contradiction|].
  assert (I : In c w) by (rewrite <- E; apply in_or_app; right; left; reflexivity). inversion B as [|? ? [-> | ->] _]; contradiction.
Qed.
Theorem C80_origins_partial : forall url (parse : str -> option url) h h' vs ws, (forall t b, ows b -> parse (t ++ b) = parse t) ->
  h_get h (lit "timing-allow-origin") = Some vs -> h_get h' (lit "timing-allow-origin") = Some ws ->
  Forall2 (fun v w => exists ps qs, ps <> [] /\ v = join [44] ps /\ w = join [44] qs /\ Forall2 origin_core ps qs) vs ws ->
  origins_from_headers parse h = origins_from_headers parse h'.
Proof.
  intros url parse h h' vs ws P G G' F. unfold origins_from_headers, with_all. change TIMING_ALLOW_ORIGIN with (lit "timing-allow-origin"). rewrite G, G'. clear G G'.
  assert (E : Forall2 origin_core (flat_map (split c_comma) vs) (flat_map (split c_comma) ws)).
  { induction F as [|v w vs ws (ps & qs & N & -> & -> & C) F IH]; [constructor|]. cbn [flat_map]. apply Forall2_app; [|exact IH]. change c_comma with 44.
    assert (NC : forall u t b, ows u -> ~ In 44 t -> ows b -> no_char 44 (u ++ t ++ b) = true).
    { intros u t b U T B. rewrite !no_char_app, (no_comma_ws u), (no_comma_ws b) by (apply ows_ws; assumption). rewrite (proj2 (no_comma_spec t)) by exact T. reflexivity. }
    rewrite !split_join; [exact C| | |exact N|].
    - destruct C; [congruence|discriminate].
    - clear N. induction C as [|p q ps qs (a & b & a' & b' & t & A & B & A' & B' & T & -> & -> & _) C IC]; constructor; [now apply NC|exact IC].
    - clear N. induction C as [|p q ps qs (a & b & a' & b' & t & A & B & A' & B' & T & -> & -> & _) C IC]; constructor; [now apply NC|exact IC]. }
  revert E. generalize (flat_map (split c_comma) vs) as ps, (flat_map (split c_comma) ws) as qs. intros ps qs E. f_equal.
  induction E as [|p q ps qs (a & b & a' & b' & t & A & B & A' & B' & T & -> & -> & O) E IH]; [reflexivity|]. cbn [origins_read]. rewrite (drop_ows a), (drop_ows a') by assumption. rewrite IH.
  destruct O as [[-> ->]|(NE & S & U)]; [reflexivity|].
  destruct t as [|c t].
  - assert (Z : forall b, ows b -> trim_start_matches is_ws b = []) by (intros x X; rewrite <- (app_nil_r x), drop_ows by exact X; reflexivity).
    cbn [app]. rewrite !Z by assumption. reflexivity.
  - assert (D : forall b, trim_start_matches is_ws ((c :: t) ++ b) = (c :: t) ++ b).
    { intros x. unfold trim_start_matches. cbn [app drop_while]. unfold no_edge in NE. apply andb_true_iff in NE as [NE _]. apply negb_true_iff in NE. rewrite NE. reflexivity. }
    rewrite !D. rewrite !word_tail by (try assumption; vm_compute; intuition discriminate). rewrite !P by assumption. reflexivity.
Qed.
Example C80_origins_case : exists parse : str -> option str, (forall t b, ows b -> parse (t ++ b) = parse t) /\
  Forall2 origin_core [lit "u"; lit "v"; lit "*"] [lit "u "; lit "  v" ++ [9]; lit " *"] /\
  origins_from_headers parse (one (lit "timing-allow-origin") (join [44] [lit "u "; lit "  v" ++ [9]; lit " *"])) = Ok (Some ([lit "u"; lit "v"], true)) /\
  origins_from_headers parse (one (lit "timing-allow-origin") (lit "u,v,*")) = Ok (Some ([lit "u"; lit "v"], true)).
Proof.
  exists (fun s => Some (trim_end_matches is_ws s)). split; [|split; [|vm_compute; auto]].
  - intros t b B. f_equal. unfold trim_end_matches. rewrite rev_app_distr. f_equal. apply (drop_ows (rev b)). apply Forall_rev. exact B.
  - constructor; [exists [], [], [], [32], (lit "u")|constructor; [exists [], [], [32; 32], [9], (lit "v")|constructor; [exists [], [], [32], [], (lit "*")|constructor]]];
      repeat (split; [first [reflexivity|unfold ows; repeat (constructor; auto); fail|vm_compute; intuition discriminate]|]);
      [right|right|left]; repeat split; discriminate.
Qed.
(** FALSE: a blank after "*" or after the quoted null does not matter; neither with the blank is a URL. *)
Theorem C80_origins_refuted : exists s t, s = lit "* " /\ t = lit """null"" " /\
  forall url (parse : str -> option url), parse s = None -> parse t = None ->
  origins_from_headers parse (one (lit "timing-allow-origin") (lit "*")) = Ok (Some ([], true)) /\
  origins_from_headers parse (one (lit "timing-allow-origin") s) = Err 400 /\
  origins_from_headers parse (one (lit "timing-allow-origin") (lit """null""")) = Ok (Some ([], false)) /\
  origins_from_headers parse (one (lit "timing-allow-origin") t) = Err 400.
Proof.
  exists (lit "* "), (lit """null"" "). split; [reflexivity|]. split; [reflexivity|]. intros url parse P Q. unfold origins_from_headers, with_all, one, h_get. cbn [hm_get]. rewrite (proj2 (seqb_eq _ _) eq_refl).
  split; [reflexivity|]. split; [|split; [reflexivity|]].
  - change (flat_map (split c_comma) [lit "* "]) with [lit "* "]. cbn [origins_read]. change (trim_start_matches is_ws (lit "* ")) with (lit "* "). change (seqb (lit "* ") (lit "*")) with false. change (seqb (lit "* ") (lit """null""")) with false. cbv iota. rewrite P. reflexivity.
  - change (flat_map (split c_comma) [lit """null"" "]) with [lit """null"" "]. cbn [origins_read]. change (trim_start_matches is_ws (lit """null"" ")) with (lit """null"" ").
    change (seqb (lit """null"" ") (lit "*")) with false. change (seqb (lit """null"" ") (lit """null""")) with false. cbv iota. rewrite Q. reflexivity.
Qed.
Print Assumptions C80_origins_partial.
Print Assumptions C80_values_refuted.
Print Assumptions C80_origins_refuted.
Example C80_example :
  same_list (lit "a,b") ([9; 32] ++ lit "a" ++ [9] ++ lit ",  b ") /\
  vary_from_headers (one (lit "vary") ([9; 32] ++ lit "a" ++ [9] ++ lit ",  b ")) = Ok (Some ([lit "a"; lit "b"], false)) /\
  cache_from_headers (one (lit "cache-control") ([9] ++ lit "no-store" ++ [9; 9] ++ lit ", max-age=5 ")) = Ok (Some [NoStore; MaxAge (from_secs 5)]).
Proof.
  split; [|vm_compute; repeat split]. exists [lit "a"; lit "b"], [[9; 32] ++ lit "a" ++ [9]; lit "  b "].
  split; [discriminate|]. split; [reflexivity|]. split; [reflexivity|]. constructor; [|constructor; [|constructor]].
  - exists [], [], [9; 32], [9], (lit "a"). repeat split; try (repeat constructor; auto; fail). cbn. intuition discriminate.
  - exists [], [], [32; 32], [32], (lit "b"). repeat split; try (repeat constructor; auto; fail). cbn. intuition discriminate.
Qed.

(** What counts as white space where text is trimmed: the 25 characters of the Unicode White_Space property. *)
Definition white_space : list N :=
  [9; 10; 11; 12; 13; 32; 133; 160; 5760; 8192; 8193; 8194; 8195; 8196; 8197; 8198; 8199; 8200; 8201; 8202; 8232; 8233; 8239; 8287; 12288].
Lemma is_ws_list : forall c, is_ws c = true <-> In c white_space.
Proof. intros c. unfold is_ws, white_space. cbn [In]. lia. Qed.
(** Trimming removes exactly the white space at both ends. *)
Theorem C80_trim : forall a t b, Forall (fun c => In c white_space) a -> Forall (fun c => In c white_space) b ->
  (forall c r, t = c :: r -> ~ In c white_space) -> (forall c r, t = r ++ [c] -> ~ In c white_space) ->
  trim (a ++ t ++ b) = t /\ trim_start (a ++ t ++ b) = (if t then [] else t ++ b).
Proof.
  intros a t b A B H L.
  assert (W : forall s, Forall (fun c => In c white_space) s -> forallb is_ws s = true).
  { intros s F. apply forallb_forall. intros c I. rewrite Forall_forall in F. apply is_ws_list, F, I. }
  split.
  - unfold trim. rewrite trim_matches_pad by auto. apply (trim_id t). unfold no_edge. destruct t as [|c r]; [reflexivity|].
    assert (is_ws c = false) as ->. { destruct (is_ws c) eqn:E; [|reflexivity]. apply is_ws_list in E. destruct (H c r eq_refl E). }
    destruct (rev (c :: r)) as [|x r'] eqn:R; [apply (f_equal (@rev N)) in R; rewrite rev_involutive in R; discriminate R|].
    assert (c :: r = rev r' ++ [x]). { apply (f_equal (@rev N)) in R. rewrite rev_involutive in R. exact R. }
    destruct (is_ws x) eqn:E; [|reflexivity]. apply is_ws_list in E. destruct (L x (rev r') H0 E).
  - unfold trim_start, trim_start_matches. apply W in A, B. clear - A B H. induction a as [|x a IH]; cbn [app drop_while].
    + destruct t as [|c r]; cbn [app].
      * clear H. induction b as [|x b IH]; [reflexivity|]. cbn [forallb] in B. apply andb_true_iff in B as [B1 B2]. cbn [drop_while]. rewrite B1. auto.
      * cbn [drop_while]. destruct (is_ws c) eqn:E; [|reflexivity]. apply is_ws_list in E. destruct (H c r eq_refl E).
    + cbn [forallb] in A. apply andb_true_iff in A as [A1 A2]. rewrite A1. auto.
Qed.
Print Assumptions C80_trim.
Example C80_trim_example : trim ([160; 8233] ++ lit "a b" ++ [12288]) = lit "a b" /\ trim [8203; 32] = [8203].
Proof. vm_compute. auto. Qed.
