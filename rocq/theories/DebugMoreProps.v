(** C100, further types: proposals and their lists, dates, durations, Report-To and the headers that hold a URL. *)
From Coq Require Import ZifyBool ZifyNat ZifyN Lia.
From Verif Require Import Base BaseFacts Headers Typed Mime Float FloatFacts Cache Negotiate NegotiateFacts HttpDate Other ReportTo TimingProps AlikeProps TraceProps Debug DebugProps DebugMore.

(** ** Numbers *)
Definition number_char (c : N) : bool := is_lower c || is_upper c || is_digit c || (c =? 45) || (c =? 46).
Lemma number_delim_on : forall A (P : A -> Prop) (f : A -> str), (forall x, P x -> forallb number_char (f x) = true) -> (forall x y, P x -> P y -> f x = f y -> x = y) -> delim_on P f.
Proof.
  intros A P f W I x y r r' Px Py S S' E.
  assert (K : forall q, stop q -> q = [] \/ exists c t, q = c :: t /\ number_char c = false).
  { intros [|c t] Q; [auto|]. right. exists c, t. split; [reflexivity|]. cbn in Q. repeat (destruct Q as [<-|Q]; [reflexivity|]). destruct Q. }
  destruct (app_class _ _ _ _ _ (W x Px) (W y Py) (K _ S) (K _ S') E) as [F ->]. auto.
Qed.
Lemma number_line : forall s, forallb number_char s = true -> one_line s = true.
Proof. intros s. apply forallb_impl. unfold number_char, is_lower, is_upper, is_digit. intros c. lia. Qed.
Lemma dec_number : forall n, forallb number_char (show_dec n) = true.
Proof. intros n. eapply forallb_impl; [|apply show_dec_digits]. intros c H. unfold number_char. now rewrite H, !orb_true_r. Qed.
Lemma int_number : forall z, forallb number_char (dbg_int z) = true.
Proof. intros z. unfold dbg_int. rewrite forallb_app, dec_number. destruct (z <? 0)%Z; reflexivity. Qed.
Lemma int_inj : forall a b, dbg_int a = dbg_int b -> a = b.
Proof.
  assert (K : forall n t, 45 :: t <> show_dec n).
  { intros n t E. assert (D := show_dec_digits n). rewrite <- E in D. discriminate D. }
  intros a b. unfold dbg_int. destruct (a <? 0)%Z eqn:A; destruct (b <? 0)%Z eqn:B; cbn [lit app]; intros E.
  - apply app_inv_head in E. apply show_dec_inj in E. lia.
  - destruct (K _ _ E).
  - symmetry in E. destruct (K _ _ E).
  - apply show_dec_inj in E. lia.
Qed.
Lemma int_delim : delim dbg_int.
Proof. intros x y r r'. apply (number_delim_on Z (fun _ => True)); auto using int_number, int_inj. Qed.
Lemma int_line : forall z, one_line (dbg_int z) = true.
Proof. intros z. apply number_line, int_number. Qed.
Lemma time_delim : delim dbg_time.
Proof.
  intros a b r r' S S' E. unfold dbg_time in E. field E int_delim. field E dec_delim. apply app_inv_head in E. split; [|exact E].
  assert (A := Z.mod_pos_bound a 1000000000). assert (B := Z.mod_pos_bound b 1000000000). assert (C := Z.div_mod a 1000000000). assert (D := Z.div_mod b 1000000000). lia.
Qed.
Lemma time_line : forall t, one_line (dbg_time t) = true.
Proof. intros t. unfold dbg_time. rewrite !one_line_app, int_line, dec_line. reflexivity. Qed.

(** ** Headers with one number, duration or date *)
Theorem C100_ages : forall a b, real_duration a -> real_duration b -> (dbg_age a = dbg_age b <-> a = b) /\ one_line (dbg_age a) = true.
Proof.
  intros a b A B. split.
  - split; [|now intros ->]. unfold dbg_age. intros E. apply app_inv_head in E. apply duration_delim in E as [-> _]; auto; stops.
  - unfold dbg_age. rewrite !one_line_app, duration_line. reflexivity.
Qed.
Theorem C100_lengths : forall a b, (dbg_length a = dbg_length b <-> a = b) /\ one_line (dbg_length a) = true.
Proof.
  intros a b. split.
  - split; [|now intros ->]. unfold dbg_length. intros E. field E dec_delim. assumption.
  - unfold dbg_length. rewrite !one_line_app, dec_line. reflexivity.
Qed.
Theorem C100_transport_security : forall a b, real_duration (Other.max_age a) -> real_duration (Other.max_age b) ->
  (dbg_hsts a = dbg_hsts b <-> a = b) /\ one_line (dbg_hsts a) = true.
Proof.
  intros a b A B. split.
  - split; [|now intros ->]. unfold dbg_hsts. intros E. rewrite <- ?app_assoc in E. apply app_inv_head in E. apply duration_delim in E as [? E]; auto; [|stops|stops].
    do 2 (field E bool_delim). destruct a, b. cbn in *. congruence.
  - unfold dbg_hsts. rewrite !one_line_app, duration_line. destruct (Other.include_subdomains a); destruct (preload a); reflexivity.
Qed.
(** Which of the five headers, and the instant to the nanosecond (the header itself has only seconds). *)
Theorem C100_dates : forall k l a b, (dbg_date k a = dbg_date l b <-> k = l /\ a = b) /\ one_line (dbg_date k a) = true.
Proof.
  intros k l a b. split.
  - split; [|now intros [-> ->]]. unfold dbg_date. intros E. destruct k; destruct l; try discriminate E; split; try reflexivity; field E time_delim; assumption.
  - unfold dbg_date. rewrite !one_line_app, time_line. destruct k; reflexivity.
Qed.
Definition real_retry (r : retry) : Prop := match r with After d => real_duration d | At _ => True end.
Theorem C100_retry_after : forall a b, real_retry a -> real_retry b -> (dbg_retry a = dbg_retry b <-> a = b) /\ one_line (dbg_retry a) = true.
Proof.
  intros a b A B. split.
  - split; [|now intros ->]. unfold dbg_retry. intros E. apply app_inv_head in E. destruct a as [d|t]; destruct b as [e|u]; try discriminate E; rewrite <- ?app_assoc in E; apply app_inv_head in E.
    + apply duration_delim in E as [-> _]; auto; stops.
    + apply time_delim in E as [-> _]; auto; stops.
  - unfold dbg_retry. rewrite !one_line_app. destruct a as [d|t]; rewrite !one_line_app, ?duration_line, ?time_line; reflexivity.
Qed.
Section More.
  Context (shown : N -> bool).
  Lemma mime_delim : delim (dbg_mime shown).
  Proof.
    intros a b r r' S S' E. unfold dbg_mime in E. do 3 (field E (str_delim shown)). field E bool_delim.
    field E (list_delim _ _ (mime_param_delim shown) ltac:(intros p; cbn; discriminate)). apply app_inv_head in E. destruct a, b. cbn in *. split; congruence.
  Qed.
  Lemma mime_line : forall m, one_line (dbg_mime shown m) = true.
  Proof. intros m. apply (C100_media_type shown m m). Qed.
  Theorem C100_content_type : forall a b, (dbg_ctype shown a = dbg_ctype shown b <-> a = b) /\ one_line (dbg_ctype shown a) = true.
  Proof.
    intros a b. split.
    - split; [|now intros ->]. unfold dbg_ctype. intros E. field E mime_delim. assumption.
    - unfold dbg_ctype. rewrite !one_line_app, mime_line. reflexivity.
  Qed.
  Lemma endpoint_delim : delim (dbg_endpoint shown).
  Proof. intros a b r r' S S' E. unfold dbg_endpoint in E. field E (str_delim shown). apply app_inv_head in E. auto. Qed.
  Theorem C100_report_to : forall a b, (dbg_report shown a = dbg_report shown b <-> a = b) /\ one_line (dbg_report shown a) = true.
  Proof.
    intros a b. split.
    - split; [|now intros ->]. unfold dbg_report. intros E. field E (option_delim _ _ (str_delim shown)). field E int_delim.
      field E (list_delim _ _ endpoint_delim ltac:(intros p; cbn; discriminate)). field E (option_delim _ _ bool_delim). destruct a, b. cbn in *. congruence.
    - unfold dbg_report. rewrite !one_line_app, (option_line _ _ (str_line shown)), int_line, (option_line _ dbg_bool) by (intros []; reflexivity).
      rewrite (list_line _ (dbg_endpoint shown)); [reflexivity|]. intros u. unfold dbg_endpoint. rewrite !one_line_app, str_line. reflexivity.
  Qed.

  (** ** Proposals *)
  Context (dbg_f32 : float -> str).
  (** A value an f32 between 0 and 1 can have: at most 24 significant bits. *)
  Definition real_f32 (x : float) : Prop := exists v c, x = Fin false v /\ v <= 2 ^ 149 /\ v = 2 ^ (N.log2 v - 23) * c.
  (** What std promises for such a value: letters, digits, points and hyphens, read back as the same value. *)
  Definition f32_contract : Prop := forall x, real_f32 x -> forallb number_char (dbg_f32 x) = true /\ parse_float f32 (dbg_f32 x) = Some x.
  Definition real_proposal (p : proposal) : Prop := all_some real_f32 (p_weight p).
  Definition real_media (p : media_proposal) : Prop := all_some real_f32 (mp_weight p).
  Context (C : f32_contract).
  Lemma f32_delim : delim_on real_f32 dbg_f32.
  Proof.
    apply number_delim_on; [intros x X; apply (C x X)|]. intros x y X Y E. assert (A := proj2 (C x X)). assert (B := proj2 (C y Y)). congruence.
  Qed.
  Lemma weight_line : forall w, all_some real_f32 w -> one_line (dbg_option dbg_f32 w) = true.
  Proof. intros [x|] W; [|reflexivity]. unfold dbg_option. rewrite !one_line_app, (number_line (dbg_f32 x)) by apply (C x W). reflexivity. Qed.
  Lemma coding_delim : delim dbg_coding.
  Proof. apply word_delim; [intros []; reflexivity|]. intros [] [] E; try reflexivity; discriminate E. Qed.
  Lemma proposal_delim : delim_on real_proposal (dbg_proposal dbg_f32).
  Proof.
    intros a b r r' A B S S' E. unfold dbg_proposal in E. field E coding_delim. rewrite <- ?app_assoc in E. apply app_inv_head in E.
    apply (option_delim_on _ _ _ f32_delim) in E as [? E]; auto; [|stops|stops]. apply app_inv_head in E. destruct a, b. cbn in *. split; congruence.
  Qed.
  Lemma media_delim : delim_on real_media (dbg_media shown dbg_f32).
  Proof.
    intros a b r r' A B S S' E. unfold dbg_media in E. field E mime_delim. rewrite <- ?app_assoc in E. apply app_inv_head in E.
    apply (option_delim_on _ _ _ f32_delim) in E as [? E]; auto; [|stops|stops]. apply app_inv_head in E. destruct a, b. cbn in *. split; congruence.
  Qed.
  Lemma list_line_on : forall A (P : A -> Prop) (f : A -> str), (forall x, P x -> one_line (f x) = true) -> forall l, Forall P l -> one_line (dbg_list f l) = true.
  Proof.
    intros A P f F l L. unfold dbg_list. rewrite !one_line_app. replace (one_line (join (lit ", ") (map f l))) with true; [reflexivity|]. symmetry.
    induction L as [|x l X L IH]; [reflexivity|]. cbn [map]. destruct l as [|y l]; [exact (F x X)|]. cbn [map] in *. rewrite join_cons in IH |- *. cbn [flat_map].
    rewrite !one_line_app, (F x X). rewrite one_line_app in IH. apply andb_true_iff in IH as [-> ->]. reflexivity.
  Qed.
  (** Accept-Encoding and TE: the printed text says which proposals with which weights, in which order; not whether there is a wildcard. *)
  Theorem C100_encodings : forall a b, Forall real_proposal (fst a) -> Forall real_proposal (fst b) ->
    (dbg_accept dbg_f32 a = dbg_accept dbg_f32 b <-> fst a = fst b) /\ one_line (dbg_accept dbg_f32 a) = true.
  Proof.
    intros a b A B. unfold dbg_accept. split.
    - split; [|now intros ->]. intros E. apply (f_equal (fun s => s ++ [])) in E. apply (list_delim_on _ _ _ proposal_delim ltac:(intros p; cbn; discriminate)) in E as [E _]; auto; stops.
    - apply (list_line_on _ real_proposal); [|exact A]. intros p P. unfold dbg_proposal. rewrite !one_line_app, weight_line by exact P. destruct (p_coding p); reflexivity.
  Qed.
  Theorem C100_accept : forall a b, Forall real_media (fst a) -> Forall real_media (fst b) ->
    (dbg_media_list shown dbg_f32 a = dbg_media_list shown dbg_f32 b <-> fst a = fst b) /\ one_line (dbg_media_list shown dbg_f32 a) = true.
  Proof.
    intros a b A B. unfold dbg_media_list. split.
    - split; [|now intros ->]. intros E. apply (f_equal (fun s => s ++ [])) in E. apply (list_delim_on _ _ _ media_delim ltac:(intros p; cbn; discriminate)) in E as [E _]; auto; stops.
    - apply (list_line_on _ real_media); [|exact A]. intros p P. unfold dbg_media. rewrite !one_line_app, weight_line, mime_line by exact P. reflexivity.
  Qed.

  (** ** Headers with URLs *)
  Context {url : Type} (dbg_url : url -> str).
  (** What is needed of the url crate: the text of a URL can be told from what follows, is one line and does not begin with a bracket. *)
  Context (U : delim dbg_url) (UL : forall u, one_line (dbg_url u) = true) (UB : forall u, begins (dbg_url u)).
  Theorem C100_urls : forall o p u v k l,
    (dbg_origins dbg_url o = dbg_origins dbg_url p <-> fst o = fst p) /\ (dbg_location dbg_url u = dbg_location dbg_url v <-> u = v) /\
    (dbg_reference dbg_url k u = dbg_reference dbg_url l v <-> k = l /\ u = v) /\
    one_line (dbg_origins dbg_url o) = true /\ one_line (dbg_location dbg_url u) = true /\ one_line (dbg_reference dbg_url k u) = true.
  Proof.
    intros o p u v k l. split; [|split; [|split; [|split; [|split]]]].
    - unfold dbg_origins. split; [|now intros ->]. intros E. exact (delim_inj _ _ (list_delim _ _ U UB) _ _ E).
    - unfold dbg_location. split; [|now intros ->]. intros E. field E U. assumption.
    - unfold dbg_reference. split; [|now intros [-> ->]]. intros E. destruct k; destruct l; try discriminate E; split; try reflexivity; field E U; assumption.
    - apply list_line, UL.
    - unfold dbg_location. rewrite !one_line_app, UL. reflexivity.
    - unfold dbg_reference. rewrite !one_line_app, UL. destruct k; reflexivity.
  Qed.
End More.

(** The texts, as std's [debug_struct] writes them. *)
Theorem C100_more_structs : forall shown (fl : float -> str) url (pu : url -> str) d n s r m u p q v,
  (dbg_age d = struct_text "Age"%string [("dur"%string, dbg_duration d)] /\
   dbg_length n = struct_text "ContentLength"%string [("length"%string, show_dec n)] /\
   dbg_hsts s = struct_text "StrictTransportSecurity"%string [("max_age"%string, dbg_duration (Other.max_age s)); ("include_subdomains"%string, if Other.include_subdomains s then lit "true" else lit "false");
     ("preload"%string, if preload s then lit "true" else lit "false")] /\
   dbg_report shown r = struct_text "ReportTo"%string [("group"%string, dbg_option (dbg_str shown) (group r)); ("max_age"%string, dbg_int (ReportTo.max_age r));
     ("endpoints"%string, dbg_list (fun u => struct_text "ReportToEndpoint"%string [("url"%string, dbg_str shown u)]) (endpoints r)); ("include_subdomains"%string, dbg_option dbg_bool (ReportTo.include_subdomains r))] /\
   dbg_ctype shown m = struct_text "ContentType"%string [("media_type"%string, dbg_mime shown m)] /\
   dbg_location pu u = struct_text "ContentLocation"%string [("url"%string, pu u)] /\
   dbg_reference pu Referer u = struct_text "Referer"%string [("location"%string, pu u)] /\ dbg_reference pu SourceMap u = struct_text "SourceMap"%string [("location"%string, pu u)] /\
   dbg_accept fl ([p], v) = lit "[" ++ struct_text "EncodingProposal"%string [("encoding"%string, dbg_coding (p_coding p)); ("weight"%string, dbg_option fl (p_weight p))] ++ lit "]" /\
   dbg_media_list shown fl ([q], v) = lit "[" ++ struct_text "MediaTypeProposal"%string [("media_type"%string, dbg_mime shown (mp_type q)); ("weight"%string, dbg_option fl (mp_weight q))] ++ lit "]").
Proof.
  intros. unfold struct_text. cbn [map join fst snd].
  repeat match goal with |- _ /\ _ => split end; try reflexivity;
  unfold dbg_hsts, dbg_report, dbg_accept, dbg_media_list, dbg_list, dbg_proposal, dbg_media, dbg_endpoint; cbn [map join fst snd]; rewrite <- ?app_assoc; reflexivity.
Qed.
(** An instant is printed as seconds and nanoseconds since 1970 that add up to it. *)
Theorem C100_instants : forall k t, exists s n, t = (s * 1000000000 + Z.of_N n)%Z /\ n < 1000000000 /\
  dbg_date k t = struct_text (match k with Expires => "Expires" | LastModified => "LastModified" | IfModifiedSince => "IfModifiedSince" | IfUnmodifiedSince => "IfUnmodifiedSince" | DateHeader => "Date" end)%string
    [((match k with DateHeader => "at" | _ => "instant" end)%string, struct_text "SystemTime"%string [("tv_sec"%string, dbg_int s); ("tv_nsec"%string, show_dec n)])] /\
  dbg_retry (At t) = struct_text "RetryAfter"%string [("inner"%string, lit "SystemTime(" ++ struct_text "SystemTime"%string [("tv_sec"%string, dbg_int s); ("tv_nsec"%string, show_dec n)] ++ lit ")")].
Proof.
  intros k t. exists (t / 1000000000)%Z, (Z.to_N (t mod 1000000000)). assert (A := Z.mod_pos_bound t 1000000000). assert (B := Z.div_mod t 1000000000).
  split; [lia|]. split; [lia|]. unfold struct_text. cbn [map join fst snd]. unfold dbg_date, dbg_retry, dbg_time. rewrite <- !app_assoc. split; [|reflexivity]. destruct k; reflexivity.
Qed.

(** Nothing of a connection, of stored values or of an expectation is printed: constant texts. *)
Theorem C100_hidden : dbg_connection = struct_text "Connection"%string [("inner"%string, dbg_str (fun _ => false) (lit "Box<dyn Asyncread + AsyncWrite + Send + Sync + Unpin>"))] /\
  dbg_extensions = lit "Extensions" /\ dbg_expect = struct_text "Expect"%string [("_priv"%string, lit "()")].
Proof. vm_compute. auto. Qed.

(** ** The contract can be met *)
(** Every digit of the value. *)
Definition exact_f32 (x : float) : str :=
  match x with Fin _ v => let t := v * 5 ^ 149 in show_dec (t / 10 ^ 149) ++ 46 :: last_digits 149 t | _ => [] end.
Theorem C100_f32_contract : f32_contract exact_f32.
Proof.
  intros x (v & c & -> & L & G). unfold exact_f32. cbv zeta. split.
  - eapply forallb_impl; [|apply point_chars]. intros d H. unfold number_char. apply orb_true_iff in H as [-> | ->]; now rewrite ?orb_true_r.
  - set (t := v * 5 ^ 149). destruct (last_digits_spec 149 t) as (Ll & Ld & Lv).
    assert (Ln : last_digits 149 t <> []) by (intros E; rewrite E in Ll; discriminate Ll).
    rewrite (parse_point f32_format _ _ (show_dec_digits _) (show_dec_nonempty _) Ld Ln).
    rewrite dec_val_snoc_app by exact Ld. rewrite Ll, Lv, dec_val_show.
    change (N.of_nat 149) with 149. rewrite (N.mul_comm (t / 10 ^ 149)). rewrite <- N.div_mod by (apply N.pow_nonzero; discriminate).
    f_equal. unfold round_ratio. change (prec f32_format - 1) with 23. change (unit f32_format) with 149.
    assert (P10 : 0 < 10 ^ 149) by (apply N.neq_0_lt_0, N.pow_nonzero; discriminate).
    replace (t * 2 ^ 149) with (v * 10 ^ 149).
    2:{ unfold t. rewrite <- N.mul_assoc, <- N.pow_mul_l. reflexivity. }
    rewrite N.div_mul by (apply N.neq_0_lt_0; exact P10). set (g := 2 ^ (N.log2 v - 23)) in *.
    assert (Gp : 0 < g) by apply pow2_pos.
    rewrite (rhe_multiple (v * 10 ^ 149) (10 ^ 149 * g) c).
    + rewrite <- G. replace (v <? 2 ^ (emax f32_format + 149)) with true; [reflexivity|]. symmetry. apply N.ltb_lt. apply N.le_lt_trans with (1 := L). apply N.pow_lt_mono_r; reflexivity.
    + apply N.mul_pos_pos; assumption.
    + rewrite G at 1. set (y := 10 ^ 149). clearbody y. clear. lia.
Qed.
Example C100_more_example :
  let ascii_only := fun _ : N => false in let half := Fin false (2 ^ 148) in let printer := fun x : float => match x with Fin _ _ => lit "0.5" | _ => [] end in
  real_f32 half /\
  dbg_accept printer ([Proposal Gzip (Some half); Proposal Identity None], true) =
    lit "[EncodingProposal { encoding: Gzip, weight: Some(0.5) }, EncodingProposal { encoding: Identity, weight: None }]" /\
  dbg_hsts (Hsts (Dur 31536000 0) true false) = lit "StrictTransportSecurity { max_age: 31536000s, include_subdomains: true, preload: false }" /\
  dbg_date Expires 1500000000%Z = lit "Expires { instant: SystemTime { tv_sec: 1, tv_nsec: 500000000 } }" /\ dbg_date DateHeader (-1)%Z = lit "Date { at: SystemTime { tv_sec: -1, tv_nsec: 999999999 } }" /\
  dbg_retry (After (Dur 5 0)) = lit "RetryAfter { inner: Duration(5s) }" /\ dbg_retry (At 0%Z) = lit "RetryAfter { inner: SystemTime(SystemTime { tv_sec: 0, tv_nsec: 0 }) }" /\
  dbg_report ascii_only (Report (Some (lit "g")) (-5)%Z [lit "https://a"] None) =
    lit "ReportTo { group: Some(""g""), max_age: -5, endpoints: [ReportToEndpoint { url: ""https://a"" }], include_subdomains: None }" /\
  dbg_origins (fun u : str => dbg_str ascii_only u) ([lit "a"; lit "b"], true) = lit "[""a"", ""b""]".
Proof. cbn zeta. split; [exists (2 ^ 148), (2 ^ 23); repeat split; discriminate|]. vm_compute. repeat split. Qed.
(** The wildcard is not printed here either. *)
Theorem C100_more_hidden : forall shown (fl : float -> str) url (pu : url -> str) a m o, dbg_accept fl (a, true) = dbg_accept fl (a, false) /\
  dbg_media_list shown fl (m, true) = dbg_media_list shown fl (m, false) /\ dbg_origins pu (o, true) = dbg_origins pu (o, false).
Proof. intros. repeat split. Qed.
Print Assumptions C100_ages.
Print Assumptions C100_lengths.
Print Assumptions C100_transport_security.
Print Assumptions C100_dates.
Print Assumptions C100_retry_after.
Print Assumptions C100_hidden.
Print Assumptions C100_content_type.
Print Assumptions C100_report_to.
Print Assumptions C100_encodings.
Print Assumptions C100_accept.
Print Assumptions C100_urls.
Print Assumptions C100_more_structs.
Print Assumptions C100_instants.
Print Assumptions C100_f32_contract.
Print Assumptions C100_more_hidden.

(** ** The numbers that are printed *)
(** What a run of decimal digits is worth. *)
Definition worth (s : str) : N := fold_left (fun a c => a * 10 + (c - 48)) s 0.

Lemma worth_digits : forall s acc, forallb is_digit s = true -> digits_val 10 acc s = Some (fold_left (fun a c => a * 10 + (c - 48)) s acc).
Proof.
  induction s as [|c s IH]; intros acc D; [reflexivity|]. cbn [forallb] in D. apply andb_prop in D as [C D]. cbn [digits_val fold_left].
  unfold char_digit, is_digit in *. replace ((48 <=? c) && (c <=? 57)) with true by lia. replace (c - 48 <? 10) with true by lia. apply IH, D.
Qed.
Lemma worth_parse : forall s m n, forallb is_digit s = true -> parse_uint 10 m s = Some n -> worth s = n.
Proof.
  intros [|c s] m n D P; [discriminate P|]. unfold parse_uint in P.
  assert (B : (c =? 43) = false) by (cbn [forallb] in D; unfold is_digit in D; lia). cbv zeta in P. rewrite B in P.
  rewrite (worth_digits (c :: s) 0 D) in P. fold (worth (c :: s)) in P. destruct (worth (c :: s) <=? m); congruence.
Qed.
Lemma worth_show : forall n, worth (show_dec n) = n.
Proof. intros n. apply (worth_parse _ n); [apply show_dec_digits|]. apply parse_show_dec. lia. Qed.
Lemma worth_zeros : forall b a, forallb (N.eqb 48) b = true -> worth (a ++ b) = worth a * 10 ^ N.of_nat (length b).
Proof.
  intros b a Z. unfold worth. rewrite fold_left_app. generalize (fold_left (fun a c => a * 10 + (c - 48)) a 0). clear a. intros n. revert n Z.
  induction b as [|c b IH]; intros n Z; cbn [fold_left length].
  - change (10 ^ N.of_nat 0) with 1. lia.
  - cbn [forallb] in Z. apply andb_prop in Z as [C Z]. rewrite IH by exact Z. replace (N.of_nat (S (length b))) with (N.succ (N.of_nat (length b))) by lia. rewrite N.pow_succ_r'. replace (c - 48) with 0 by lia. lia.
Qed.
Lemma pad_digits : forall w n, forallb is_digit (pad_left w 48 (show_dec n)) = true.
Proof. intros w n. unfold pad_left. rewrite forallb_app, show_dec_digits, andb_true_r. apply forallb_forall. intros c I. apply repeat_spec in I. now subst c. Qed.

(** [f] is the fraction of a decimal number, without trailing zeros; the number is [i] and [f] after the point. *)
Lemma decimal_text : forall i a w, a < 10 ^ N.of_nat (S w) -> exists f, dbg_decimal i a (S w) = show_dec i ++ match f with [] => [] | _ => [46] ++ f end /\
  forallb is_digit f = true /\ (forall g, f <> g ++ [48]) /\ a * 10 ^ N.of_nat (length f) = worth f * 10 ^ N.of_nat (S w).
Proof.
  intros i a w B. unfold dbg_decimal. destruct (N.eqb_spec a 0) as [->|Z].
  - exists []. split; [reflexivity|]. split; [reflexivity|]. split; [intros g H; destruct g; discriminate H|]. change (worth []) with 0. lia.
  - set (p := pad_left (S w) 48 (show_dec a)). destruct (trim_end_prefix (N.eqb 48) p) as (b & E & F).
    assert (T : forall g, trim_end_matches (N.eqb 48) p <> g ++ [48]).
    { intros g H. unfold trim_end_matches in H. apply (f_equal (@rev N)) in H. rewrite rev_involutive, rev_app_distr in H. cbn [rev app] in H.
      revert H. generalize (rev p). intros q. induction q as [|c q IH]; cbn [drop_while]; [discriminate|]. destruct (48 =? c) eqn:C; [exact IH|]. intros H. injection H as -> _. discriminate C. }
    revert E T. generalize (trim_end_matches (N.eqb 48) p). intros f E T.
    assert (D := pad_digits (S w) a). fold p in D. assert (V : worth p = a) by (apply (worth_parse _ a); [exact D|apply pad_value; lia]).
    assert (L := pad_length w a B). fold p in L. rewrite E in D, V, L. rewrite worth_zeros in V by exact F. rewrite forallb_app in D. apply andb_prop in D as [D _]. rewrite app_length in L.
    exists f. split; [destruct f; [|reflexivity]|].
    + exfalso. change (worth []) with 0 in V. lia.
    + repeat split; auto. rewrite <- V, <- N.mul_assoc, <- N.pow_add_r. do 2 f_equal. lia.
Qed.

(** A duration is printed as a decimal number of the largest unit that is not above it, without needless zeros; the number times the unit
    is the duration. *)
Theorem C100_duration_value : forall d, real_duration d -> exists i f u k,
  dbg_duration d = show_dec i ++ match f with [] => [] | _ => [46] ++ f end ++ u /\
  In (u, k) [(lit "s", 1000000000); (lit "ms", 1000000); ([181; 115], 1000); (lit "ns", 1)] /\ (0 < i \/ d = Dur 0 0) /\ (k = 1000000000 \/ i < 1000) /\
  forallb is_digit f = true /\ (forall g, f <> g ++ [48]) /\
  (secs d * 1000000000 + nanos d) * 10 ^ N.of_nat (length f) = (i * 10 ^ N.of_nat (length f) + worth f) * k.
Proof.
  intros [s n] R. unfold real_duration in R. cbn [nanos secs] in *. unfold dbg_duration. cbn [secs nanos].
  assert (X : forall i a w u, a < 10 ^ N.of_nat (S w) -> exists f, dbg_decimal i a (S w) ++ u = show_dec i ++ match f with [] => [] | _ => [46] ++ f end ++ u /\
    forallb is_digit f = true /\ (forall g, f <> g ++ [48]) /\ a * 10 ^ N.of_nat (length f) = worth f * 10 ^ N.of_nat (S w)).
  { intros i a w u A. destruct (decimal_text i a w A) as (f & E & H). exists f. rewrite E. split; [|exact H]. rewrite <- app_assoc. reflexivity. }
  destruct (0 <? s) eqn:S; [|destruct (1000000 <=? n) eqn:M; [|destruct (1000 <=? n) eqn:U]].
  - destruct (X s n 8%nat (lit "s") R) as (f & E & D & T & V). exists s, f, (lit "s"), 1000000000. split; [exact E|]. split; [left; reflexivity|].
    repeat split; auto; [left; lia|]. change (10 ^ N.of_nat 9) with 1000000000 in V. lia.
  - destruct (X (n / 1000000) (n mod 1000000) 5%nat (lit "ms")) as (f & E & D & T & V); [apply N.mod_lt; discriminate|].
    exists (n / 1000000), f, (lit "ms"), 1000000. split; [exact E|]. split; [right; left; reflexivity|].
    change (10 ^ N.of_nat 6) with 1000000 in V. repeat split; auto; [left; lia|right; lia|].
    assert (s = 0) as -> by lia. rewrite (N.div_mod' n 1000000) at 1. lia.
  - destruct (X (n / 1000) (n mod 1000) 2%nat [181; 115]) as (f & E & D & T & V); [apply N.mod_lt; discriminate|].
    exists (n / 1000), f, [181; 115], 1000. split; [exact E|]. split; [right; right; left; reflexivity|].
    change (10 ^ N.of_nat 3) with 1000 in V. repeat split; auto; [left; lia|right; lia|].
    assert (s = 0) as -> by lia. rewrite (N.div_mod' n 1000) at 1. lia.
  - exists n, [], (lit "ns"), 1. split; [reflexivity|]. split; [right; right; right; left; reflexivity|].
    assert (s = 0) as -> by lia. repeat split; auto; [destruct (N.eq_dec n 0) as [->|]; [now right|left; lia]|right; lia|intros g H; destruct g; discriminate H|].
    change (worth []) with 0. lia.
Qed.
(** A signed number is printed as its digits, behind a minus sign if it is negative. *)
Theorem C100_signed_value : forall z, exists ds, forallb is_digit ds = true /\ dbg_int z = (if (z <? 0)%Z then [45] else []) ++ ds /\
  z = (if (z <? 0)%Z then - Z.of_N (worth ds) else Z.of_N (worth ds))%Z.
Proof.
  intros z. exists (show_dec (Z.abs_N z)). split; [apply show_dec_digits|]. rewrite worth_show. split; [|destruct (z <? 0)%Z eqn:E; lia].
  unfold dbg_int. destruct (z <? 0)%Z; reflexivity.
Qed.
(** Retry-After with a duration. *)
Theorem C100_retry_duration : forall d, dbg_retry (After d) = struct_text "RetryAfter"%string [("inner"%string, tuple_text "Duration"%string (dbg_duration d))].
Proof. intros d. unfold struct_text, tuple_text, dbg_retry. cbn [map join fst snd]. rewrite <- !app_assoc. reflexivity. Qed.
Example C100_duration_value_example :
  real_duration (Dur 0 1250000) /\ dbg_duration (Dur 0 1250000) = lit "1.25ms" /\ worth (lit "25") = 25 /\ (0 * 1000000000 + 1250000) * 10 ^ 2 = (1 * 10 ^ 2 + 25) * 1000000 /\
  dbg_int (-60)%Z = lit "-60" /\ dbg_duration (Dur 0 0) = lit "0ns".
Proof. repeat split; vm_compute; reflexivity. Qed.
Print Assumptions C100_duration_value.
Print Assumptions C100_signed_value.
Print Assumptions C100_retry_duration.
