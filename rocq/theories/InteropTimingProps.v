(** C103, Server-Timing: what is read in a header written by the grammar of the W3C specification. *)
From Coq Require Import ZifyBool ZifyNat ZifyN Lia.
From Verif Require Import Base BaseFacts Headers HeadersFacts Typed TypedFacts Float FloatFacts FloatProps Cache Timing TimingProps NegotiateExactProps GrammarProps TimingGrammarProps Rfc InteropProps InteropReadProps InteropMediaProps.

(** server-timing-param = token OWS "=" OWS ( token / quoted-string ): the name and what the value stands for. *)
Definition assign (p : str) : str * option str :=
  match split_once 61 p with Some (n, v) => (strip n, Some (unquote (strip v))) | None => (strip p, None) end.
(** server-timing-metric = token *( OWS ";" OWS server-timing-param ): the name and the parameters. *)
Definition reading (e : str) : str * list (str * option str) := (strip (hd [] (cut true 59 Plain e)), map assign (tl (cut true 59 Plain e))).

(** The values this crate understands: tokens, and quoted strings without commas, semicolons, equals signs and escapes. *)
Definition simple_value (v : str) : Prop :=
  rfc_token v = true \/ exists t, v = 34 :: t ++ [34] /\ Forall (fun c => c <> 34 /\ c <> 92 /\ c <> 44 /\ c <> 59 /\ c <> 61) t.
(** A parameter with no white space after it; the value of "dur" is a number a [Duration] can hold. *)
Definition simple_param (p : str) : Prop := exists a0 n a b v, p = a0 ++ n ++ a ++ 61 :: b ++ v /\ ows a0 /\ ows a /\ ows b /\
  rfc_token n = true /\ simple_value v /\ (n = lit "dur" -> exists x, dur_text v x).
(** Each parameter once. *)
Definition simple_metric (e : str) : Prop :=
  rfc_token (fst (reading e)) = true /\ Forall simple_param (tl (cut true 59 Plain e)) /\ NoDup (map fst (snd (reading e))).

Lemma forall_exists : forall A B (P : A -> B -> Prop) l, Forall (fun a => exists b, P a b) l -> exists m, Forall2 P l m.
Proof. intros A B P l F. induction F as [|a l (b & H) _ (m & IH)]; [exists []; constructor|]. exists (b :: m). now constructor. Qed.
Lemma token_chars : forall s c, rfc_token s = true -> In c s -> 33 <= c <= 126 /\ c <> 34 /\ c <> 44 /\ c <> 59 /\ c <> 61.
Proof.
  intros s c T I. assert (W := rfc_wordy s T). destruct W as (W & _ & E & S).
  assert (Q := wordy_no s 34 W eq_refl). assert (K := wordy_no s 44 W eq_refl). rewrite no_char_in in E, S, Q, K.
  unfold rfc_token in T. apply andb_true_iff in T as [_ T]. rewrite forallb_forall in T. apply T in I as J. apply andb_true_iff in J as [J _]. split; [lia|]. repeat split; intros ->; contradiction.
Qed.
Lemma token_tight : forall s, rfc_token s = true -> tight s /\ no_edge is_ws s = true.
Proof.
  intros s T. split; apply no_edge_all; apply forallb_forall; intros c I; destruct (token_chars s c T I) as (R & _); unfold blank, is_ws; lia.
Qed.
Lemma ows_blank : forall w, ows w -> forallb blank w = true.
Proof. intros w F. apply forallb_forall. intros c I. unfold ows in F. rewrite Forall_forall in F. specialize (F c I). unfold blank. lia. Qed.
Lemma blank_ws : forall w, forallb blank w = true -> forallb is_ws w = true.
Proof. intros w F. eapply forallb_impl; [|exact F]. intros c. unfold blank, is_ws. lia. Qed.
Lemma value_tight : forall v, simple_value v -> tight v /\ v <> [] /\ (forall c v', v = c :: v' -> is_ws c = false) /\ ~ In 61 v /\ ~ In 59 v /\ ~ In 44 v.
Proof.
  intros v [T|(t & -> & F)].
  - destruct (token_tight v T) as [A B]. split; [exact A|]. assert (W := rfc_wordy v T). destruct W as (_ & NE & _). split; [exact NE|].
    split; [intros c v' ->; destruct (token_chars _ c T (or_introl eq_refl)) as (R & _); unfold is_ws; lia|].
    repeat split; intros I; destruct (token_chars v _ T I) as (_ & Q); lia.
  - split; [unfold tight, no_edge; change (34 :: t ++ [34]) with ((34 :: t) ++ [34]); rewrite rev_unit; reflexivity|]. split; [discriminate|]. split; [intros c v' E; injection E as <- _; reflexivity|].
    rewrite Forall_forall in F. repeat split; intros [E|I]; try discriminate E; apply in_app_iff in I as [I|[E|[]]]; try discriminate E; destruct (F _ I) as (X1 & X2 & X3 & X4 & X5); congruence.
Qed.
Lemma value_unquote : forall v, simple_value v -> desc_text v (unquote v).
Proof.
  intros v [T|(t & -> & F)].
  - right. destruct v as [|c v]; [discriminate T|]. assert (Q : c <> 34) by (destruct (token_chars _ c T (or_introl eq_refl)) as (_ & Q & _); exact Q).
    cbn [unquote]. apply N.eqb_neq in Q as Q'. rewrite Q'. split; [reflexivity|]. split; [intros r E; congruence|].
    intros r E. destruct (token_chars _ 34 T) as (_ & X & _); [rewrite E; apply in_or_app; right; now left|congruence].
  - left. cbn [unquote N.eqb Pos.eqb]. rewrite unescape_plain; [reflexivity| |]; apply no_char_in; intros I; rewrite Forall_forall in F; destruct (F _ I); lia.
Qed.
Lemma dur_unquote : forall v x, simple_value v -> dur_text v x -> unquote v = v.
Proof.
  intros v x _ (neg & p & q & D & _). apply decimal_chars in D as [D _]. destruct v as [|c v]; [reflexivity|]. cbn [unquote]. destruct (N.eqb_spec c 34) as [->|]; [discriminate D|reflexivity].
Qed.

Section Timing.
  Context (nanos_of : N -> N).
  (** What the metric read says against what is written. *)
  Definition told (e : str) (m : metric) : Prop :=
    m_name m = fst (reading e) /\
    m_desc m = match named (lit "desc") (snd (reading e)) with Some d => d | None => None end /\
    match named (lit "dur") (snd (reading e)) with
    | Some (Some v) => exists x, dur_text v x /\ m_dur m = Some (of_nanos (nanos_of x / 1000))
    | _ => m_dur m = None
    end.

  Definition item_says (b : str * option str) (i : timing_item) : Prop :=
    exists u, snd b = Some u /\
    match i with
    | TDur d => fst b = lit "dur" /\ exists x, dur_text u x /\ d = of_nanos (nanos_of x / 1000)
    | TDesc t => fst b = lit "desc" /\ t = u
    | TIgnored => fst b <> lit "dur" /\ fst b <> lit "desc"
    end.
  Lemma param_read : forall p, simple_param p -> exists i, timing_param nanos_of p i /\ item_says (assign p) i.
  Proof.
    intros p (a0 & n & a & b & v & -> & A0 & A & B & T & V & D). destruct (value_tight v V) as (Tv & NE & W & E61 & _). destruct (token_tight n T) as [Tn Wn].
    assert (NK : ~ In 61 (a0 ++ n ++ a)).
    { intros I. unfold ows in A0, A. rewrite Forall_forall in A0, A. apply in_app_iff in I as [I|I]; [specialize (A0 _ I); lia|]. apply in_app_iff in I as [I|I]; [|specialize (A _ I); lia].
      destruct (token_chars n _ T I) as (_ & Q). lia. }
    assert (AS : assign (a0 ++ n ++ a ++ 61 :: b ++ v) = (n, Some (unquote v))).
    { unfold assign. replace (a0 ++ n ++ a ++ 61 :: b ++ v) with ((a0 ++ n ++ a) ++ 61 :: b ++ v) by now rewrite <- !app_assoc.
      rewrite split_once_app by now apply no_char_in. f_equal; [|f_equal; f_equal].
      - unfold strip. rewrite trim_matches_pad; [now apply trim_matches_id|now apply ows_blank|now apply ows_blank].
      - unfold strip. rewrite <- (app_nil_r v) at 1. rewrite trim_matches_pad; [now apply trim_matches_id|now apply ows_blank|reflexivity]. }
    assert (KV : key_value (a0 ++ n ++ a ++ 61 :: b ++ v) n v).
    { exists (a0 ++ n ++ a), b, []. split; [now rewrite <- !app_assoc, app_nil_r|]. split; [exact NK|]. split; [exact E61|]. split; [exists a0, a; repeat split; [now apply blank_ws, ows_blank|now apply blank_ws, ows_blank|exact Wn]|].
      split; [now apply blank_ws, ows_blank|]. split; [exact W|now left]. }
    rewrite AS. destruct (seqb_spec n (lit "dur")) as [->|N1].
    - destruct (D eq_refl) as (x & X). exists (TDur (of_nanos (nanos_of x / 1000))). split; [exists (lit "dur"), v; split; [exact KV|]; split; [reflexivity|now exists x]|].
      exists (unquote v). split; [reflexivity|]. cbn [fst snd]. split; [reflexivity|]. exists x. rewrite (dur_unquote v x V X). now split.
    - destruct (seqb_spec n (lit "desc")) as [->|N2].
      + exists (TDesc (unquote v)). split; [exists (lit "desc"), v; split; [exact KV|]; split; [reflexivity|now apply value_unquote]|]. exists (unquote v). repeat split.
      + exists TIgnored. split; [exists n, v; split; [exact KV|]; now split|]. exists (unquote v). repeat split; assumption.
  Qed.
  Lemma descs_read : forall bs items, Forall2 item_says bs items -> NoDup (map fst bs) ->
    descs items = match named (lit "desc") bs with Some (Some t) => [t] | _ => [] end /\ (~ In (lit "desc") (map fst bs) -> descs items = []).
  Proof.
    intros bs items F. induction F as [|[n o] i bs items (u & E & H) F IH]; intros ND; [split; reflexivity|]. cbn [snd] in E. subst o. cbn [map fst] in ND, H. inversion ND as [|? ? NI ND']; subst.
    destruct (IH ND') as [IH1 IH2]. cbn [named]. destruct i as [d|t|]; cbn [descs flat_map app].
    - destruct H as [-> _]. change (seqb (lit "desc") (lit "dur")) with false. cbv iota. split; [exact IH1|]. intros X. apply IH2. intros I. apply X. now right.
    - destruct H as [-> ->]. rewrite seqb_refl. split; [|intros X; exfalso; apply X; now left]. apply f_equal. now apply IH2.
    - destruct H as [_ N]. destruct (seqb_spec (lit "desc") n) as [<-|_]; [congruence|]. split; [exact IH1|]. intros X. apply IH2. intros I. apply X. now right.
  Qed.
  Lemma durs_read : forall bs items, Forall2 item_says bs items -> NoDup (map fst bs) ->
    match named (lit "dur") bs with Some (Some v) => exists x, dur_text v x /\ durs items = [of_nanos (nanos_of x / 1000)] | _ => durs items = [] end /\
    (~ In (lit "dur") (map fst bs) -> durs items = []).
  Proof.
    intros bs items F. induction F as [|[n o] i bs items (u & E & H) F IH]; intros ND; [split; reflexivity|]. cbn [snd] in E. subst o. cbn [map fst] in ND, H. inversion ND as [|? ? NI ND']; subst.
    destruct (IH ND') as [IH1 IH2]. cbn [named]. destruct i as [d|t|]; cbn [durs flat_map app].
    - destruct H as [-> (x & X & ->)]. rewrite seqb_refl. split; [|intros Y; exfalso; apply Y; now left]. exists x. split; [exact X|]. apply f_equal. now apply IH2.
    - destruct H as [-> _]. change (seqb (lit "dur") (lit "desc")) with false. cbv iota. split; [exact IH1|]. intros X. apply IH2. intros I. apply X. now right.
    - destruct H as [N _]. destruct (seqb_spec (lit "dur") n) as [<-|_]; [congruence|]. split; [exact IH1|]. intros X. apply IH2. intros I. apply X. now right.
  Qed.
  Lemma param_chars : forall p, simple_param p -> ~ In 59 p /\ ~ In 44 p.
  Proof.
    intros p (a0 & n & a & b & v & -> & A0 & A & B & T & V & _). destruct (value_tight v V) as (_ & _ & _ & _ & V59 & V44). unfold ows in *. rewrite Forall_forall in A0, A, B.
    split; intros I; repeat (apply in_app_iff in I as [I|I]; [first [specialize (A0 _ I); lia|specialize (A _ I); lia|destruct (token_chars n _ T I) as (_ & Q); lia]|]);
      (destruct I as [I|I]; [discriminate I|]); apply in_app_iff in I as [I|I]; try contradiction; specialize (B _ I); lia.
  Qed.
  Lemma metric_pieces : forall e, simple_metric e -> exists nt ps, cut true 59 Plain e = nt :: ps /\ e = nt ++ flat_map (fun p => 59 :: p) ps /\ ~ In 59 nt /\ ~ In 44 nt /\ trim nt = strip nt.
  Proof.
    intros e (T & _ & _). unfold reading in T. cbn [fst] in T. assert (J := cut_rejoin true 59 e Plain). destruct (cut true 59 Plain e) as [|nt ps] eqn:C; [now elim (cut_nonempty true 59 e Plain)|]. cbn [hd] in T.
    exists nt, ps. split; [reflexivity|]. split.
    - rewrite <- J. clear. revert nt. induction ps as [|p ps IH]; intros nt; [cbn [join flat_map]; now rewrite app_nil_r|]. change (nt ++ [59] ++ join [59] (p :: ps) = nt ++ (59 :: p) ++ flat_map (fun p : str => 59 :: p) ps). apply f_equal. cbn [app]. apply f_equal. exact (IH p).
    - assert (K : forall c, In c nt -> c = 32 \/ c = 9 \/ (33 <= c <= 126 /\ c <> 34 /\ c <> 44 /\ c <> 59 /\ c <> 61)).
      { intros c I. destruct (trim_matches_decomp blank nt) as (a & b & E & A & B). rewrite forallb_forall in A, B. rewrite E in I. apply in_app_iff in I as [I|I]; [apply A in I; unfold blank in I; lia|].
        apply in_app_iff in I as [I|I]; [right; right; now apply (token_chars (strip nt))|apply B in I; unfold blank in I; lia]. }
      split; [intros I; specialize (K _ I); lia|]. split; [intros I; specialize (K _ I); lia|]. apply trim_strip. unfold field. apply Forall_forall. intros c I. specialize (K _ I). lia.
  Qed.

  (** Every metric is read in order, with its name, its description unquoted and the duration nearest to its number; parameters
      with other names are passed over. *)
  Theorem C103_server_timing : forall h vs, h_get h (lit "server-timing") = Some vs -> Forall field vs -> Forall (dense true) vs ->
    Forall simple_metric (all_elements true vs) ->
    exists ms, timing_from_headers nanos_of h = Ok (Some ms) /\ Forall2 told (all_elements true vs) ms.
  Proof.
    intros h vs G F D S.
    assert (K : exists ms, Forall2 (fun e m => timing_entry nanos_of e m /\ told e m) (all_elements true vs) ms).
    { apply forall_exists. eapply Forall_impl; [|exact S]. intros e M. destruct (metric_pieces e M) as (nt & ps & C & E & N59 & _ & TS). destruct M as (T & P & ND).
      unfold reading in *. rewrite C in *. cbn [hd tl fst snd] in *.
      assert (X : exists items, Forall2 (fun p i => timing_param nanos_of p i /\ item_says (assign p) i) ps items) by (apply forall_exists; eapply Forall_impl; [|exact P]; exact param_read).
      destruct X as (items & X).
      assert (X1 : Forall2 (timing_param nanos_of) ps items) by (clear - X; induction X as [|p i ps items [H _] _ IH]; constructor; assumption).
      assert (X2 : Forall2 item_says (map assign ps) items) by (clear - X; induction X as [|p i ps items [_ H] _ IH]; constructor; assumption).
      destruct (descs_read _ _ X2 ND) as [De _]. destruct (durs_read _ _ X2 ND) as [Du _].
      exists (Metric (strip nt) (last_opt (durs items)) (last_opt (descs items))). split.
      - exists nt, ps, items. split; [exact E|]. split; [exact N59|]. split; [eapply Forall_impl; [|exact P]; intros p H; now apply param_chars|].
        split; [apply around_trim; cbn [m_name]; now rewrite TS|]. repeat split. exact X1.
      - unfold told, reading. rewrite C. cbn [hd tl fst snd m_name m_desc m_dur]. split; [reflexivity|]. split.
        + rewrite De. destruct (named (lit "desc") (map assign ps)) as [[t|]|]; reflexivity.
        + destruct (named (lit "dur") (map assign ps)) as [[v|]|]; [destruct Du as (x & H & ->); exists x; now split|now rewrite Du|now rewrite Du]. }
    destruct K as (ms & K). exists ms. split.
    - apply (C94_server_timing nanos_of h vs ms G). apply (spell_read _ _ true).
      + exact F.
      + apply bare_of_pieces. rewrite elements_dense by exact D. eapply Forall_impl; [|exact S]. intros e M. destruct (metric_pieces e M) as (nt & ps & C & E & _ & N44 & _). destruct M as (_ & P & _). rewrite C in P. cbn [tl] in P.
        intros I. rewrite E in I. apply in_app_iff in I as [I|I]; [contradiction|]. apply in_flat_map in I as (p & J & I). rewrite Forall_forall in P. destruct I as [I|I]; [discriminate I|]. now apply (param_chars p (P p J)).
      + rewrite elements_dense by exact D. clear - K. induction K as [|e m es ms [H _] _ IH]; constructor; assumption.
    - clear - K. induction K as [|e m es ms [_ H] _ IH]; constructor; assumption.
  Qed.
End Timing.
Print Assumptions C103_server_timing.
Example C103_server_timing_example : forall v, v = lit "db ; dur = 53;desc=""all rows"", cache;hit=yes;desc=x" ->
  map reading (all_elements true [v]) =
    [(lit "db", [(lit "dur", Some (lit "53")); (lit "desc", Some (lit "all rows"))]); (lit "cache", [(lit "hit", Some (lit "yes")); (lit "desc", Some (lit "x"))])] /\
  timing_from_headers cut_nanos [(lit "server-timing", [v])] = Ok (Some [Metric (lit "db") (Some (Dur 0 53000000)) (Some (lit "all rows")); Metric (lit "cache") None (Some (lit "x"))]) /\
  Forall simple_metric (all_elements true [v]) /\ dense true v.
Proof.
  intros v ->. split; [vm_compute; reflexivity|]. split; [vm_compute; reflexivity|]. split.
  - change (all_elements true [lit "db ; dur = 53;desc=""all rows"", cache;hit=yes;desc=x"]) with [lit "db ; dur = 53;desc=""all rows"""; lit "cache;hit=yes;desc=x"].
    apply Forall_forall. intros e [<-|[<-|[]]]; (split; [reflexivity|split]).
    + change (tl (cut true 59 Plain (lit "db ; dur = 53;desc=""all rows"""))) with [lit " dur = 53"; lit "desc=""all rows"""]. apply Forall_forall. intros p [<-|[<-|[]]].
      * exists (lit " "), (lit "dur"), (lit " "), (lit " "), (lit "53"). split; [reflexivity|]. split; [repeat constructor|]. split; [repeat constructor|]. split; [repeat constructor|]. split; [reflexivity|].
        split; [left; reflexivity|]. intros _. destruct (dur_cases cut_nanos (lit "53")) as [(x & d & _ & _ & y & Y & _)|[(x & P & Q & _)|P]]; [now exists y|vm_compute in P; injection P as <-; discriminate Q|discriminate P].
      * exists [], (lit "desc"), [], [], (lit """all rows"""). split; [reflexivity|]. split; [constructor|]. split; [constructor|]. split; [constructor|]. split; [reflexivity|]. split; [|intros X; discriminate X].
        right. exists (lit "all rows"). split; [reflexivity|]. apply Forall_forall. intros c I. vm_compute in I. repeat (destruct I as [<-|I]; [lia|]). destruct I.
    + vm_compute. repeat constructor; intros I; cbn [In] in I; intuition discriminate.
    + change (tl (cut true 59 Plain (lit "cache;hit=yes;desc=x"))) with [lit "hit=yes"; lit "desc=x"]. apply Forall_forall. intros p [<-|[<-|[]]].
      * exists [], (lit "hit"), [], [], (lit "yes"). split; [reflexivity|]. split; [constructor|]. split; [constructor|]. split; [constructor|]. split; [reflexivity|]. split; [left; reflexivity|intros X; discriminate X].
      * exists [], (lit "desc"), [], [], (lit "x"). split; [reflexivity|]. split; [constructor|]. split; [constructor|]. split; [constructor|]. split; [reflexivity|]. split; [left; reflexivity|intros X; discriminate X].
    + vm_compute. repeat constructor; intros I; cbn [In] in I; intuition discriminate.
  - apply Forall_forall. intros e I. vm_compute in I. destruct I as [<-|[<-|[]]]; vm_compute; discriminate.
Qed.

(** White space before a semicolon, a comma, a semicolon or an escape in a quoted string, a number in quotes: all are valid, and
    none is read as it is meant.  Of two durations the first counts in the specification, the last here. *)
Theorem C103_server_timing_refuted : exists a b c d e f, let get v := timing_from_headers cut_nanos [(lit "server-timing", [v])] in
  map reading (elements true a) = [(lit "db", [(lit "desc", Some (lit "x")); (lit "hit", Some (lit "1"))])] /\ get a = Err 400 /\
  map reading (elements true b) = [(lit "db", [(lit "desc", Some (lit "x, y"))])] /\ get b = Err 400 /\
  map reading (elements true c) = [(lit "db", [(lit "desc", Some (lit "x;y=z"))])] /\ get c = Err 400 /\
  map reading (elements true d) = [(lit "db", [(lit "desc", Some (lit "x""y"))])] /\ get d = Ok (Some [Metric (lit "db") None (Some (lit "x\""y"))]) /\
  map reading (elements true e) = [(lit "db", [(lit "dur", Some (lit "5"))])] /\ get e = Err 400 /\
  map reading (elements true f) = [(lit "db", [(lit "dur", Some (lit "1")); (lit "dur", Some (lit "2"))])] /\ get f = Ok (Some [Metric (lit "db") (Some (Dur 0 2000000)) None]).
Proof.
  exists (lit "db;desc=""x"" ;hit=1"), (lit "db;desc=""x, y"""), (lit "db;desc=""x;y=z"""), (lit "db;desc=""x\""y"""), (lit "db;dur=""5"""), (lit "db;dur=1;dur=2").
  vm_compute. repeat split.
Qed.
Print Assumptions C103_server_timing_refuted.
