(** C98, continued: Server-Timing, Forwarded, traceparent and the headers holding URLs. *)
From Coq Require Import ZifyBool ZifyNat ZifyN Lia.
From Verif Require Import Base BaseFacts Headers HeadersFacts Typed TypedFacts Float FloatFacts Cache Timing TimingProps Trace TraceProps Other OtherProps
  ParseUtils Forwarded ForwardedFacts ForwardedProps ExactProps AlikeProps.
Open Scope N_scope.

(** Trace contexts: by what is sent; the parent's id is not. *)
Theorem C98_trace_context : forall h c d, in_types c -> in_types d ->
  (context_apply h c = context_apply h d <-> ctx_version c = ctx_version d /\ ctx_trace c = ctx_trace d /\ ctx_id c = ctx_id d /\ ctx_flags c = ctx_flags d).
Proof.
  intros h c d C D. split.
  - intros E. apply apply_value_inj in E. now apply C63_injective.
  - intros (A & B & I & F). unfold context_apply, context_show. rewrite A, B, I, F. reflexivity.
Qed.
Print Assumptions C98_trace_context.
Example C98_trace_context_case : in_types (Context 5 0 7 None 1) /\ in_types (Context 5 0 7 (Some 3) 1) /\
  context_apply [] (Context 5 0 7 None 1) = context_apply [] (Context 5 0 7 (Some 3) 1).
Proof. split; [|split; [|reflexivity]]; repeat split; cbn; try lia; intros p E; inversion E; subst; lia. Qed.

(** Server-Timing: metrics in the same order with the same names, descriptions and milliseconds. *)
Definition same_metric (a b : metric) : Prop :=
  m_name a = m_name b /\ m_desc a = m_desc b /\
  match m_dur a, m_dur b with Some d, Some e => as_millis d = as_millis e | None, None => True | _, _ => False end.
Definition separate (m : metric) : Prop := ~ In 44 (m_name m) /\ ~ In 59 (m_name m) /\ forall t, m_desc m = Some t -> ~ In 44 t.

Section Server.
  Context (show_f64 : N -> str) (C : show_contract show_f64).
  Lemma shown_free : forall c d, is_digit c || (c =? 46) = false -> no_char c (show_f64 (as_millis d)) = true.
  Proof using C.
    intros c d D. destruct (C d) as (_ & F & _). unfold no_char. eapply forallb_impl; [|exact F]. cbv beta. intros x X. destruct (N.eqb_spec x c) as [->|]; [congruence|reflexivity].
  Qed.
  Lemma shown_inj : forall d e, show_f64 (as_millis d) = show_f64 (as_millis e) -> as_millis d = as_millis e.
  Proof using C. intros d e E. destruct (C d) as (_ & _ & P), (C e) as (_ & _ & Q). rewrite E in P. rewrite P in Q. now injection Q. Qed.
  Lemma no_in : forall c s, no_char c s = true <-> ~ In c s.
  Proof using. intros c s. unfold no_char. rewrite forallb_forall. split; [intros H I; apply H in I; rewrite N.eqb_refl in I; discriminate I|intros H x I]. destruct (N.eqb_spec x c) as [->|]; [contradiction|reflexivity]. Qed.
  Lemma metric_comma : forall m, separate m -> no_char 44 (metric_value show_f64 m) = true.
  Proof using C.
    intros [n o t] (N & _ & T). cbn [m_name m_desc] in *. unfold metric_value. cbn [m_name m_dur m_desc]. rewrite no_char_app, (proj2 (no_in _ _) N). cbn [andb].
    destruct o as [d|], t as [t|]; rewrite ?no_char_app; rewrite ?(shown_free 44 _ eq_refl), ?(proj2 (no_in _ _) (T _ eq_refl)); reflexivity.
  Qed.
  Definition after (m : metric) : str :=
    match m_dur m, m_desc m with
    | Some d, Some t => lit "; dur=" ++ show_f64 (as_millis d) ++ lit "; desc=""" ++ t ++ lit """"
    | Some d, None => lit "; dur=" ++ show_f64 (as_millis d)
    | None, Some t => lit "; desc=""" ++ t ++ lit """"
    | None, None => []
    end.
  Lemma after_semi : forall m, after m = [] \/ exists t, after m = 59 :: t.
  Proof using. intros [n [d|] [t|]]; unfold after; cbn [m_dur m_desc]; [right|right|right|left; reflexivity]; eexists; reflexivity. Qed.
  Lemma metric_alike : forall a b, separate a -> separate b -> (metric_value show_f64 a = metric_value show_f64 b <-> same_metric a b).
  Proof using C.
    intros a b (_ & A & _) (_ & B & _). split.
    - intros E. change (m_name a ++ after a = m_name b ++ after b) in E.
      destruct (app_sep 59 _ _ _ _ (proj2 (no_in _ _) A) (proj2 (no_in _ _) B) (after_semi a) (after_semi b) E) as [N R]. split; [exact N|]. clear - R C.
      destruct a as [na [d|] [t|]], b as [nb [e|] [u|]]; unfold after in R; cbn [m_dur m_desc] in *; try discriminate R.
      + change (lit "; dur=" ++ (show_f64 (as_millis d) ++ (lit "; desc=""" ++ t ++ lit """")) = lit "; dur=" ++ (show_f64 (as_millis e) ++ (lit "; desc=""" ++ u ++ lit """"))) in R.
        apply app_inv_head in R.
        destruct (app_sep 59 _ _ _ _ (shown_free 59 d eq_refl) (shown_free 59 e eq_refl) (or_intror (ex_intro _ _ eq_refl)) (or_intror (ex_intro _ _ eq_refl)) R) as [S T].
        change (lit "; desc=""" ++ t ++ lit """" = lit "; desc=""" ++ u ++ lit """") in T. apply app_inv_head in T. apply app_inv_tail in T. split; [congruence|now apply shown_inj].
      + exfalso. apply app_inv_head in R. assert (X := shown_free 59 e eq_refl). rewrite <- R, no_char_app in X. apply andb_true_iff in X as [_ X]. discriminate X.
      + exfalso. apply app_inv_head in R. assert (X := shown_free 59 d eq_refl). rewrite R, no_char_app in X. apply andb_true_iff in X as [_ X]. discriminate X.
      + apply app_inv_head in R. split; [reflexivity|now apply shown_inj].
      + apply app_inv_head in R. apply app_inv_tail in R. split; [congruence|exact I].
      + split; [reflexivity|exact I].
    - destruct a as [na [d|] ta], b as [nb [e|] tb]; intros (N & T & D); cbn [m_name m_desc m_dur] in *; subst; try contradiction; unfold metric_value; cbn [m_name m_desc m_dur]; rewrite ?D; reflexivity.
  Qed.
  Theorem C98_server_timing : forall h a b, a <> [] -> b <> [] -> Forall separate a -> Forall separate b ->
    (timing_apply show_f64 h a = timing_apply show_f64 h b <-> Forall2 same_metric a b).
  Proof using C.
    intros h a b Na Nb Fa Fb. split.
    - intros E. apply apply_value_inj in E. unfold timing_value in E.
      (* the pieces at the commas are the metrics with a space in front of all but the first *)
      assert (S : forall l, l <> [] -> Forall separate l -> split 44 (join (lit ", ") (map (metric_value show_f64) l)) =
        match map (metric_value show_f64) l with x :: r => x :: map (cons 32) r | [] => [] end).
      { intros l. induction l as [|x l IH]; intros N F; [congruence|]. inversion F as [|? ? X Y]; subst. destruct l as [|y l]; [cbn [map join]; now rewrite split_no_char by (now apply metric_comma)|].
        change (join (lit ", ") (map (metric_value show_f64) (x :: y :: l))) with (metric_value show_f64 x ++ 44 :: 32 :: join (lit ", ") (map (metric_value show_f64) (y :: l))).
        rewrite split_app by (now apply metric_comma). specialize (IH ltac:(discriminate) Y). cbn [map] in IH |- *.
        rewrite (split_cons_other 44 32 _ eq_refl). rewrite IH. reflexivity. }
      assert (E' := f_equal (split 44) E). rewrite !S in E' by assumption. clear E S h.
      destruct a as [|x a]; [congruence|]. destruct b as [|y b]; [congruence|]. cbn [map] in E'. injection E' as E1 E2. inversion Fa as [|? ? X Fa']; inversion Fb as [|? ? Y Fb']; subst.
      constructor; [now apply metric_alike|]. clear - E2 Fa' Fb' C. revert b E2 Fb'. induction a as [|x a IH]; intros [|y b] E2 Fb'; try discriminate E2; [constructor|].
      cbn [map] in E2. injection E2 as E1 E2. inversion Fa' as [|? ? X Fa]; inversion Fb' as [|? ? Y Fb]; subst. constructor; [now apply metric_alike|now apply IH].
    - intros F. unfold timing_apply. f_equal. unfold timing_value. f_equal. clear Na Nb. induction F as [|x y a b S F IH]; [reflexivity|]. inversion Fa as [|? ? X Fa']; inversion Fb as [|? ? Y Fb']; subst.
      cbn [map]. f_equal; [now apply metric_alike|now apply IH].
  Qed.
End Server.
Print Assumptions C98_server_timing.
(** Otherwise not: no metric and one without a name; a description with a comma; a name with a semicolon; durations whose milliseconds round to the same f64. *)
Theorem C98_server_timing_collision : forall show_f64 h,
  timing_apply show_f64 h [] = timing_apply show_f64 h [Metric [] None None] /\
  timing_apply show_f64 h [Metric (lit "a") None (Some (lit "b"", c; desc=""d"))] =
    timing_apply show_f64 h [Metric (lit "a") None (Some (lit "b")); Metric (lit "c") None (Some (lit "d"))] /\
  timing_apply show_f64 h [Metric (lit "a") None (Some (lit "b"))] = timing_apply show_f64 h [Metric (lit "a; desc=""b""") None None] /\
  timing_apply show_f64 h [Metric (lit "a") (Some (Dur (2 ^ 53) 0)) None] = timing_apply show_f64 h [Metric (lit "a") (Some (Dur (2 ^ 53) 1)) None].
Proof.
  intros sh h. split; [reflexivity|]. split; [reflexivity|]. split; [reflexivity|]. unfold timing_apply, timing_value, metric_value. cbn [map m_name m_dur m_desc].
  assert (as_millis (Dur (2 ^ 53) 0) = as_millis (Dur (2 ^ 53) 1)) as -> by (vm_compute; reflexivity). reflexivity.
Qed.
Print Assumptions C98_server_timing_collision.
Example C98_server_timing_case : separate (Metric (lit "db") (Some (from_secs 3)) (Some (lit "a ""q"" b; x=y"))) /\ separate (Metric [] None None).
Proof. unfold separate. cbn [m_name m_desc]. repeat split; try (vm_compute; intuition discriminate); intros t E; inversion E; subst; vm_compute; intuition discriminate. Qed.

(** Forwarded, for what can be written and read. *)
Definition writable_forwarding (f : forwarded) : Prop :=
  opt_token (fw_by f) /\ opt_token (fw_host f) /\ opt_token (fw_proto f) /\ Forall for_value (fw_for f) /\ (fw_for f <> [] \/ fw_host f = None /\ fw_proto f = None).
Theorem C98_forwarded : forall f g, writable_forwarding f -> writable_forwarding g -> (fw_value f = fw_value g <-> f = g) /\ exists t, fw_value f = Ok t.
Proof.
  intros f g (B & H & P & F & N) (B' & H' & P' & F' & N'). destruct (C35_round_trip_partial f B H P F N) as (s & V & _ & R).
  destruct (C35_round_trip_partial g B' H' P' F' N') as (t & W & _ & Q). split; [|exists s; exact V]. split; [|intros ->; reflexivity].
  intros E. rewrite V, W in E. injection E as <-. rewrite R in Q. now injection Q.
Qed.
Print Assumptions C98_forwarded.
Theorem C98_forwarded_collision : exists f g t, f <> g /\ fw_value f = Ok t /\ fw_value g = Ok t.
Proof.
  exists (set_host (add_for fw_new (lit "a")) (lit "h;proto=https")), (set_proto (set_host (add_for fw_new (lit "a")) (lit "h")) (lit "https")). eexists.
  split; [discriminate|]. split; vm_compute; reflexivity.
Qed.
Print Assumptions C98_forwarded_collision.
Example C98_forwarded_case : writable_forwarding (set_host (add_for (add_for fw_new (lit "192.0.2.43")) (lit "[::1]")) (lit "h")).
Proof.
  unfold writable_forwarding, set_host, add_for, fw_new. cbn [fw_by fw_host fw_proto fw_for app opt_token]. split; [exact I|]. split; [split; [discriminate|reflexivity]|]. split; [exact I|]. split; [|left; discriminate].
  constructor; [split; [discriminate|left; reflexivity]|]. constructor; [split; [discriminate|right; reflexivity]|constructor].
Qed.

(** Headers holding URLs, over any library whose printed URLs parse back. *)
Theorem C98_urls : forall (url : Type) (p : str -> option url) (j : url -> str -> option url) (s : url -> str), url_contract p j s -> forall h r u v,
  (location_apply s h u = location_apply s h v <-> u = v) /\ (reference_apply s r h u = reference_apply s r h v <-> u = v).
Proof.
  intros url p j s (P & _) h r u v. assert (I : s u = s v -> u = v) by (intros E; assert (X := P u); rewrite E, P in X; congruence).
  split; (split; [intros E; apply apply_value_inj in E; exact (I E)|intros ->; reflexivity]).
Qed.
Print Assumptions C98_urls.
Theorem C98_origins : forall (url : Type) (p : str -> option url) (j : url -> str -> option url) (s : url -> str), url_contract p j s -> forall h us w us' w',
  Forall (fun u => ~ In 44 (s u)) us -> Forall (fun u => ~ In 44 (s u)) us' ->
  (origins_apply s h (us, w) = origins_apply s h (us', w') <-> us = us' /\ w = w').
Proof.
  intros url p j s C h us w us' w' F F'. split; [|intros [-> ->]; reflexivity]. intros E.
  assert (R : forall us w, Forall (fun u => ~ In 44 (s u)) us -> us <> [] \/ w = true -> origins_from_headers p (origins_apply s h (us, w)) = Ok (Some (us, w))).
  { intros l b L N. now apply (C84_origins_partial url p j s C l b L). }
  assert (Z := C73_origins_empty p j s C h).
  assert (D : forall (l : list url) (b : bool), (l <> [] \/ b = true) \/ (l = [] /\ b = false)) by (intros [|x l] [|]; auto; left; left; discriminate).
  destruct (D us w) as [N|[-> ->]], (D us' w') as [N'|[-> ->]].
  - apply R in N, N'; try assumption. rewrite E in N. rewrite N in N'. injection N' as <- <-. auto.
  - apply R in N; [|assumption]. rewrite E, Z in N. discriminate N.
  - apply R in N'; [|assumption]. rewrite <- E, Z in N'. discriminate N'.
  - auto.
Qed.
Print Assumptions C98_origins.
Example C98_urls_case : url_contract toy_parse (fun _ => toy_parse) toy_show /\ origins_apply toy_show [] ([lit "a"], true) <> origins_apply toy_show [] ([lit "a"; lit "b"], true).
Proof. split; [exact toy_contract|]. vm_compute. discriminate. Qed.
