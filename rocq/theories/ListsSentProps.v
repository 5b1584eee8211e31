(** C85, continued: the remaining list headers, built call by call, sent, read and iterated. *)
From Coq Require Import ZifyBool ZifyNat ZifyN Lia.
From Verif Require Import Base BaseFacts Headers HeadersFacts Typed TypedFacts Mime MimeFacts Float FloatFacts Negotiate NegotiateFacts NegotiateProps Other OtherProps
  Conditional ConditionalProps Cache Timing TimingProps TimingExactProps Lists ExactProps ListsProps.

(** Vary, whose names are stored in lower case. *)
Theorem C85_sent_vary : forall (ops : list (op str)) h, Forall building ops ->
  Forall (fun n => is_ascii n = true /\ to_lower n = n /\ ~ In 44 n /\ trim n = n /\ n <> lit "*") (pushed ops) ->
  (pushed ops <> [] \/ last_flag (rev ops) = true) -> ~ (pushed ops = [[]] /\ last_flag (rev ops) = true) ->
  exists h' c, vary_apply h (run ops) = Ok h' /\ vary_from_headers h' = Ok (Some c) /\ c_iter c = pushed ops /\ c_wildcard c = last_flag (rev ops).
Proof.
  intros ops h B F N S. rewrite run_pair by exact B. assert (X : survives_o vary_from_headers vary_apply (pushed ops, last_flag (rev ops))).
  { apply C84_vary; [eapply Forall_impl; [|exact F]; cbv beta; tauto|]. split; [eapply Forall_impl; [|exact F]; cbv beta; tauto|]. split; assumption. }
  destruct (X h) as (h' & A & R). exists h', (pushed ops, last_flag (rev ops)). repeat split; assumption.
Qed.
Print Assumptions C85_sent_vary.
(** Accept. *)
Theorem C85_sent_accept : forall (ops : list (op media_proposal)) h, Forall building ops ->
  Forall (fun p => (exists s, mime_parse s = Ok (mp_type p)) /\ thousandth (mp_weight p) /\ ~ In (lit "q") (map fst (params (mp_type p))) /\
                   forall n v, In (n, v) (params (mp_type p)) -> ~ In 44 v) (pushed ops) ->
  exists c, media_from_headers (media_apply h (run ops)) = Ok (Some c) /\ c_iter c = pushed ops /\ c_wildcard c = last_flag (rev ops).
Proof.
  intros ops h B F. apply (sent _ media_from_headers media_apply); [exact B|]. rewrite run_pair by exact B.
  apply C84_accept; (eapply Forall_impl; [|exact F]; cbv beta; tauto).
Qed.
Print Assumptions C85_sent_accept.
(** Timing-Allow-Origin, over any URL library whose printed URLs parse back. *)
Theorem C85_sent_origins : forall (url : Type) (p : str -> option url) (j : url -> str -> option url) (s : url -> str), url_contract p j s ->
  forall (ops : list (op url)) h, Forall building ops -> Forall (fun u => ~ In 44 (s u)) (pushed ops) -> (pushed ops <> [] \/ last_flag (rev ops) = true) ->
  exists c, origins_from_headers p (origins_apply s h (run ops)) = Ok (Some c) /\ c_iter c = pushed ops /\ c_wildcard c = last_flag (rev ops).
Proof.
  intros url p j s C ops h B F N. apply (sent _ (origins_from_headers p) (origins_apply s)); [exact B|]. rewrite run_pair by exact B.
  now apply (C84_origins_partial url p j s C).
Qed.
Print Assumptions C85_sent_origins.
(** Server-Timing, which has no wildcard. *)
Theorem C85_sent_server_timing : forall show_f64 nanos_of, show_contract show_f64 -> forall (ops : list (op metric)) h, Forall building ops ->
  pushed ops <> [] -> Forall (fun m => text_ok m /\ dur_back nanos_of (m_dur m)) (pushed ops) ->
  timing_from_headers nanos_of (timing_apply show_f64 h (c_iter (run ops))) = Ok (Some (pushed ops)).
Proof. intros sh nanos C ops h B N F. rewrite C85_built by exact B. apply C66_round_trip_iff; [exact C|]. split; assumption. Qed.
Print Assumptions C85_sent_server_timing.

Example C85_sent_more_example :
  let vs := [Push (lit "accept"); SetWildcard true; Push (lit "x-a b"); SetWildcard false] in
  let ms := [SetWildcard true; Push (MediaProposal MIME_JSON (milli 333)); Push (MediaProposal MIME_JSON (milli 1000))] in
  let us := [Push (lit "a"); Push (lit "b"); SetWildcard true] in
  let ts := [Push (Metric (lit "db") (Some (from_secs 3)) (Some (lit "Query 1"))); Push (Metric (lit "cache") None None)] in
  (exists h', vary_apply [] (run vs) = Ok h' /\ vary_from_headers h' = Ok (Some ([lit "accept"; lit "x-a b"], false))) /\
  media_from_headers (media_apply [] (run ms)) = Ok (Some ([MediaProposal MIME_JSON (milli 333); MediaProposal MIME_JSON (milli 1000)], true)) /\
  origins_from_headers toy_parse (origins_apply toy_show [] (run us)) = Ok (Some ([lit "a"; lit "b"], true)) /\
  timing_from_headers cut_nanos (timing_apply exact_show [] (c_iter (run ts))) = Ok (Some (pushed ts)).
Proof.
  intros vs ms us ts. split; [eexists; split; vm_compute; reflexivity|]. split; [vm_compute; reflexivity|]. split; [vm_compute; reflexivity|].
  rewrite C85_built by (repeat constructor). exact (proj1 (C66_example [])).
Qed.
