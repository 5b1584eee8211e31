(** C75, continued: which Forwarded headers are read, written and read again unchanged. *)
From Coq Require Import ZifyBool ZifyNat ZifyN Lia.
From Verif Require Import Base BaseFacts Headers HeadersFacts Typed TypedFacts ParseUtils Forwarded ForwardedFacts ForwardedProps ForwardedExactProps.

Lemma value_ascii : forall x, ev_ok x -> is_ascii (ev_val x) = true.
Proof.
  intros [t|e v] O; cbn [ev_ok ev_val] in *.
  - destruct O as [_ T]. unfold is_ascii. eapply forallb_impl; [|exact T]. intros c C. apply tchar_rfc in C. destruct C as (C & _). lia.
  - unfold is_ascii. induction O as [|c e v Q B IH|c e v Q B IH]; cbn [forallb]; [reflexivity| |]; rewrite IH; [apply andb_true_iff in Q as [-> _]; reflexivity|].
    replace (c <? 128) with true by lia. reflexivity.
Qed.
Lemma lax_secs : forall last l, lax_ok last l -> Forall sec_ok (map fst l).
Proof. intros last l. induction l as [|[s b] l IH]; intros L; cbn [map fst]; constructor; [apply L|apply IH, L]. Qed.
Lemma read_ascii : forall l, Forall sec_ok l ->
  Forall (fun v => is_ascii v = true) (fors l) /\ forall key, Forall (fun v => is_ascii v = true) (given key l).
Proof.
  intros l F. split; [|intros key]; apply Forall_forall; intros v I.
  - unfold fors in I. apply in_flat_map in I as (s & J & I). rewrite Forall_forall in F. apply F in J. destruct s as [k x more|k x]; cbn [sec_fors sec_ok] in *; [|destruct I].
    destruct J as (_ & X & M). destruct I as [<-|I]; [now apply value_ascii|]. apply in_map_iff in I as ([[w k'] y] & <- & I). rewrite Forall_forall in M. apply M in I. cbn [more_ok snd] in *. apply value_ascii, I.
  - unfold given in I. apply in_flat_map in I as (s & J & I). rewrite Forall_forall in F. apply F in J. destruct s as [k' x more|k' x]; [destruct I|]. cbn [sec_ok] in J.
    destruct (str_eq_dec k' key); [|destruct I]. destruct I as [<-|[]]. apply value_ascii, J.
Qed.
Lemma first_ascii : forall l, Forall (fun v => is_ascii v = true) l -> ascii_opt (hd_error l).
Proof. intros [|v l] F; cbn; [exact I|now inversion F]. Qed.

(** Those whose by, host and proto need no quotes, whose addresses are not empty and have no "!" beside characters that need quotes,
    and which have an address if they have a host or a protocol. *)
Theorem C75_forwarded_partial : forall s f, is_ascii s = true -> fw_parse s = Ok f ->
  ((exists t, fw_value f = Ok t /\ fw_parse t = Ok f) <->
   opt_token (fw_by f) /\ opt_token (fw_host f) /\ opt_token (fw_proto f) /\ Forall for_value (fw_for f) /\
   (fw_for f <> [] \/ fw_host f = None /\ fw_proto f = None)).
Proof.
  intros s f A P. apply (C37_accepted_iff s f A) in P as (l & L & _ & _ & ->). destruct (read_ascii _ (lax_secs _ _ L)) as [Fo Gi].
  apply C35_round_trip_iff; cbn [says fw_by fw_for fw_host fw_proto]; first [exact Fo|apply first_ascii, Gi].
Qed.
Print Assumptions C75_forwarded_partial.
Example C75_forwarded_example : exists f, is_ascii (lit "by=p;for=""[::1]"", for=b;proto=https") = true /\ fw_parse (lit "by=p;for=""[::1]"", for=b;proto=https") = Ok f /\
  opt_token (fw_by f) /\ opt_token (fw_host f) /\ opt_token (fw_proto f) /\ Forall for_value (fw_for f) /\ fw_for f = [lit "[::1]"; lit "b"].
Proof.
  eexists. split; [reflexivity|]. split; [vm_compute; reflexivity|]. cbn [fw_by fw_host fw_proto fw_for opt_token]. split; [split; [discriminate|reflexivity]|]. split; [exact I|]. split; [split; [discriminate|reflexivity]|].
  split; [|reflexivity]. constructor; [split; [discriminate|right; reflexivity]|]. constructor; [split; [discriminate|left; reflexivity]|constructor].
Qed.
(** Two that are not: an address that is empty, and a "!" that was escaped. *)
Theorem C75_forwarded_address_refuted : exists u v f g, fw_parse u = Ok f /\ fw_parse v = Ok g /\
  (forall t, fw_value f = Ok t -> fw_parse t = Err 500) /\ (forall t, fw_value g = Ok t -> fw_parse t = Err 500) /\ u = lit "for=""""" /\ v = lit "for=""a \!""".
Proof.
  exists (lit "for="""""), (lit "for=""a \!"""). eexists. eexists. split; [vm_compute; reflexivity|]. split; [vm_compute; reflexivity|].
  split; [intros t H; vm_compute in H; injection H as <-; vm_compute; reflexivity|]. split; [intros t H; vm_compute in H; injection H as <-; vm_compute; reflexivity|]. split; reflexivity.
Qed.
Print Assumptions C75_forwarded_address_refuted.
