(** Properties C07-C12: methods, status codes, versions. *)
From Verif Require Import Base BaseFacts Method StatusCode.
From Coq Require Import ZifyBool ZifyNat ZifyN.

(** ** Specification: the IANA HTTP method registry, name and "safe" column. *)
Definition iana_methods : list (string * bool) :=
  [("ACL", false); ("BASELINE-CONTROL", false); ("BIND", false); ("CHECKIN", false);
   ("CHECKOUT", false); ("CONNECT", false); ("COPY", false); ("DELETE", false); ("GET", true);
   ("HEAD", true); ("LABEL", false); ("LINK", false); ("LOCK", false); ("MERGE", false);
   ("MKACTIVITY", false); ("MKCALENDAR", false); ("MKCOL", false); ("MKREDIRECTREF", false);
   ("MKWORKSPACE", false); ("MOVE", false); ("OPTIONS", true); ("ORDERPATCH", false);
   ("PATCH", false); ("POST", false); ("PRI", true); ("PROPFIND", true); ("PROPPATCH", false);
   ("PUT", false); ("REBIND", false); ("REPORT", true); ("SEARCH", true); ("TRACE", true);
   ("UNBIND", false); ("UNCHECKOUT", false); ("UNLINK", false); ("UNLOCK", false);
   ("UPDATE", false); ("UPDATEREDIRECTREF", false); ("VERSION-CONTROL", false)]%string.

Lemma lookup_method_some : forall t s m, lookup_method t s = Some m -> In (s, m) t.
Proof.
  induction t as [|[k m'] t IH]; cbn; intros s m H; [discriminate|].
  destruct (seqb s k) eqn:E; [|right; auto]. apply seqb_eq in E. inv H. subst. auto.
Qed.

Lemma lookup_method_str : forall m, lookup_method method_table (method_str m) = Some m.
Proof. destruct m; vm_compute; reflexivity. Qed.

Lemma table_str : forall s m, In (s, m) method_table -> s = method_str m.
Proof. intros s m H. cbv [method_table] in H. repeat (destruct H as [H|H]; [inv H; reflexivity|]). destruct H. Qed.

Lemma method_from_str_iff : forall s m, method_from_str s = Ok m <-> to_upper s = method_str m.
Proof.
  intros s m. unfold method_from_str, ok_or. split.
  - destruct (lookup_method method_table (to_upper s)) eqn:E; intros H; inv H.
    apply table_str, lookup_method_some, E.
  - intros ->. rewrite lookup_method_str. reflexivity.
Qed.

Lemma upper_of_lower : forall s t, to_lower s = to_lower t -> to_upper s = to_upper t.
Proof.
  induction s as [|a s IH]; destruct t as [|b t]; cbn; intros H; inv H; auto.
  f_equal; [|auto]. revert H1. unfold lower_char, upper_char, is_upper, is_lower.
  destruct ((65 <=? a) && (a <=? 90)) eqn:A, ((65 <=? b) && (b <=? 90)) eqn:B,
    ((97 <=? a) && (a <=? 122)) eqn:C, ((97 <=? b) && (b <=? 122)) eqn:D; lia.
Qed.

(** C07: a string parses to [m] exactly when its ASCII upper-casing is the printed name of [m];
    otherwise the result is an error (never a panic); printed names are pairwise distinct, are the
    registered names, and parsing does not see ASCII case. *)
Theorem C07_method_parse_iff : forall s m, method_from_str s = Ok m <-> to_upper s = method_str m.
Proof. exact method_from_str_iff. Qed.
Theorem C07_method_print_parse : forall m, method_from_str (method_str m) = Ok m.
Proof. intros m. apply C07_method_parse_iff. destruct m; vm_compute; reflexivity. Qed.
Theorem C07_method_names_distinct : forall m m', method_str m = method_str m' -> m = m'.
Proof.
  intros m m' H. assert (A := C07_method_print_parse m). rewrite H, C07_method_print_parse in A. congruence.
Qed.
Theorem C07_accepts_exactly_registered : forall s,
  (exists m, method_from_str s = Ok m) <-> In (to_upper s) (map (fun p => lit (fst p)) iana_methods).
Proof.
  intros s. split.
  - intros [m H]. apply C07_method_parse_iff in H. rewrite H. clear.
    destruct m; vm_compute; repeat (first [left; reflexivity | right]).
  - intros H. assert (A : exists m, to_upper s = method_str m).
    { revert H. generalize (to_upper s). intros u H. cbn [iana_methods map fst] in H.
      repeat (destruct H as [H|H]; [first
        [solve [exists M_Acl; symmetry; exact H] | clear - H; idtac];
        match type of H with ?l = _ => let x := eval vm_compute in (lookup_method method_table l) in
          match x with Some ?m => exists m; symmetry; exact H end end|]).
      destruct H. }
    destruct A as [m A]. exists m. apply C07_method_parse_iff, A.
Qed.
Theorem C07_method_case_insensitive : forall s t, to_lower s = to_lower t ->
  method_from_str s = method_from_str t.
Proof. intros s t H. unfold method_from_str. rewrite (upper_of_lower s t H). reflexivity. Qed.
Theorem C07_method_parse_total : forall s, (exists m, method_from_str s = Ok m) \/ method_from_str s = Err 500.
Proof. intros s. unfold method_from_str, ok_or. destruct (lookup_method _ _); eauto. Qed.
(** serde: deserializing what was serialized (the printed name) gives the method back. *)
Theorem C07_method_serde : forall m s, method_deserialize s = Some m <-> to_upper s = method_str m.
Proof.
  intros m s. rewrite <- method_from_str_iff. unfold method_deserialize.
  destruct (method_from_str s); split; intros H; inv H; reflexivity.
Qed.
Print Assumptions C07_accepts_exactly_registered.
Print Assumptions C07_method_names_distinct.
Print Assumptions C07_method_case_insensitive.
Print Assumptions C07_method_parse_total.
Print Assumptions C07_method_serde.
Example C07_example : method_from_str (lit "mKcAlendar") = Ok M_MkCalendar /\ method_from_str (lit "GETT") = Err 500
  /\ to_lower (lit "pUT") = to_lower (lit "PuT").
Proof. vm_compute. auto. Qed.

(** C08: safe iff the registry marks the method's name safe. *)
Theorem C08_safe_iff_registered_safe : forall m, is_safe m = true <->
  exists n, In (n, true) iana_methods /\ method_str m = lit n.
Proof.
  intros m. split.
  - destruct m; intros H; try discriminate H;
    match goal with |- exists n, _ /\ method_str ?m = _ =>
      let s := eval vm_compute in (string_of_list_ascii (map ascii_of_N (method_str m))) in exists s end;
    (split; [cbn [iana_methods In]; repeat (first [left; reflexivity | right])|reflexivity]).
  - intros (n & H & E). cbn [iana_methods In] in H.
    repeat (destruct H as [H|H]; [first [discriminate H | inv H; destruct m; first [reflexivity | vm_compute in E; discriminate E]]|]).
    destruct H.
Qed.
Print Assumptions C08_safe_iff_registered_safe.
Example C08_example : is_safe M_PropFind = true /\ is_safe M_PropPatch = false.
Proof. auto. Qed.

(** ** Specification: the status codes the crate documents, as code and reason phrase. *)
Definition supported_codes : list N :=
  [100; 101; 103;
   200; 201; 202; 203; 204; 205; 206; 207; 226;
   300; 301; 302; 303; 304; 307; 308;
   400; 401; 402; 403; 404; 405; 406; 407; 408; 409; 410; 411; 412; 413; 414; 415; 416; 417; 418;
   421; 422; 423; 424; 425; 426; 428; 429; 431; 451;
   500; 501; 502; 503; 504; 505; 506; 507; 508; 510; 511].

Lemma code_round : forall c, code_try_from (code_u16 c) = Ok c.
Proof. destruct c; reflexivity. Qed.

Lemma code_try_from_inv : forall n c, code_try_from n = Ok c -> n = code_u16 c.
Proof.
  intros n c H. destruct n as [|p]; [discriminate H|]. cbv [code_try_from] in H.
  repeat match type of H with
  | (match ?p with xI _ => _ | xO _ => _ | xH => _ end) = _ => destruct p; try discriminate H
  end; inv H; reflexivity.
Qed.

Lemma supported_code : forall c, In (code_u16 c) supported_codes.
Proof. destruct c; vm_compute; repeat (first [left; reflexivity | right]). Qed.
Lemma supported_try : forall n, In n supported_codes -> exists c, code_try_from n = Ok c.
Proof.
  intros n H. cbn [supported_codes In] in H.
  repeat (destruct H as [H|H]; [rewrite <- H; eexists; reflexivity|]). destruct H.
Qed.

(** C09 *)
Theorem C09_number_converts_iff_supported : forall n,
  (exists c, code_try_from n = Ok c) <-> In n supported_codes.
Proof.
  intros n; split; [|apply supported_try].
  intros [c H]. rewrite (code_try_from_inv n c H). apply supported_code.
Qed.
Theorem C09_number_code_number : forall n c, code_try_from n = Ok c -> code_u16 c = n.
Proof. intros n c H. symmetry. apply code_try_from_inv, H. Qed.
Theorem C09_code_number_code : forall c, code_try_from (code_u16 c) = Ok c.
Proof. exact code_round. Qed.
Theorem C09_unsupported_is_error : forall n, ~ In n supported_codes -> code_try_from n = Err 500.
Proof.
  intros n H. assert (A : forall c, code_try_from n <> Ok c).
  { intros c E. apply H. apply C09_number_converts_iff_supported. eauto. }
  revert A. unfold code_try_from.
  repeat match goal with |- context [match ?p with _ => _ end] => destruct p; try reflexivity end;
  intros A; exfalso; eapply A; reflexivity.
Qed.
Print Assumptions C09_number_converts_iff_supported.
Print Assumptions C09_number_code_number.
Print Assumptions C09_code_number_code.
Print Assumptions C09_unsupported_is_error.
Example C09_example : code_try_from 418 = Ok S_ImATeapot /\ code_try_from 102 = Err 500 /\ ~ In 999 supported_codes.
Proof. repeat split; try reflexivity. cbv [supported_codes In]. intuition discriminate. Qed.

(** C10: the five class predicates, in order 1xx..5xx, are each equivalent to the hundreds digit
    and exactly one of them holds. *)
Definition classes (c : status_code) : list bool :=
  [is_informational c; is_success c; is_redirection c; is_client_error c; is_server_error c].
Theorem C10_class_is_hundreds_digit : forall c k, (k < 5)%nat ->
  nth k (classes c) false = true <-> code_u16 c / 100 = N.of_nat k + 1.
Proof.
  intros c k Hk. destruct k as [|[|[|[|[|k]]]]]; try lia; clear Hk; cbn [classes nth];
  destruct c; vm_compute; split; intros H; first [reflexivity | discriminate H].
Qed.
Theorem C10_exactly_one_class : forall c, length (filter (fun b => b) (classes c)) = 1%nat.
Proof. destruct c; reflexivity. Qed.
Theorem C10_reason_nonempty : forall c, canonical_reason c <> [].
Proof. destruct c; discriminate. Qed.
Print Assumptions C10_class_is_hundreds_digit.
Print Assumptions C10_exactly_one_class.
Print Assumptions C10_reason_nonempty.
Example C10_example : code_u16 S_ImATeapot / 100 = 4 /\ nth 3 (classes S_ImATeapot) false = true
  /\ status_display S_NotFound = lit "404: Not Found".
Proof. vm_compute. auto. Qed.

(** C11 is false of the code: integers are truncated to 16 bits before the check. *)
Theorem C11_deserialize_only_supported_refuted :
  (exists v, (0 <= v < 2 ^ 64)%Z /\ status_deserialize v = Some S_Ok /\ v <> 200%Z) /\
  (exists v, (- 2 ^ 63 <= v < 0)%Z /\ status_deserialize v = Some S_NotFound).
Proof. split; [exists 65736%Z|exists (-65132)%Z]; vm_compute; repeat split; discriminate. Qed.
Theorem C11_serde_round_trip : forall c, status_deserialize (status_serialize c) = Some c.
Proof. destruct c; vm_compute; reflexivity. Qed.
(** The part that holds: for integers that fit 16 bits only supported codes are accepted.  Missing:
    rejection of larger and negative integers (refuted above). *)
Theorem C11_deserialize_16bit_partial : forall v c, (0 <= v < 65536)%Z ->
  status_deserialize v = Some c -> In (Z.to_N v) supported_codes /\ status_serialize c = v.
Proof.
  intros v c Hv. unfold status_deserialize, status_serialize. rewrite Z.mod_small by assumption.
  destruct (code_try_from (Z.to_N v)) as [c'| |] eqn:E; intros H; inv H.
  split; [apply C09_number_converts_iff_supported; eauto|].
  rewrite <- (code_try_from_inv _ _ E). apply Z2N.id. apply Hv.
Qed.
Print Assumptions C11_deserialize_only_supported_refuted.
Print Assumptions C11_serde_round_trip.
Print Assumptions C11_deserialize_16bit_partial.
Example C11_example : status_deserialize 202 = Some S_Accepted /\ status_deserialize 102 = None.
Proof. vm_compute. auto. Qed.

(** C12 *)
Theorem C12_version_serde : forall s v, version_deserialize s = Some v <-> s = version_str v.
Proof.
  intros s v. split.
  - unfold version_deserialize.
    repeat match goal with |- context [if seqb s ?x then _ else _] => destruct (seqb s x) eqn:?E end;
    intros H; inv H; apply seqb_eq; assumption.
  - intros ->. destruct v; vm_compute; reflexivity.
Qed.
(** Protocol order: (major, minor) compared lexicographically. *)
Definition version_number (v : version) : N * N :=
  match v with
  | Http0_9 => (0, 9) | Http1_0 => (1, 0) | Http1_1 => (1, 1) | Http2_0 => (2, 0) | Http3_0 => (3, 0)
  end.
Theorem C12_version_order : forall a b,
  version_cmp a b = match N.compare (fst (version_number a)) (fst (version_number b)) with
                    | Eq => N.compare (snd (version_number a)) (snd (version_number b))
                    | c => c
                    end.
Proof. destruct a, b; reflexivity. Qed.
Theorem C12_version_cmp_total_order : forall a b c,
  (version_cmp a b = Eq <-> a = b) /\ version_cmp b a = CompOpp (version_cmp a b) /\
  (version_cmp a b = Lt -> version_cmp b c = Lt -> version_cmp a c = Lt).
Proof.
  intros a b c. unfold version_cmp. rewrite (N.compare_antisym (version_discr a)). repeat split.
  - destruct a, b; first [reflexivity | discriminate].
  - intros ->. apply N.compare_refl.
  - rewrite !N.compare_lt_iff. lia.
Qed.
Print Assumptions C12_version_serde.
Print Assumptions C12_version_order.
Print Assumptions C12_version_cmp_total_order.
Example C12_example : version_deserialize (lit "HTTP/1.1") = Some Http1_1 /\ version_deserialize (lit "HTTP/2.0") = None
  /\ version_cmp Http0_9 Http3_0 = Lt.
Proof. vm_compute. auto. Qed.
