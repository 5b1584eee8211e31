(** C97: what typed headers say once a message has been through the http crate. *)
From Verif Require Import Base BaseFacts Headers HeadersFacts Method StatusCode Typed TypedFacts Conditional Cache Mime Body Message Other Forwarded Hyperium HyperiumProps LastProps OwnProps.
From Coq Require Import ZifyBool ZifyNat ZifyN.


Section Trip.
  Context (name_ok : str -> bool) (uri_of : str -> option str) (url_of : str -> option url) {V : Type}.

  (** The request [r'] is what is left of [r] after a trip into http and back; likewise for responses and bare headers. *)
  Definition request_trip (r r' : request V) : Prop :=
    exists q k, request_to_http name_ok uri_of r = Ok q /\ request_from_http url_of q k = Ok r'.
  Definition response_trip (r r' : response V) : Prop :=
    exists q k k', response_to_http name_ok r = Ok q /\ response_from_http q k k' = Ok r'.
  Definition headers_trip (h h' : headers) : Prop := exists m, headers_to_http name_ok h = Ok m /\ headers_from_http m = Ok h'.

  Lemma acceptable_dec : forall h, acceptable name_ok h \/ ~ acceptable name_ok h.
  Proof using.
    intros h. destruct (forallb (fun e => name_ok (fst e) && forallb (forallb value_char) (snd e)) h) eqn:B.
    - left. intros n vs I. rewrite forallb_forall in B. specialize (B _ I). cbn [fst snd] in B. apply andb_true_iff in B as [B1 B2].
      split; [exact B1|]. apply Forall_forall. intros v J. rewrite forallb_forall in B2. now apply B2.
    - right. intros A. apply not_true_iff_false in B. apply B. apply forallb_forall. intros [n vs] I. destruct (A n vs I) as [A1 A2].
      cbn [fst snd]. rewrite A1. cbn [andb]. apply forallb_forall. now apply Forall_forall.
  Qed.
  Lemma to_http_get : forall h m, proper h -> headers_to_http name_ok h = Ok m -> NoDup (map fst m) /\ forall n, hm_get m n = held (hm_get h n).
  Proof using.
    intros h m P E. split; [eapply to_map_nodup; [|exact E]; constructor|]. destruct (acceptable_dec h) as [A|A].
    - destruct (C67_to_http name_ok h P A) as (m' & E' & G). assert (m' = m) by congruence. now subst.
    - destruct (C67_to_http_errors name_ok h P A) as [X _]. congruence.
  Qed.
  (** Which values a message holds after the trip. *)
  Lemma arrived_get : forall b h m n, proper h -> headers_to_http name_ok h = Ok m ->
    arrived b m n = after (if seqb n CONTENT_TYPE then body_type b else None) (hm_get h n).
  Proof using.
    intros b h m n P E. destruct (to_http_get h m P E) as [_ G]. unfold arrived. rewrite G. destruct (hm_get h n) as [[|v vs]|]; reflexivity.
  Qed.
  Lemma request_trip_get : forall r r' n, proper (c_headers (rq_common r)) -> request_trip r r' ->
    h_get (c_headers (rq_common r')) n = after (if seqb n CONTENT_TYPE then body_type (c_body (rq_common r)) else None) (h_get (c_headers (rq_common r)) n).
  Proof using.
    intros r r' n P (q & k & E & F). unfold request_to_http in E.
    destruct (method_to_http (rq_method r)); cbn [bind] in E; try discriminate E.
    destruct (uri_of (url_text (rq_url r))); cbn [unwrap bind] in E; try discriminate E.
    unfold headers_to_http_or_panic in E. destruct (to_map name_ok (c_headers (rq_common r)) []) as [m| |] eqn:M; cbn [must bind] in E; try discriminate E.
    injection E as <-. unfold request_from_http in F. cbn [hq_method hq_uri hq_version hq_headers hq_body] in F.
    destruct (method_from_http a); cbn [bind] in F; try discriminate F.
    destruct (url_of s); cbn [ok_or bind] in F; try discriminate F.
    destruct (to_http_get _ _ P M) as [D _].
    destruct (fill_spec V (c_body (rq_common r)) (version_or_default (c_version (rq_common r))) m D) as (c & Fc & _ & _ & _ & _ & _ & G).
    unfold request_new in F. cbn [rq_common] in F. rewrite Fc in F. cbn [bind] in F. injection F as <-. cbn [rq_common].
    unfold h_get. rewrite G. now apply arrived_get.
  Qed.
  Lemma response_trip_get : forall r r' n, proper (c_headers (rs_common r)) -> response_trip r r' ->
    h_get (c_headers (rs_common r')) n = after (if seqb n CONTENT_TYPE then body_type (c_body (rs_common r)) else None) (h_get (c_headers (rs_common r)) n).
  Proof using.
    intros r r' n P (q & k & k' & E & F). unfold response_to_http in E.
    destruct (must (http_status (code_u16 (rs_status r)))); cbn [bind] in E; try discriminate E.
    unfold headers_to_http_or_panic in E. destruct (to_map name_ok (c_headers (rs_common r)) []) as [m| |] eqn:M; cbn [must bind] in E; try discriminate E.
    injection E as <-. unfold response_from_http in F. cbn [hs_status hs_version hs_headers hs_body] in F.
    destruct (status_from_http a); cbn [bind] in F; try discriminate F.
    unfold response_new in F. destruct (code_try_from a); cbn [bind] in F; try discriminate F.
    destruct (to_http_get _ _ P M) as [D _]. change (fst (take_body (rs_common r))) with (c_body (rs_common r)) in F.
    destruct (fill_spec V (c_body (rs_common r)) (version_or_default (c_version (rs_common r))) m D) as (c & Fc & _ & _ & _ & _ & _ & G).
    cbn [rs_common] in F. rewrite Fc in F. cbn [bind] in F. injection F as <-. cbn [rs_common].
    unfold h_get. rewrite G. now apply arrived_get.
  Qed.
  Lemma unchecked_of_checked : forall items h h', (forall n v, In (Some n, v) items -> to_lower n = n) ->
    from_items items h = Ok h' -> from_items_unchecked items h = Ok h'.
  Proof using.
    induction items as [|[[n|] v] items IH]; intros h h' L E; cbn [from_items from_items_unchecked] in *; [exact E| |].
    - unfold value_from_bytes, name_from_bytes in E. destruct (is_ascii v); cbn [bind] in E; [|discriminate E].
      destruct (is_ascii n); cbn [bind] in E; [|discriminate E]. rewrite (L n v (or_introl eq_refl)) in E.
      destruct (h_append h n (TvValues [v])) as [h1 r]. destruct r; cbn [bind] in *; try discriminate E.
      apply IH; [|exact E]. intros n' v' I. apply (L n' v'). now right.
    - apply IH; [|exact E]. intros n' v' I. apply (L n' v'). now right.
  Qed.
  Lemma headers_trip_get : forall h h' n, proper h -> headers_trip h h' -> h_get h' n = first_only (h_get h n).
  Proof using.
    intros h h' n P (m & E & F). destruct (to_http_get h m P E) as [D G]. unfold headers_from_http in F.
    apply unchecked_of_checked in F.
    - destruct (unchecked_spec m headers_new D) as (h1 & E1 & G1). assert (h1 = h') by congruence. subst h1.
      unfold h_get. rewrite G1, G. destruct (hm_get h n) as [[|v vs]|]; reflexivity.
    - intros n0 v I. unfold http_items in I. apply in_flat_map in I as ([n1 vs] & I & J). cbn [fst snd] in J. destruct vs as [|w vs]; [destruct J|].
      destruct J as [J|J].
      + injection J as -> ->. assert (Q := hm_in_get m n0 _ D I). rewrite G in Q. destruct P as [_ P].
        destruct (hm_get h n0) as [[|x xs]|] eqn:E0; try discriminate Q. apply (P n0 (x :: xs)). now apply hm_get_in.
      + apply in_map_iff in J as (? & J & _). discriminate J.
  Qed.

  (** A header is read from what it said first: a reader that looks at no other header answers as if its header had its
      first value alone, or, without a value, were missing.  ([h] under [n]: [sees h n later] is the statement for one trip.) *)
  Definition sees {A} (from : headers -> outcome (option A)) (n : str) (h later : headers) : Prop :=
    (forall v vs, h_get h n = Some (v :: vs) -> from later = from (apply_value h n v)) /\
    (h_get h n = None \/ h_get h n = Some [] -> from later = from (fst (h_remove h n))).

  Lemma sees_kept : forall A (from : headers -> outcome (option A)) n h later, own_header_only from n ->
    h_get later n = first_only (h_get h n) -> NoDup (map fst h) -> sees from n h later.
  Proof using.
    intros A from n h later O K D. split.
    - intros v vs E. apply O. rewrite K, E, get_apply. reflexivity.
    - intros E. apply O. rewrite K. unfold h_remove, h_get. cbn [fst]. rewrite hm_get_remove_same by exact D.
      destruct E as [E|E]; unfold h_get in E; rewrite E; reflexivity.
  Qed.

  Theorem C97_headers : forall A (from : headers -> outcome (option A)) n h h', own_header_only from n -> proper h ->
    headers_trip h h' -> sees from n h h'.
  Proof using. intros A from n h h' O P T. apply sees_kept; [exact O|now apply headers_trip_get|apply P]. Qed.
  Theorem C97_request : forall A (from : headers -> outcome (option A)) n r r', own_header_only from n -> n <> lit "content-type" ->
    proper (c_headers (rq_common r)) -> request_trip r r' -> sees from n (c_headers (rq_common r)) (c_headers (rq_common r')).
  Proof using.
    intros A from n r r' O NE P T. apply sees_kept; [exact O| |apply P]. rewrite (request_trip_get r r' n P T).
    replace (seqb n CONTENT_TYPE) with false by (symmetry; now apply seqb_neq). destruct (h_get _ n) as [[|v vs]|]; reflexivity.
  Qed.
  Theorem C97_response : forall A (from : headers -> outcome (option A)) n r r', own_header_only from n -> n <> lit "content-type" ->
    proper (c_headers (rs_common r)) -> response_trip r r' -> sees from n (c_headers (rs_common r)) (c_headers (rs_common r')).
  Proof using.
    intros A from n r r' O NE P T. apply sees_kept; [exact O| |apply P]. rewrite (response_trip_get r r' n P T).
    replace (seqb n CONTENT_TYPE) with false by (symmetry; now apply seqb_neq). destruct (h_get _ n) as [[|v vs]|]; reflexivity.
  Qed.

  (** So whatever a typed header wrote ([replaced], C83) is read the same on the other side. *)
  Lemma sees_written : forall B (from : headers -> outcome (option B)) n h h0 later, own_header_only from n ->
    replaced n h0 h -> sees from n h later -> from later = from h.
  Proof using. intros B from n h h0 later O [[v E] _] [S _]. rewrite (S v [] E). apply O. rewrite get_apply. now symmetry. Qed.
  Theorem C97_written_request : forall B (from : headers -> outcome (option B)) n h r r',
    own_header_only from n -> n <> lit "content-type" -> proper (c_headers (rq_common r)) -> replaced n h (c_headers (rq_common r)) ->
    request_trip r r' -> from (c_headers (rq_common r')) = from (c_headers (rq_common r)).
  Proof using. intros B from n h r r' R NE P E T. eapply sees_written; [exact R|exact E|now apply C97_request]. Qed.
  Theorem C97_written_response : forall B (from : headers -> outcome (option B)) n h r r',
    own_header_only from n -> n <> lit "content-type" -> proper (c_headers (rs_common r)) -> replaced n h (c_headers (rs_common r)) ->
    response_trip r r' -> from (c_headers (rs_common r')) = from (c_headers (rs_common r)).
  Proof using. intros B from n h r r' R NE P E T. eapply sees_written; [exact R|exact E|now apply C97_response]. Qed.

  (** The type of the body is kept when the message states it once; a message that does not state it gets its body's. *)
  Theorem C97_content_type : forall r r', proper (c_headers (rs_common r)) -> response_trip r r' ->
    (forall v vs, h_get (c_headers (rs_common r)) (lit "content-type") = Some (v :: vs) ->
       ctype_from_headers (c_headers (rs_common r')) = ctype_from_headers [(lit "content-type", [v])]) /\
    (h_get (c_headers (rs_common r)) (lit "content-type") = None ->
       ctype_from_headers (c_headers (rs_common r')) =
         match body_mime (c_body (rs_common r)) with
         | Some m => ctype_from_headers [(lit "content-type", [mime_header_value m])]
         | None => Ok None
         end).
  Proof using.
    intros r r' P T. assert (G := response_trip_get r r' (lit "content-type") P T). change (seqb (lit "content-type") CONTENT_TYPE) with true in G. cbv iota in G.
    unfold ctype_from_headers, with_last. change CONTENT_TYPE with (lit "content-type"). rewrite G. split.
    - intros v vs E. rewrite E. unfold after, body_type. destruct (body_mime _); reflexivity.
    - intros E. rewrite E. unfold after, body_type. destruct (body_mime _); reflexivity.
  Qed.

  (** Forwarding information, and the host, are read from first values to begin with: however many values there are, they
      come out the same (a name with an empty list of values, on which reading panics, excepted). *)
  Lemma first_value_kept : forall h h' n, h_get h' n = first_only (h_get h n) -> h_get h n <> Some [] -> first_value h' n = first_value h n.
  Proof using. intros h h' n K NE. unfold first_value. rewrite K. revert NE. destruct (h_get h n) as [[|v vs]|]; intros NE; [destruct (NE eq_refl)|reflexivity|reflexivity]. Qed.
  Theorem C97_forwarded : forall ipv6 r r', proper (c_headers (rq_common r)) -> request_trip r r' ->
    Forall (fun n => h_get (c_headers (rq_common r)) n <> Some [])
      [lit "forwarded"; lit "x-forwarded-for"; lit "x-forwarded-by"; lit "x-forwarded-proto"; lit "x-forwarded-host"; lit "host"] ->
    fw_from_headers ipv6 (c_headers (rq_common r')) = fw_from_headers ipv6 (c_headers (rq_common r)) /\
    forwarded_for (c_headers (rq_common r')) = forwarded_for (c_headers (rq_common r)) /\
    (rq_url r' = rq_url r -> host r' = host r).
  Proof using.
    intros ipv6 r r' P T F.
    assert (K : forall n, n <> lit "content-type" -> h_get (c_headers (rq_common r)) n <> Some [] ->
              first_value (c_headers (rq_common r')) n = first_value (c_headers (rq_common r)) n).
    { intros n NC NE. apply first_value_kept; [|exact NE]. rewrite (request_trip_get r r' n P T).
      replace (seqb n CONTENT_TYPE) with false by (symmetry; now apply seqb_neq). destruct (h_get _ n) as [[|v vs]|]; reflexivity. }
    assert (E0 := K (lit "forwarded") ltac:(discriminate) (Forall_inv F)). apply Forall_inv_tail in F.
    assert (E1 := K (lit "x-forwarded-for") ltac:(discriminate) (Forall_inv F)). apply Forall_inv_tail in F.
    assert (E2 := K (lit "x-forwarded-by") ltac:(discriminate) (Forall_inv F)). apply Forall_inv_tail in F.
    assert (E3 := K (lit "x-forwarded-proto") ltac:(discriminate) (Forall_inv F)). apply Forall_inv_tail in F.
    assert (E4 := K (lit "x-forwarded-host") ltac:(discriminate) (Forall_inv F)). apply Forall_inv_tail in F.
    assert (E5 := K (lit "host") ltac:(discriminate) (Forall_inv F)). apply Forall_inv_tail in F.
    unfold fw_from_headers, from_forwarded_header, from_x_headers, forwarded_for, host, forwarded_header_part, first_entry.
    change FORWARDED with (lit "forwarded"). rewrite E0, E1, E2, E3, E4, E5. split; [reflexivity|]. split; [reflexivity|]. intros ->. reflexivity.
  Qed.
End Trip.
Print Assumptions C97_headers.
Print Assumptions C97_request.
Print Assumptions C97_response.
Print Assumptions C97_written_request.
Print Assumptions C97_written_response.
Print Assumptions C97_content_type.
Print Assumptions C97_forwarded.

(** A request with two lengths says 7 before the trip and 5 after it; one with two Forwarded headers says the same twice. *)
Definition toy_url : url := mkUrl (lit "http://a/") (Some (lit "a")).
Definition toy_request (h : headers) : request unit :=
  let r := request_new M_Get toy_url 0 in mkRequest (rq_method r) (rq_url r) (with_headers (rq_common r) h) (rq_trailers r).
Definition toy_headers : headers :=
  [(lit "content-length", [lit "5"; lit "7"]); (lit "forwarded", [lit "for=a;host=b"; lit "for=c"]); (lit "etag", [lit """x"""])].
Example C97_example : exists r', proper toy_headers /\
  request_trip toy_name Some (fun _ => Some toy_url) (toy_request toy_headers) r' /\
  length_from_headers toy_headers = Ok (Some 7) /\ length_from_headers (c_headers (rq_common r')) = Ok (Some 5) /\
  etag_from_headers (c_headers (rq_common r')) = Ok (Some (Strong (lit "x"))) /\
  host r' = Ok (Some (lit "b")) /\ forwarded_for (c_headers (rq_common r')) = Ok (Some (lit "a")).
Proof.
  eexists. split; [|split; [eexists; exists 0%nat; split; [vm_compute; reflexivity|vm_compute; reflexivity]|]].
  - split; [repeat constructor; cbn; intuition discriminate|]. intros n vs [E|[E|[E|[]]]]; injection E as <- <-; reflexivity.
  - vm_compute. repeat split.
Qed.
Example C97_response_case : exists r r' : response unit, proper (c_headers (rs_common r)) /\ response_trip toy_name r r' /\
  replaced (lit "content-length") headers_new (c_headers (rs_common r)) /\
  length_from_headers (c_headers (rs_common r')) = Ok (Some 60) /\ ctype_from_headers (c_headers (rs_common r)) = Ok None /\
  ctype_from_headers (c_headers (rs_common r')) = ctype_from_headers [(lit "content-type", [lit "application/octet-stream"])].
Proof.
  exists (mkResponse S_Ok (with_headers common_new (length_apply headers_new 60)) (mkEnds None None false) (mkEnds None None false)).
  eexists. split; [|split; [eexists; exists 0%nat, 1%nat; split; [vm_compute; reflexivity|vm_compute; reflexivity]|]].
  - split; [repeat constructor; cbn; intuition discriminate|]. intros n vs [E|[]]; injection E as <- <-; reflexivity.
  - split; [|vm_compute; repeat split]. cbn [rs_common with_headers c_headers]. split; [eexists; vm_compute; reflexivity|].
    intros n H. unfold length_apply. now apply get_apply_other.
Qed.
