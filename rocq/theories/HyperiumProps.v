(** C67: conversions to and from the http crate. *)
From Verif Require Import Base BaseFacts Headers HeadersFacts Method StatusCode EnumProps Mime MimeFacts Body Message Hyperium.
From Coq Require Import ZifyBool ZifyNat ZifyN.

(** ** Methods, status codes and versions *)
Theorem C67_method_round_trip : forall m, exists t, method_to_http m = Ok t /\ method_from_http t = Ok m.
Proof.
  intros m. exists (method_str m). split; [destruct m; reflexivity|]. unfold method_from_http. rewrite C07_method_print_parse. reflexivity.
Qed.
(** Any http method whose text is a registered name in any case arrives as that method; all others panic. *)
Theorem C67_method_from_http : forall t,
  (forall m, method_from_http t = Ok m <-> to_upper t = method_str m) /\
  (method_from_http t = Panic <-> forall m, to_upper t <> method_str m).
Proof.
  intros t. unfold method_from_http. destruct (C07_method_parse_total t) as [[m E]|E]; rewrite E; cbn [must]; split.
  - intros m'. rewrite <- C07_method_parse_iff, E. tauto.
  - split; [discriminate|]. intros H. exfalso. apply (H m). apply C07_method_parse_iff. exact E.
  - intros m'. split; [discriminate|]. intros H. apply C07_method_parse_iff in H. congruence.
  - split; [|reflexivity]. intros _ m H. apply C07_method_parse_iff in H. congruence.
Qed.
Theorem C67_status_round_trip : forall s, exists n, status_to_http s = Ok n /\ status_from_http n = Ok s.
Proof.
  intros s. exists (code_u16 s). split; [destruct s; reflexivity|]. unfold status_from_http. rewrite C09_code_number_code. reflexivity.
Qed.
Theorem C67_version_round_trip : forall v, version_from_http (version_to_http v) = v.
Proof. intros []; reflexivity. Qed.
Theorem C67_version_from_http : forall v, version_to_http (version_from_http v) = v.
Proof. intros []; reflexivity. Qed.
(** FALSE: every http method and status code converts. *)
Theorem C67_total_refuted : exists t n, http_method t = Ok t /\ method_from_http t = Panic /\ http_status n = Ok n /\ status_from_http n = Panic.
Proof. exists (lit "BREW"), 299. vm_compute. repeat split. Qed.
(** FALSE: http's own method survives: the case-sensitive extension method "get" becomes GET. *)
Theorem C67_method_case_refuted : exists t m, http_method t = Ok t /\ method_from_http t = Ok m /\ method_to_http m <> Ok t.
Proof. exists (lit "get"), M_Get. vm_compute. split; [reflexivity|split; [reflexivity|discriminate]]. Qed.
Print Assumptions C67_method_round_trip.
Print Assumptions C67_method_from_http.
Print Assumptions C67_status_round_trip.
Print Assumptions C67_version_round_trip.
Print Assumptions C67_version_from_http.
Print Assumptions C67_total_refuted.
Print Assumptions C67_method_case_refuted.

Section Props.
  Context (name_ok : str -> bool).

  (** What a name maps to; a name without values counts as absent. *)
  Definition held {A} (o : option (list A)) : option (list A) := match o with Some [] => None | _ => o end.
  Definition first_only {A} (o : option (list A)) : option (list A) := match o with Some (v :: _) => Some [v] | _ => None end.

  (** Headers the http crate accepts. *)
  Definition acceptable (h : headers) : Prop := forall n vs, In (n, vs) h -> name_ok n = true /\ Forall (fun v => forallb value_char v = true) vs.
  (** What the Headers API guarantees (C13, C15). *)
  Definition proper (h : headers) : Prop := NoDup (map fst h) /\ forall n vs, In (n, vs) h -> to_lower n = n.

  Lemma to_values_ok : forall vs n m, Forall (fun v => forallb value_char v = true) vs ->
    exists m', to_values n vs m = Ok m' /\
      hm_get m' n = (match vs with [] => hm_get m n | _ => Some (match hm_get m n with Some o => o | None => [] end ++ vs) end) /\
      forall n', n' <> n -> hm_get m' n' = hm_get m n'.
  Proof using.
    induction vs as [|v vs IH]; intros n m F; cbn [to_values].
    - exists m. repeat split.
    - inversion F as [|? ? Fv Fs]; subst. unfold http_value. rewrite Fv. cbn [bind].
      destruct (IH n (http_append m n v) Fs) as (m' & -> & G & O). exists m'. split; [reflexivity|]. split.
      + rewrite G. unfold http_append. rewrite hm_get_insert_same. destruct vs as [|v' vs].
        * destruct (hm_get m n); reflexivity.
        * destruct (hm_get m n) as [o|]; [|reflexivity]. rewrite <- app_assoc. reflexivity.
      + intros n' D. rewrite O by exact D. unfold http_append. apply hm_get_insert_other. exact D.
  Qed.
  Lemma to_values_fail : forall vs n m, ~ Forall (fun v => forallb value_char v = true) vs -> to_values n vs m = Err 500.
  Proof using.
    induction vs as [|v vs IH]; intros n m F; cbn [to_values]; [destruct F; constructor|].
    unfold http_value. destruct (forallb value_char v) eqn:E; cbn [bind]; [|reflexivity]. apply IH. intros X. apply F. constructor; assumption.
  Qed.
  Lemma to_map_ok : forall h m, proper h -> acceptable h -> (forall n, In n (map fst h) -> hm_get m n = None) ->
    exists m', to_map name_ok h m = Ok m' /\ forall n, hm_get m' n = match held (hm_get h n) with Some vs => Some vs | None => hm_get m n end.
  Proof.
    induction h as [|[n vs] h IH]; intros m [D P] A Fr; cbn [to_map].
    - exists m. split; [reflexivity|]. reflexivity.
    - destruct (A n vs (or_introl eq_refl)) as [On Ov]. assert (Pn := P n vs (or_introl eq_refl)).
      unfold http_name. rewrite Pn, On. cbn [bind].
      destruct (to_values_ok vs n m Ov) as (m1 & -> & G & O). cbn [bind].
      cbn [map fst] in D. inversion D as [|? ? Dn Dh]; subst.
      destruct (IH m1) as (m' & E & Q).
      + split; [exact Dh|]. intros n' vs' I. apply (P n' vs'). right. exact I.
      + intros n' vs' I. apply (A n' vs'). right. exact I.
      + intros n' I. rewrite O; [apply Fr; right; exact I|]. intros ->. contradiction.
      + exists m'. split; [exact E|]. intros n'. rewrite Q. cbn [hm_get]. destruct (seqb n' n) eqn:S.
        * apply seqb_eq in S. subst n'. assert (X : hm_get h n = None) by (apply hm_get_none; exact Dn). rewrite X. cbn [held].
          rewrite G. rewrite (Fr n (or_introl eq_refl)). destruct vs; reflexivity.
        * apply seqb_neq in S. destruct (held (hm_get h n')); [reflexivity|]. apply O. exact S.
  Qed.
  Lemma to_map_fail : forall h m, proper h -> ~ acceptable h -> to_map name_ok h m = Err 500.
  Proof.
    induction h as [|[n vs] h IH]; intros m [D P] A; cbn [to_map].
    - destruct A. intros n vs [].
    - assert (Pn := P n vs (or_introl eq_refl)). unfold http_name. rewrite Pn. destruct (name_ok n) eqn:On; cbn [bind]; [|reflexivity].
      cbn [map fst] in D. inversion D as [|? ? Dn Dh]; subst.
      assert (K : Forall (fun v => forallb value_char v = true) vs \/ ~ Forall (fun v => forallb value_char v = true) vs).
      { destruct (forallb (forallb value_char) vs) eqn:B; [left|right]; rewrite Forall_forall.
        - intros v I. rewrite forallb_forall in B. apply B. exact I.
        - intros F. assert (forallb (forallb value_char) vs = true) by (apply forallb_forall; exact F). congruence. }
      destruct K as [F|F]; [|rewrite (to_values_fail vs n m F); reflexivity].
      destruct (to_values_ok vs n m F) as (m1 & -> & _). cbn [bind]. apply IH.
      + split; [exact Dh|]. intros n' vs' I. apply (P n' vs'). right. exact I.
      + intros X. apply A. intros n' vs' [I|I]; [inversion I; subst; auto|]. apply (X n' vs'). exact I.
  Qed.
  (** Into http: every name keeps all its values, in order.  (A name whose value list is empty disappears.) *)
  Theorem C67_to_http : forall h, proper h -> acceptable h ->
    exists m, headers_to_http name_ok h = Ok m /\ forall n, hm_get m n = held (hm_get h n).
  Proof.
    intros h P A. destruct (to_map_ok h [] P A) as (m & E & G); [reflexivity|]. exists m. split; [exact E|].
    intros n. rewrite G. cbn [hm_get]. destruct (held (hm_get h n)); reflexivity.
  Qed.
  (** Otherwise it is an error, never a panic; converting a whole message with the same headers panics instead. *)
  Theorem C67_to_http_errors : forall h, proper h -> ~ acceptable h ->
    headers_to_http name_ok h = Err 500 /\ headers_to_http_or_panic name_ok h = Panic.
  Proof. intros h P A. unfold headers_to_http, headers_to_http_or_panic. rewrite to_map_fail by assumption. split; reflexivity. Qed.

  (** ** Out of http *)
  (** Any [http::HeaderMap]: distinct names that are lower case and ASCII, each with a value. *)
  Definition http_proper (m : http_map) : Prop :=
    NoDup (map fst m) /\ forall n vs, In (n, vs) m -> is_ascii n = true /\ to_lower n = n /\ vs <> [].

  Lemma from_items_skip : forall (vs : list str) items h, from_items (map (pair None) vs ++ items) h = from_items items h.
  Proof using. induction vs as [|v vs IH]; intros items h; [reflexivity|]. cbn [map app from_items]. apply IH. Qed.
  Lemma from_items_skip' : forall (vs : list str) items h,
    from_items_unchecked (map (pair None) vs ++ items) h = from_items_unchecked items h.
  Proof using. induction vs as [|v vs IH]; intros items h; [reflexivity|]. cbn [map app from_items_unchecked]. apply IH. Qed.
  (** Appending one value. *)
  Lemma append_one : forall (h : headers) (n : str) (v : str), exists h', h_append h n (TvValues [v]) = (h', Ok tt) /\
    hm_get h' n = Some (match hm_get h n with Some vs => vs | None => [] end ++ [v]) /\ forall n', n' <> n -> hm_get h' n' = hm_get h n'.
  Proof using.
    intros h n v. unfold h_append, h_insert. cbn [to_header_values values_append fst].
    destruct (hm_get h n) as [vs|] eqn:E; eexists; (split; [reflexivity|split; [apply hm_get_insert_same|]]); intros n' D; apply hm_get_insert_other; exact D.
  Qed.
  (** The values of one name after the conversion, given what was there before. *)
  Definition after (before : option (list str)) (o : option (list str)) : option (list str) :=
    match o with Some (v :: _) => Some (match before with Some vs => vs | None => [] end ++ [v]) | _ => before end.
  Lemma unchecked_spec : forall m h, NoDup (map fst m) ->
    exists h', from_items_unchecked (http_items m) h = Ok h' /\ forall n, hm_get h' n = after (hm_get h n) (hm_get m n).
  Proof using.
    induction m as [|[n vs] m IH]; intros h D; cbn [http_items flat_map fst snd].
    - exists h. split; reflexivity.
    - cbn [map fst] in D. inversion D as [|? ? Dn Dm]; subst. destruct vs as [|v vs]; cbn [app].
      + destruct (IH h Dm) as (h' & E & G). exists h'. split; [exact E|]. intros n'. rewrite G. cbn [hm_get].
        destruct (seqb n' n) eqn:S; [|reflexivity]. apply seqb_eq in S. subst n'.
        assert (X : hm_get m n = None) by (apply hm_get_none; exact Dn). rewrite X. reflexivity.
      + cbn [from_items_unchecked]. destruct (append_one h n v) as (h1 & -> & G1 & O1). cbn [bind].
        rewrite from_items_skip'. destruct (IH h1 Dm) as (h' & E & G). exists h'. split; [exact E|]. intros n'. rewrite G. cbn [hm_get].
        destruct (seqb n' n) eqn:S.
        * apply seqb_eq in S. subst n'. assert (X : hm_get m n = None) by (apply hm_get_none; exact Dn). rewrite X. cbn [after]. exact G1.
        * apply seqb_neq in S. rewrite O1 by exact S. reflexivity.
  Qed.
  Lemma checked_spec : forall m h, http_proper m ->
    from_items (http_items m) h =
      if forallb (fun e => match snd e with v :: _ => is_ascii v | [] => true end) m then from_items_unchecked (http_items m) h else Err 500.
  Proof using.
    induction m as [|[n vs] m IH]; intros h [D P]; cbn [http_items flat_map fst snd forallb]; [reflexivity|].
    destruct (P n vs (or_introl eq_refl)) as (An & Ln & Nn). destruct vs as [|v vs]; [congruence|]. cbn [app from_items from_items_unchecked].
    unfold value_from_bytes. destruct (is_ascii v); cbn [andb bind]; [|reflexivity].
    unfold name_from_bytes. rewrite An, Ln. cbn [bind]. destruct (append_one h n v) as (h1 & -> & _). cbn [bind].
    rewrite from_items_skip, from_items_skip'. apply IH. cbn [map fst] in D. inversion D; subst. split; [assumption|].
    intros n' vs' I. apply (P n' vs'). right. exact I.
  Qed.
  (** Out of http, only the FIRST value of each name survives; a first value with a byte above 127 is an error. *)
  Theorem C67_from_http_partial : forall m, http_proper m ->
    (forall n vs, In (n, vs) m -> is_ascii (hd [] vs) = true) ->
    exists h, headers_from_http m = Ok h /\ forall n, hm_get h n = first_only (hm_get m n).
  Proof using.
    intros m P A. unfold headers_from_http. rewrite checked_spec by exact P.
    replace (forallb _ m) with true.
    - destruct (unchecked_spec m headers_new (proj1 P)) as (h & E & G). exists h. split; [exact E|]. intros n. rewrite G.
      destruct (hm_get m n) as [[|v vs]|]; reflexivity.
    - symmetry. apply forallb_forall. intros [n vs] I. cbn [snd]. specialize (A n vs I). destruct vs; [reflexivity|exact A].
  Qed.
  Theorem C67_from_http_errors : forall m n vs, http_proper m -> In (n, vs) m -> is_ascii (hd [] vs) = false ->
    headers_from_http m = Err 500.
  Proof using.
    intros m n vs P I A. unfold headers_from_http. rewrite checked_spec by exact P.
    replace (forallb _ m) with false; [reflexivity|]. symmetry. apply not_true_iff_false. intros F. rewrite forallb_forall in F.
    specialize (F (n, vs) I). cbn [snd] in F. destruct vs as [|v vs]; [discriminate A|]. cbn [hd] in A. congruence.
  Qed.
  (** FALSE: out of http, every value is kept. *)
  Theorem C67_from_http_refuted : exists m h,
    http_proper m /\ headers_from_http m = Ok h /\ hm_get m (lit "set-cookie") = Some [lit "a=1"; lit "b=2"] /\
    hm_get h (lit "set-cookie") = Some [lit "a=1"].
  Proof using.
    exists [(lit "set-cookie", [lit "a=1"; lit "b=2"])], [(lit "set-cookie", [lit "a=1"])].
    split; [|vm_compute; repeat split]. split.
    - constructor; [intros []|constructor].
    - intros n vs [E|[]]. injection E as <- <-. split; [reflexivity|split; [reflexivity|discriminate]].
  Qed.
  (** There and back: exact for headers with one value per name, and only for those. *)
  Theorem C67_round_trip_partial : forall h, proper h -> acceptable h ->
    (forall n vs, In (n, vs) h -> is_ascii n = true /\ Forall (fun v => is_ascii v = true) vs) ->
    exists m h', headers_to_http name_ok h = Ok m /\ headers_from_http m = Ok h' /\ (forall n, hm_get h' n = first_only (hm_get h n)) /\
      ((forall n, hm_get h' n = hm_get h n) <-> forall n vs, In (n, vs) h -> length vs = 1%nat).
  Proof.
    intros h P A As. destruct (C67_to_http h P A) as (m & E & G).
    assert (NDm : NoDup (map fst m)).
    { clear G. unfold headers_to_http in E. assert (N0 : NoDup (map fst (@nil (str * list str)))) by constructor. revert E N0.
      generalize (@nil (str * list str)). clear P A As. induction h as [|[n vs] h IH]; intros m0 E N0; cbn [to_map] in E; [congruence|].
      destruct (http_name name_ok n) as [n'| |]; cbn [bind] in E; try discriminate E.
      assert (V : forall vs m0 m1, NoDup (map fst m0) -> to_values n' vs m0 = Ok m1 -> NoDup (map fst m1)).
      { clear. induction vs as [|v vs IH]; intros m0 m1 N E; cbn [to_values] in E; [congruence|].
        destruct (http_value v); cbn [bind] in E; try discriminate E. eapply IH; [|exact E]. apply hm_insert_nodup. exact N. }
      destruct (to_values n' vs m0) as [m1| |] eqn:T; cbn [bind] in E; try discriminate E. eapply IH; [exact E|]. eapply V; eassumption. }
    assert (Pm : http_proper m).
    { split; [exact NDm|]. intros n vs I. assert (Q := hm_in_get m n vs NDm I). rewrite G in Q.
      destruct (hm_get h n) as [vs'|] eqn:H; [|discriminate Q]. apply hm_get_in in H. destruct vs' as [|v vs']; [discriminate Q|].
      injection Q as <-. split; [apply (As n _ H)|]. split; [apply (proj2 P n _ H)|discriminate]. }
    destruct (C67_from_http_partial m Pm) as (h' & E' & G').
    { intros n vs I. assert (Q := hm_in_get m n vs NDm I). rewrite G in Q.
      destruct (hm_get h n) as [vs'|] eqn:H; [|discriminate Q]. apply hm_get_in in H. destruct vs' as [|v vs']; [discriminate Q|].
      injection Q as <-. cbn [hd]. destruct (As n _ H) as [_ F]. inversion F; assumption. }
    exists m, h'. split; [exact E|]. split; [exact E'|].
    assert (K : forall n, hm_get h' n = first_only (hm_get h n)).
    { intros n. rewrite G', G. destruct (hm_get h n) as [[|v vs]|]; reflexivity. }
    split; [exact K|]. split.
    - intros S n vs I. assert (Q := hm_in_get h n vs (proj1 P) I). specialize (S n). rewrite K, Q in S.
      destruct vs as [|v [|v' vs]]; [discriminate S|reflexivity|discriminate S].
    - intros L n. rewrite K. destruct (hm_get h n) as [vs|] eqn:Q; [|reflexivity]. apply hm_get_in in Q. specialize (L n vs Q).
      destruct vs as [|v [|v' vs]]; [discriminate L|reflexivity|discriminate L].
  Qed.
End Props.
Print Assumptions C67_to_http.
Print Assumptions C67_to_http_errors.
Print Assumptions C67_from_http_partial.
Print Assumptions C67_from_http_errors.
Print Assumptions C67_from_http_refuted.
Print Assumptions C67_round_trip_partial.

(** ** Whole messages *)
(** The type a body brings along. *)
Definition body_type (b : body) : option (list str) :=
  match body_mime b with Some m => Some [mime_header_value m] | None => None end.
(** The headers of a message made from an http message: for every name but Content-Type the first value; for
    Content-Type the body's own type FOLLOWED by the first value. *)
Definition arrived (b : body) (m : http_map) (n : str) : option (list str) :=
  after (if seqb n CONTENT_TYPE then body_type b else None) (hm_get m n).

Lemma fill_spec : forall V b v (m : http_map), NoDup (map fst m) ->
  exists c : common V, fill (@common_new V) b v m = Ok c /\ c_version c = Some (version_from_http v) /\ c_body c = b /\
    c_ext c = ext_new /\ c_peer c = None /\ c_local c = None /\ forall n, hm_get (c_headers c) n = arrived b m n.
Proof.
  intros V b v m D. unfold fill. set (c := with_version _ _).
  assert (B : forall n, hm_get (c_headers c) n = if seqb n CONTENT_TYPE then body_type b else None).
  { intros n. unfold c, with_version, set_body, replace_body, copy_content_type, body_type, with_body. cbn [snd c_headers c_body common_new h_get hm_get headers_new].
    destruct (body_mime b); [|destruct (seqb n CONTENT_TYPE); reflexivity].
    unfold set_content_type, h_insert. cbn [to_header_values c_headers hm_insert fst with_headers hm_get]. reflexivity. }
  assert (R : c_version c = Some (version_from_http v) /\ c_body c = b /\ c_ext c = ext_new /\ c_peer c = None /\ c_local c = None).
  { unfold c, with_version, set_body, replace_body, copy_content_type, with_body. cbn [snd c_headers c_body common_new h_get hm_get headers_new c_version].
    destruct (body_mime b); unfold set_content_type, h_insert;
      cbn [to_header_values c_headers hm_insert fst with_headers hm_get c_body c_ext c_peer c_local]; repeat split. }
  clearbody c. destruct (unchecked_spec m (c_headers c) D) as (h & -> & G). cbn [bind]. exists (with_headers c h).
  destruct R as (R1 & R2 & R3 & R4 & R5). cbn [with_headers c_version c_body c_ext c_peer c_local c_headers].
  split; [reflexivity|]. repeat (split; [assumption|]). intros n. rewrite G, B. reflexivity.
Qed.

Section Messages.
  Context (name_ok : str -> bool) (uri_of : str -> option str) (url_of : str -> option url) {V : Type}.

  Lemma to_map_nodup : forall h m m', NoDup (map fst m) -> to_map name_ok h m = Ok m' -> NoDup (map fst m').
  Proof.
    induction h as [|[n vs] h IH]; intros m m' N0 E; cbn [to_map] in E; [congruence|].
    destruct (http_name name_ok n) as [n'| |]; cbn [bind] in E; try discriminate E.
    assert (T : forall vs m0 m1, NoDup (map fst m0) -> to_values n' vs m0 = Ok m1 -> NoDup (map fst m1)).
    { clear. induction vs as [|v vs IH]; intros m0 m1 N E; cbn [to_values] in E; [congruence|].
      destruct (http_value v); cbn [bind] in E; try discriminate E. eapply IH; [|exact E]. apply hm_insert_nodup. exact N. }
    destruct (to_values n' vs m) as [m1| |] eqn:E1; cbn [bind] in E; try discriminate E. eapply IH; [|exact E]. eapply T; eassumption.
  Qed.

  (** Every http request with a registered method and a URL becomes a request with that method, URL, version and body. *)
  Theorem C67_request_from_http : forall q k m u, to_upper (hq_method q) = method_str m -> url_of (hq_uri q) = Some u ->
    NoDup (map fst (hq_headers q)) ->
    exists r : request V, request_from_http url_of q k = Ok r /\ rq_method r = m /\ rq_url r = u /\
      c_version (rq_common r) = Some (version_from_http (hq_version q)) /\ c_body (rq_common r) = hq_body q /\
      forall n, hm_get (c_headers (rq_common r)) n = arrived (hq_body q) (hq_headers q) n.
  Proof.
    intros q k m u M U D. unfold request_from_http. rewrite (proj2 (proj1 (C67_method_from_http _) m) M). cbn [bind].
    rewrite U. cbn [ok_or bind]. destruct (fill_spec V (hq_body q) (hq_version q) (hq_headers q) D) as (c & E & ? & ? & ? & ? & ? & ?).
    unfold request_new. cbn [rq_common rq_method rq_url]. rewrite E. cbn [bind]. eexists. split; [reflexivity|].
    cbn [rq_method rq_url rq_common]. repeat (split; [first [reflexivity|assumption]|]). assumption.
  Qed.
  (** A request with a registered method whose URI is not a URL (say, only a path) is refused; an unregistered method panics before that is looked at. *)
  Theorem C67_request_refused : forall q k,
    ((forall m, to_upper (hq_method q) <> method_str m) -> request_from_http (V := V) url_of q k = Panic) /\
    (forall m, to_upper (hq_method q) = method_str m -> url_of (hq_uri q) = None -> request_from_http (V := V) url_of q k = Err 500).
  Proof.
    intros q k. unfold request_from_http. destruct (C67_method_from_http (hq_method q)) as [A B]. split.
    - intros N. rewrite (proj2 B N). reflexivity.
    - intros m M ->. apply A in M. rewrite M. reflexivity.
  Qed.
  Theorem C67_response_from_http : forall q k k' s, hs_status q = code_u16 s -> NoDup (map fst (hs_headers q)) ->
    exists r : response V, response_from_http q k k' = Ok r /\ rs_status r = s /\
      c_version (rs_common r) = Some (version_from_http (hs_version q)) /\ c_body (rs_common r) = hs_body q /\
      forall n, hm_get (c_headers (rs_common r)) n = arrived (hs_body q) (hs_headers q) n.
  Proof.
    intros q k k' s S D. unfold response_from_http, status_from_http, response_new. rewrite S, C09_code_number_code. cbn [must bind].
    destruct (fill_spec V (hs_body q) (hs_version q) (hs_headers q) D) as (c & E & ? & ? & ? & ? & ? & ?).
    cbn [rs_common]. rewrite E. cbn [bind]. eexists. split; [reflexivity|]. cbn [rs_status rs_common].
    repeat (split; [first [reflexivity|assumption]|]). assumption.
  Qed.
  (** Into http, and back again.  An unset version comes back as HTTP/1.1; extensions and addresses are lost. *)
  Theorem C67_request_round_trip : forall (r : request V) k u, let c := rq_common r in
    proper (c_headers c) -> acceptable name_ok (c_headers c) -> uri_of (url_text (rq_url r)) = Some u -> url_of u = Some (rq_url r) ->
    exists q r', request_to_http name_ok uri_of r = Ok q /\ request_from_http (V := V) url_of q k = Ok r' /\
      (forall n, hm_get (hq_headers q) n = held (hm_get (c_headers c) n)) /\
      rq_method r' = rq_method r /\ rq_url r' = rq_url r /\ c_body (rq_common r') = c_body c /\
      c_version (rq_common r') = Some (match c_version c with Some v => v | None => Http1_1 end) /\
      forall n, hm_get (c_headers (rq_common r')) n =
        after (if seqb n CONTENT_TYPE then body_type (c_body c) else None) (hm_get (c_headers c) n).
  Proof.
    intros r k u c P A U1 U2. unfold request_to_http. fold c.
    destruct (C67_method_round_trip (rq_method r)) as (t & -> & T). cbn [bind]. rewrite U1. cbn [unwrap bind].
    destruct (C67_to_http name_ok (c_headers c) P A) as (m & E & G). unfold headers_to_http_or_panic. unfold headers_to_http in E. rewrite E. cbn [must bind].
    assert (D : NoDup (map fst m)) by (eapply to_map_nodup; [|exact E]; constructor).
    set (q := HttpRequest _ _ _ _ _). apply (proj1 (C67_method_from_http t)) in T.
    destruct (C67_request_from_http q k (rq_method r) (rq_url r) T U2 D) as (r' & E' & M & U & Vn & B & H).
    exists q, r'. split; [reflexivity|]. split; [exact E'|]. split; [exact G|]. repeat (split; [assumption|]). split.
    - rewrite Vn. cbn [q hq_version]. unfold version_or_default. destruct (c_version c) as [v|]; [rewrite C67_version_round_trip|]; reflexivity.
    - intros n. rewrite H. unfold arrived. cbn [q hq_headers hq_body]. rewrite G. destruct (hm_get (c_headers c) n) as [[|v vs]|]; reflexivity.
  Qed.
  Theorem C67_response_round_trip : forall (r : response V) k k', let c := rs_common r in
    proper (c_headers c) -> acceptable name_ok (c_headers c) ->
    exists q r', response_to_http name_ok r = Ok q /\ response_from_http (V := V) q k k' = Ok r' /\
      (forall n, hm_get (hs_headers q) n = held (hm_get (c_headers c) n)) /\
      rs_status r' = rs_status r /\ c_body (rs_common r') = c_body c /\
      c_version (rs_common r') = Some (match c_version c with Some v => v | None => Http1_1 end) /\
      forall n, hm_get (c_headers (rs_common r')) n =
        after (if seqb n CONTENT_TYPE then body_type (c_body c) else None) (hm_get (c_headers c) n).
  Proof.
    intros r k k' c P A. unfold response_to_http. fold c.
    destruct (C67_status_round_trip (rs_status r)) as (t & T1 & T). unfold status_to_http in T1. rewrite T1. cbn [bind].
    destruct (C67_to_http name_ok (c_headers c) P A) as (m & E & G). unfold headers_to_http_or_panic. unfold headers_to_http in E. rewrite E. cbn [must bind].
    assert (D : NoDup (map fst m)) by (eapply to_map_nodup; [|exact E]; constructor).
    set (q := HttpResponse _ _ _ _).
    assert (T' : hs_status q = code_u16 (rs_status r)).
    { cbn [q hs_status]. symmetry. apply C09_number_code_number. unfold status_from_http in T. destruct (code_try_from t); cbn [must] in T; congruence. }
    destruct (C67_response_from_http q k k' (rs_status r) T' D) as (r' & E' & M & Vn & B & H).
    exists q, r'. split; [reflexivity|]. split; [exact E'|]. split; [exact G|]. repeat (split; [assumption|]). split.
    - rewrite Vn. cbn [q hs_version]. unfold version_or_default. destruct (c_version c) as [v|]; [rewrite C67_version_round_trip|]; reflexivity.
    - intros n. rewrite H. unfold arrived. cbn [q hs_headers hs_body]. rewrite G. destruct (hm_get (c_headers c) n) as [[|v vs]|]; reflexivity.
  Qed.
End Messages.
Print Assumptions C67_request_from_http.
Print Assumptions C67_request_refused.
Print Assumptions C67_response_from_http.
Print Assumptions C67_request_round_trip.
Print Assumptions C67_response_round_trip.

(** FALSE: the headers of an http message arrive unchanged.  An HTML response with an untyped body arrives with two
    content types, the wrong one first; and a byte above 127 ends up in a value that is handed out as a str. *)
Theorem C67_content_type_refuted : exists q (r : response unit),
  hs_headers q = [(lit "content-type", [lit "text/html"]); (lit "x", [[233]])] /\
  response_from_http q 0 1 = Ok r /\
  hm_get (c_headers (rs_common r)) (lit "content-type") = Some [lit "application/octet-stream"; lit "text/html"] /\
  hm_get (c_headers (rs_common r)) (lit "x") = Some [[233]] /\ is_ascii [233] = false.
Proof.
  exists (HttpResponse 200 HTTP_11 [(lit "content-type", [lit "text/html"]); (lit "x", [[233]])] body_empty).
  eexists. split; [reflexivity|]. split; [vm_compute; reflexivity|]. vm_compute. repeat split.
Qed.
Print Assumptions C67_content_type_refuted.

Definition toy_name (s : str) : bool := negb (seqb s []) && forallb token_char s.
(** A map that meets the hypotheses on both sides of the conversion. *)
Example C67_hypotheses_example : let h := [(lit "accept", [lit "a"; lit "b"]); (lit "x-y", [lit "c"])] in
  proper h /\ acceptable toy_name h /\ http_proper h.
Proof.
  cbv zeta. assert (D : NoDup (map fst [(lit "accept", [lit "a"; lit "b"]); (lit "x-y", [lit "c"])])) by (repeat constructor; cbn; intuition discriminate).
  split; [split; [exact D|]|split; [|split; [exact D|]]]; intros n vs [E|[E|[]]]; injection E as <- <-;
    first [reflexivity|split; [reflexivity|split; [reflexivity|discriminate]]|split; [reflexivity|repeat constructor]].
Qed.
Example C67_example :
  headers_to_http toy_name [(lit "accept", [lit "a"; lit "b"]); (lit "x", [])] = Ok [(lit "accept", [lit "a"; lit "b"])] /\
  headers_to_http toy_name [(lit "a b", [lit "a"])] = Err 500 /\
  headers_to_http toy_name [(lit "a", [[10]])] = Err 500 /\
  headers_from_http [(lit "accept", [lit "a"; lit "b"]); (lit "x", [lit "y"])] = Ok [(lit "accept", [lit "a"]); (lit "x", [lit "y"])] /\
  headers_from_http [(lit "x", [[233]])] = Err 500.
Proof. vm_compute. repeat split. Qed.

(** What the http crate is taken to accept: as a method any token (RFC 7230), as a header value visible characters,
    spaces, tabs and the bytes from 128. *)
Theorem C67_accepted_texts : forall t,
  (http_method t = Ok t <-> t <> [] /\ Forall (fun c => In c (lit "!#$%&'*+-.^_`|~") \/ 48 <= c <= 57 \/ 65 <= c <= 90 \/ 97 <= c <= 122) t) /\
  (http_value t = Ok t <-> Forall (fun c => c = 9 \/ 32 <= c <= 126 \/ 128 <= c) t).
Proof.
  intros t. split.
  - unfold http_method. destruct t as [|c t]; [cbn; split; [discriminate|intros [H _]; congruence]|]. cbn [seqb negb andb].
    assert (A : forall c, token_char c = true <-> In c (lit "!#$%&'*+-.^_`|~") \/ 48 <= c <= 57 \/ 65 <= c <= 90 \/ 97 <= c <= 122).
    { intros x. unfold token_char. rewrite !orb_true_iff, existsb_exists. split.
      - intros [[[H|H]|H]|(y & I & E)]; try lia. apply N.eqb_eq in E. subst y. auto.
      - intros [I|H]; [right; exists x; split; [exact I|apply N.eqb_refl]|left; lia]. }
    destruct (forallb token_char (c :: t)) eqn:E.
    + rewrite forallb_forall in E. split; [|reflexivity]. intros _. split; [discriminate|]. apply Forall_forall. intros x I. apply A, E, I.
    + split; [discriminate|]. intros [_ F]. assert (forallb token_char (c :: t) = true); [|congruence].
      apply forallb_forall. intros x I. apply A. rewrite Forall_forall in F. apply F, I.
  - unfold http_value. assert (A : forall c, value_char c = true <-> c = 9 \/ 32 <= c <= 126 \/ 128 <= c) by (intros c; unfold value_char; lia).
    destruct (forallb value_char t) eqn:E.
    + rewrite forallb_forall in E. split; [|reflexivity]. intros _. apply Forall_forall. intros x I. apply A, E, I.
    + split; [discriminate|]. intros F. assert (forallb value_char t = true); [|congruence].
      apply forallb_forall. intros x I. apply A. rewrite Forall_forall in F. apply F, I.
Qed.
Print Assumptions C67_accepted_texts.
(** Numbers of three digits are status codes for the http crate; this crate knows some of them only ([C67_total_refuted]). *)
Theorem C67_accepted_numbers : forall n, (exists m, http_status n = Ok m) <-> 100 <= n <= 999.
Proof.
  intros n. unfold http_status. destruct ((100 <=? n) && (n <? 1000)) eqn:E; split; try lia; [eauto|intros (m & X); discriminate X].
Qed.
Print Assumptions C67_accepted_numbers.
Example C67_accepted_example : http_method (lit "M-SEARCH") = Ok (lit "M-SEARCH") /\ http_method (lit "A B") = Err 500 /\ http_value [97; 9; 200] = Ok [97; 9; 200] /\ http_value [10] = Err 500.
Proof. vm_compute. auto. Qed.
Example C67_refused_example :
  request_from_http (V := unit) (fun _ => None) (HttpRequest (lit "GET") (lit "/index.html") HTTP_11 [] (from_bytes [])) 0 = Err 500 /\
  request_from_http (V := unit) (fun _ => None) (HttpRequest (lit "BREW") (lit "/index.html") HTTP_11 [] (from_bytes [])) 0 = Panic.
Proof. split; reflexivity. Qed.
