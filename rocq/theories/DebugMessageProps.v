(** C112: what the [Debug] output of requests, responses and content security policies says, and what it keeps to itself. *)
From Coq Require Import ZifyBool ZifyNat ZifyN Lia.
From Verif Require Import Base BaseFacts Headers Typed Method StatusCode Body Message Security EnumProps AlikeProps TraceProps Debug DebugProps DebugMore DebugMoreProps DebugMessage.

(** ** Maps *)
Definition map_text {A} (f : A -> str) (l : list A) : str := lit "{" ++ join (lit ", ") (map f l) ++ lit "}".
Definition begins_entry (s : str) : Prop := match s with c :: _ => c <> 125 | [] => False end.
Lemma map_delim : forall A (f : A -> str), delim f -> (forall x, begins_entry (f x)) -> delim (map_text f).
Proof.
  intros A f D NB l l' r r' S S' E. unfold map_text in E. rewrite <- !app_assoc in E. apply app_inv_head in E.
  set (g := flat_map (fun y => lit ", " ++ y)).
  assert (ST : forall (l : list A) q, stop (g (map f l) ++ 125 :: q)) by (intros [|x l0] q; cbn; auto 10).
  assert (K : forall l l' : list A, g (map f l) ++ 125 :: r = g (map f l') ++ 125 :: r' -> l = l' /\ r = r').
  { induction l0 as [|x l0 IH]; intros [|y l1]; cbn [map g flat_map].
    - cbn. intros F. injection F as ->. auto.
    - cbn. discriminate.
    - cbn. discriminate.
    - fold g. rewrite <- !app_assoc. intros F. apply app_inv_head in F. apply D in F as [-> F]; [|apply ST|apply ST].
      destruct (IH l1) as [-> ->]; auto. }
  assert (X : forall y (l : list A) q q', 125 :: q <> join (lit ", ") (map f (y :: l)) ++ lit "}" ++ q').
  { intros y l0 q q'. cbn [map]. rewrite join_cons. specialize (NB y). destruct (f y) as [|c t]; [destruct NB|]. cbn. intros F. injection F as F _. cbn in NB. congruence. }
  destruct l as [|x l]; destruct l' as [|y l'].
  - cbn in E. injection E as ->. auto.
  - destruct (X _ _ _ _ E).
  - symmetry in E. destruct (X _ _ _ _ E).
  - cbn [map] in E. rewrite !join_cons, <- !app_assoc in E. apply D in E as [-> E]; [|apply ST|apply ST].
    destruct (K l l') as [-> ->]; auto.
Qed.
Lemma map_line : forall A (f : A -> str), (forall x, one_line (f x) = true) -> forall l, one_line (map_text f l) = true.
Proof. intros A f L l. unfold map_text. rewrite !one_line_app, (join_line _ f L). reflexivity. Qed.

Section Messages.
  Context (shown : N -> bool).
  Lemma headers_delim : delim (dbg_headers shown).
  Proof. apply (map_delim _ _ (entry_delim shown)). intros [n vs]. cbn. discriminate. Qed.
  Lemma version_delim : delim dbg_version.
  Proof.
    intros x y r r' S S' E. destruct x, y; cbn in E; try discriminate E; injection E as ->; auto.
  Qed.
  Lemma status_delim : delim dbg_status.
  Proof.
    intros x y r r' S S' E. unfold dbg_status in E. rewrite <- !app_assoc in E. apply dec_delim in E as [C E]; [|stops|stops].
    assert (x = y) as -> by (revert C; clear; destruct x; destruct y; try reflexivity; discriminate).
    apply app_inv_head, app_inv_head in E. auto.
  Qed.

  (** What can be seen of a body: how long it is declared to be and how much was read. *)
  Definition body_seen (b : body) : option N * N := (body_len b, body_read b).
  Lemma body_delim : forall a b r r', stop r -> stop r' -> dbg_body a ++ r = dbg_body b ++ r' -> body_seen a = body_seen b /\ r = r'.
  Proof.
    intros a b r r' S S' E. unfold dbg_body in E. field E (option_delim _ _ dec_delim). field E dec_delim. apply app_inv_head in E. unfold body_seen. split; congruence.
  Qed.
  (** What can be seen of the ends of a channel: whether they are there. *)
  Definition is_some {A} (o : option A) : bool := match o with Some _ => true | None => false end.
  Definition ends_seen (e : ends) : bool * bool * bool := (is_some (e_send e), is_some (e_recv e), e_flag e).
  Lemma sender_delim : forall a b r r', stop r -> stop r' -> dbg_option dbg_sender a ++ r = dbg_option dbg_sender b ++ r' -> is_some a = is_some b /\ r = r'.
  Proof. intros [a|] [b|] r r' S S' E; cbn in E; try discriminate E; injection E as ->; auto. Qed.
  Lemma receiver_delim : forall a b r r', stop r -> stop r' -> dbg_option dbg_receiver a ++ r = dbg_option dbg_receiver b ++ r' -> is_some a = is_some b /\ r = r'.
  Proof. intros [a|] [b|] r r' S S' E; cbn in E; try discriminate E; injection E as ->; auto. Qed.

  (** A policy prints everything it holds. *)
  Let rule (e : str * list str) : str := dbg_str shown (fst e) ++ lit ": " ++ dbg_list (dbg_str shown) (snd e).
  Lemma rule_delim : delim rule.
  Proof.
    intros [n vs] [m ws] r r' S S' E. unfold rule in E. cbn [fst snd] in E. rewrite <- !app_assoc in E. apply (str_delim shown) in E as [-> E]; [|stops|stops].
    apply app_inv_head in E. apply (list_delim _ _ (str_delim shown) (str_begins shown)) in E as [-> ->]; auto.
  Qed.
  Theorem C112_policy : forall a b, (dbg_csp shown a = dbg_csp shown b <-> a = b) /\ one_line (dbg_csp shown a) = true.
  Proof.
    intros a b. split.
    - split; [|now intros ->]. intros E. unfold dbg_csp in E.
      field E (list_delim _ _ (str_delim shown) (str_begins shown)). field E bool_delim.
      change (lit ", directives: {") with (lit ", directives: " ++ lit "{") in E. change (lit "} }") with (lit "}" ++ lit " }") in E.
      rewrite <- ?app_assoc in E. apply app_inv_head in E.
      assert (M : map_text rule (directives a) ++ lit " }" = map_text rule (directives b) ++ lit " }") by (unfold map_text; rewrite <- !app_assoc; exact E).
      apply (map_delim _ _ rule_delim) in M as [M _]; [|intros [n vs]; cbn; discriminate|stops|stops].
      destruct a, b; cbn in *; congruence.
    - unfold dbg_csp. rewrite !one_line_app, (list_line _ _ (str_line shown)), (join_line _ rule).
      + destruct (report_only_flag a); reflexivity.
      + intros [n vs]. unfold rule. rewrite !one_line_app. cbn [fst snd]. now rewrite str_line, (list_line _ _ (str_line shown)).
  Qed.

  Context (dbg_url : url -> str).
  (** What is needed of the url crate: the text of a URL can be told from what follows and is one line. *)
  Context (U : delim dbg_url) (UL : forall u, one_line (dbg_url u) = true).

  (** What can be seen of a message besides its own fields. *)
  Definition common_seen {V} (c : common V) : headers * option version * (option N * N) * option str * option str :=
    (c_headers c, c_version c, body_seen (c_body c), c_local c, c_peer c).
  Lemma headers_line : forall h, one_line (dbg_headers shown h) = true.
  Proof. intros h. apply (proj1 (proj2 (proj2 (C100_headers shown h h)))). Qed.
  Lemma version_line : forall v, one_line (dbg_version v) = true.
  Proof. intros []; reflexivity. Qed.
  Lemma body_line : forall b, one_line (dbg_body b) = true.
  Proof. intros b. apply (proj2 (C100_body b b)). Qed.

  (** Two requests print the same text exactly when they have the same method, URL, headers, version, addresses, length and progress of the
      body, and the same ends of the trailers' channel; the text is one line.  So the body's content and type, the extensions and what is in
      the channel are not printed, and everything else is, in clear. *)
  Theorem C112_request : forall V (a b : request V),
    (dbg_request shown dbg_url a = dbg_request shown dbg_url b <->
      rq_method a = rq_method b /\ rq_url a = rq_url b /\ common_seen (rq_common a) = common_seen (rq_common b) /\ ends_seen (rq_trailers a) = ends_seen (rq_trailers b)) /\
    one_line (dbg_request shown dbg_url a) = true.
  Proof.
    intros V a b. split.
    - split.
      + intros E. unfold dbg_request in E. cbv zeta in E. field E method_delim. field E U. field E headers_delim. field E (option_delim _ _ version_delim). field E body_delim.
        field E (option_delim _ _ (str_delim shown)). field E (option_delim _ _ (str_delim shown)).
        rewrite <- ?app_assoc in E. apply app_inv_head, app_inv_head in E. field E sender_delim. field E receiver_delim. field E bool_delim.
        unfold common_seen, ends_seen. repeat split; congruence.
      + intros (M & W & C & T). unfold dbg_request. cbv zeta. unfold common_seen, body_seen, ends_seen in C, T. injection C as H Ve L R Lo P. injection T as S Re F.
        unfold dbg_body. rewrite M, W, H, Ve, L, R, Lo, P, F.
        assert (X : dbg_option dbg_sender (e_send (rq_trailers a)) = dbg_option dbg_sender (e_send (rq_trailers b))) by (destruct (e_send (rq_trailers a)), (e_send (rq_trailers b)); try discriminate S; reflexivity).
        assert (Y : dbg_option dbg_receiver (e_recv (rq_trailers a)) = dbg_option dbg_receiver (e_recv (rq_trailers b))) by (destruct (e_recv (rq_trailers a)), (e_recv (rq_trailers b)); try discriminate Re; reflexivity).
        now rewrite X, Y.
    - unfold dbg_request. cbv zeta. rewrite !one_line_app, UL, headers_line, (option_line _ _ version_line), body_line, !(option_line _ _ (str_line shown)),
        (option_line _ dbg_sender), (option_line _ dbg_receiver) by reflexivity.
      destruct (rq_method a), (e_flag (rq_trailers a)); reflexivity.
  Qed.
  Theorem C112_response : forall V (a b : response V),
    (dbg_response shown a = dbg_response shown b <->
      rs_status a = rs_status b /\ common_seen (rs_common a) = common_seen (rs_common b) /\ ends_seen (rs_trailers a) = ends_seen (rs_trailers b) /\
      ends_seen (rs_upgrade a) = ends_seen (rs_upgrade b)) /\
    one_line (dbg_response shown a) = true.
  Proof.
    intros V a b. split.
    - split.
      + intros E. unfold dbg_response in E. cbv zeta in E. field E status_delim. field E headers_delim. field E (option_delim _ _ version_delim).
        field E bool_delim. field E sender_delim. field E receiver_delim. field E sender_delim. field E receiver_delim. field E bool_delim. field E body_delim.
        rewrite <- ?app_assoc in E. apply app_inv_head, app_inv_head in E. field E (option_delim _ _ (str_delim shown)). field E (option_delim _ _ (str_delim shown)).
        unfold common_seen, ends_seen. repeat split; congruence.
      + intros (M & C & T & W). unfold dbg_response. cbv zeta. unfold common_seen, body_seen, ends_seen in C, T, W. injection C as H Ve L R Lo P. injection T as S Re F. injection W as S' Re' F'.
        unfold dbg_body. rewrite M, H, Ve, L, R, Lo, P, F, F'.
        assert (X : forall a b, is_some a = is_some b -> dbg_option dbg_sender a = dbg_option dbg_sender b) by (intros [x|] [y|] G; try discriminate G; reflexivity).
        assert (Y : forall a b, is_some a = is_some b -> dbg_option dbg_receiver a = dbg_option dbg_receiver b) by (intros [x|] [y|] G; try discriminate G; reflexivity).
        now rewrite (X _ _ S), (Y _ _ Re), (X _ _ S'), (Y _ _ Re').
    - unfold dbg_response. cbv zeta. rewrite !one_line_app, headers_line, (option_line _ _ version_line), body_line, !(option_line _ _ (str_line shown)),
        !(option_line _ dbg_sender), !(option_line _ dbg_receiver), (proj2 (proj2 (C100_status (rs_status a) (rs_status a)))) by reflexivity.
      destruct (e_flag (rs_trailers a)), (e_flag (rs_upgrade a)); reflexivity.
  Qed.

  (** Whatever is in the headers - passwords and tokens too - is in the text of the message. *)
  Theorem C112_headers_in_clear : forall V (q : request V) (p : response V),
    (exists x y, dbg_request shown dbg_url q = x ++ dbg_headers shown (c_headers (rq_common q)) ++ y) /\
    (exists x y, dbg_response shown p = x ++ dbg_headers shown (c_headers (rs_common p)) ++ y).
  Proof.
    intros V q p. split.
    - exists (lit "Request { method: " ++ dbg_method (rq_method q) ++ lit ", url: " ++ dbg_url (rq_url q) ++ lit ", headers: "). eexists.
      unfold dbg_request. cbv zeta. rewrite <- !app_assoc. reflexivity.
    - exists (lit "Response { status: " ++ dbg_status (rs_status p) ++ lit ", headers: "). eexists.
      unfold dbg_response. cbv zeta. rewrite <- !app_assoc. reflexivity.
  Qed.

  (** The fields, in the order of the structs. *)
  Theorem C112_fields : forall V (q : request V) (p : response V) (c : csp) k,
    let text := dbg_str shown in let opt {A} (f : A -> str) o := match o with Some x => tuple_text "Some"%string (f x) | None => lit "None" end in
    dbg_request shown dbg_url q = struct_text "Request"%string
      [("method"%string, dbg_method (rq_method q)); ("url"%string, dbg_url (rq_url q)); ("headers"%string, dbg_headers shown (c_headers (rq_common q)));
       ("version"%string, opt dbg_version (c_version (rq_common q))); ("body"%string, dbg_body (c_body (rq_common q)));
       ("local_addr"%string, opt text (c_local (rq_common q))); ("peer_addr"%string, opt text (c_peer (rq_common q))); ("ext"%string, lit "Extensions");
       ("trailers_sender"%string, opt (fun _ : nat => lit "Sender { .. }") (e_send (rq_trailers q))); ("trailers_receiver"%string, opt (fun _ : nat => lit "Receiver { .. }") (e_recv (rq_trailers q)));
       ("has_trailers"%string, dbg_bool (e_flag (rq_trailers q)))] /\
    dbg_response shown p = struct_text "Response"%string
      [("status"%string, dbg_status (rs_status p)); ("headers"%string, dbg_headers shown (c_headers (rs_common p))); ("version"%string, opt dbg_version (c_version (rs_common p)));
       ("has_trailers"%string, dbg_bool (e_flag (rs_trailers p)));
       ("trailers_sender"%string, opt (fun _ : nat => lit "Sender { .. }") (e_send (rs_trailers p))); ("trailers_receiver"%string, opt (fun _ : nat => lit "Receiver { .. }") (e_recv (rs_trailers p)));
       ("upgrade_sender"%string, opt (fun _ : nat => lit "Sender { .. }") (e_send (rs_upgrade p))); ("upgrade_receiver"%string, opt (fun _ : nat => lit "Receiver { .. }") (e_recv (rs_upgrade p)));
       ("has_upgrade"%string, dbg_bool (e_flag (rs_upgrade p))); ("body"%string, dbg_body (c_body (rs_common p))); ("ext"%string, lit "Extensions");
       ("local_addr"%string, opt text (c_local (rs_common p))); ("peer_addr"%string, opt text (c_peer (rs_common p)))] /\
    dbg_csp shown c = struct_text "ContentSecurityPolicy"%string
      [("policy"%string, dbg_list text (policy c)); ("report_only_flag"%string, dbg_bool (report_only_flag c));
       ("directives"%string, map_text (fun e => text (fst e) ++ [58; 32] ++ dbg_list text (snd e)) (directives c))] /\
    dbg_send_half k = struct_text "Sender"%string [("sender"%string, lit "Sender { .. }")] /\ dbg_recv_half k = struct_text "Receiver"%string [("receiver"%string, lit "Receiver { .. }")].
  Proof.
    intros V q p c k text opt. unfold text, opt, struct_text, map_text. cbn [map join fst snd]. repeat split.
    - unfold dbg_request. cbv zeta. rewrite <- !app_assoc. reflexivity.
    - unfold dbg_response. cbv zeta. rewrite <- !app_assoc. reflexivity.
    - unfold dbg_csp. rewrite <- !app_assoc. cbn [app lit]. reflexivity.
  Qed.
End Messages.

(** A version prints as "Http", its major number, an underscore and its minor number. *)
Theorem C112_version_names : forall v, dbg_version v = lit "Http" ++ show_dec (fst (version_number v)) ++ lit "_" ++ show_dec (snd (version_number v)).
Proof. intros []; vm_compute; reflexivity. Qed.

(** A body with and without text, sent with a password. *)
Example C112_example :
  let ascii_only := fun _ : N => false in let text u := dbg_str ascii_only (url_text u) in
  let r := request_new (V := unit) M_Post (mkUrl (lit "http://a/") (Some (lit "a"))) 7 in
  let q := mkRequest (rq_method r) (rq_url r) (mkCommon [(lit "authorization", [lit "Basic YTpi"])] (Some Http1_1) body_empty (c_ext (rq_common r)) None (Some (lit "x" ++ [10]))) (rq_trailers r) in
  dbg_request ascii_only text q =
    lit "Request { method: Post, url: ""http://a/"", headers: {""authorization"": ""Basic YTpi""}, version: Some(Http1_1), body: Body { reader: ""<hidden>"", length: Some(0), bytes_read: 0 }, local_addr: Some(""x\n""), peer_addr: None, ext: Extensions, trailers_sender: Some(Sender { .. }), trailers_receiver: Some(Receiver { .. }), has_trailers: false }" /\
  dbg_csp ascii_only (insert_directive csp_default (lit "base-uri") (lit "'none'")) =
    lit "ContentSecurityPolicy { policy: [""script-src 'self'; object-src 'self'""], report_only_flag: false, directives: {""base-uri"": [""'none'""]} }".
Proof. vm_compute. auto. Qed.
(** A printer of URLs that meets the hypotheses. *)
Example C112_url_example : forall shown, let text u := lit "Url { text: " ++ dbg_str shown (url_text u) ++ lit ", host: " ++ dbg_option (dbg_str shown) (url_host u) ++ lit " }" in
  delim text /\ (forall u, one_line (text u) = true).
Proof.
  intros shown. cbv zeta. split.
  - intros [u h] [v g] r r' S S' E. cbn [url_text url_host] in E. field E (str_delim shown). field E (option_delim _ _ (str_delim shown)). apply app_inv_head in E. split; congruence.
  - intros u. now rewrite !one_line_app, str_line, (option_line _ _ (str_line shown)).
Qed.
Print Assumptions C112_policy.
Print Assumptions C112_request.
Print Assumptions C112_response.
Print Assumptions C112_headers_in_clear.
Print Assumptions C112_fields.
Print Assumptions C112_version_names.
