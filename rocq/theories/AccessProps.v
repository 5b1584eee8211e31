(** C109: who is let in by a server that checks Basic credentials against its accounts. *)
From Verif Require Import Base BaseFacts Headers HeadersFacts Method Typed TypedFacts Auth AuthProps AuthExactProps Message Hyperium HyperiumProps LastProps OwnProps TripProps.
From Coq Require Import ZifyBool ZifyNat ZifyN.

(** The server's accounts, names with passwords.  A request is served on behalf of [u] when [BasicAuth::from_headers] gives a pair
    that is among them. *)
Definition serves (accounts : list (str * str)) (h : headers) (u : str) : Prop :=
  exists p, basic_from_headers h = Ok (Some (u, p)) /\ In (u, p) accounts.

Lemma first_colon : forall a b c d : str, ~ In 58 a -> ~ In 58 c -> a ++ 58 :: b = c ++ 58 :: d -> a = c /\ b = d.
Proof.
  induction a as [|x a IH]; intros b [|y c] d A C E; cbn [app] in E.
  - injection E as <-. auto.
  - injection E as <- _. destruct C. now left.
  - injection E as -> _. destruct A. now left.
  - injection E as <- E. destruct (IH b c d) as [-> ->]; auto; intros F; [apply A|apply C]; now right.
Qed.
Lemma colon_cases : forall u : str, ~ In 58 u \/ exists a b, u = a ++ [58] ++ b /\ ~ In 58 a.
Proof.
  induction u as [|c u IH]; [left; intros []|]. destruct (N.eq_dec c 58) as [->|N]; [right; exists [], u; split; [reflexivity|intros []]|].
  destruct IH as [H|(a & b & -> & H)]; [left; intros [F|F]; auto|]. right. exists (c :: a), b. split; [reflexivity|]. intros [F|F]; auto.
Qed.
Lemma read_written : forall h u p v q, valid_str u = true -> valid_str p = true ->
  basic_from_headers (basic_apply h (u, p)) = Ok (Some (v, q)) <-> ~ In 58 v /\ v ++ [58] ++ q = u ++ [58] ++ p.
Proof.
  intros h u p v q U P. destruct (colon_cases u) as [C|(a & b & -> & C)].
  - rewrite C45_round_trip_partial by assumption. split.
    + intros H. assert (v = u /\ q = p) as [-> ->] by (split; congruence). auto.
    + intros [D E]. destruct (first_colon v q u p D C E) as [-> ->]. reflexivity.
  - rewrite C45_colon_always_wrong by assumption. split.
    + intros H. assert (v = a /\ q = b ++ [58] ++ p) as [-> ->] by (split; congruence). split; [exact C|]. rewrite <- !app_assoc. reflexivity.
    + intros [D E]. rewrite <- !app_assoc in E. destruct (first_colon v q a (b ++ [58] ++ p) D C E) as [-> ->]. reflexivity.
Qed.

(** Whom a client's credentials make it: exactly the accounts whose name, colon and password spell the same text. *)
Theorem C109_client : forall accounts h u p v, valid_str u = true -> valid_str p = true ->
  serves accounts (basic_apply h (u, p)) v <-> exists q, In (v, q) accounts /\ ~ In 58 v /\ v ++ [58] ++ q = u ++ [58] ++ p.
Proof.
  intros accounts h u p v U P. unfold serves. split.
  - intros (q & R & I). apply read_written in R; auto. exists q. tauto.
  - intros (q & I & R). exists q. split; [|exact I]. now apply read_written.
Qed.
(** So a client whose name has no colon is let in exactly when it has an account with that password, and as nobody else,
    whatever credentials the message had before. *)
Theorem C109_own_account : forall accounts h u p v, valid_str u = true -> valid_str p = true -> ~ In 58 u ->
  serves accounts (basic_apply h (u, p)) v <-> v = u /\ In (u, p) accounts.
Proof.
  intros accounts h u p v U P C. rewrite C109_client by assumption. split.
  - intros (q & I & D & E). destruct (first_colon v q u p D C E) as [-> ->]. auto.
  - intros [-> I]. exists p. auto.
Qed.
(** With several Authorization headers the last one decides; no text lets anyone in but the word Basic, a space and
    the base64 form of an account's name, colon and password, perhaps without its padding. *)
Theorem C109_needs_password : forall accounts h u, serves accounts h u <->
  exists p vs s c k, In (u, p) accounts /\ valid_str u = true /\ valid_str p = true /\ ~ In 58 u /\
    h_get h (lit "authorization") = Some (vs ++ [s ++ [32] ++ c]) /\ to_lower s = lit "basic" /\
    c ++ repeat 61 k = b64_encode (Utf8.utf8_encode (u ++ [58] ++ p)).
Proof.
  intros accounts h u. unfold serves. split.
  - intros (p & R & I). apply C45_accepted_iff in R. destruct R as (U & P & C & vs & s & c & k & R). exists p, vs, s, c, k. tauto.
  - intros (p & vs & s & c & k & I & U & P & C & R). exists p. split; [|exact I]. apply C45_accepted_iff. repeat split; auto. exists vs, s, c, k. exact R.
Qed.
(** An account with a colon in its name is of no use. *)
Theorem C109_colon_account : forall accounts h u, In 58 u -> ~ serves accounts h u.
Proof. intros accounts h u C S. apply C109_needs_password in S. destruct S as (p & vs & s & c & k & _ & _ & _ & N & _). contradiction. Qed.

(** The whole dialogue.  The server answers with a challenge for its realm; the client looks up its credentials for the realm it reads, and
    if it has some sends its request again with them. *)
Definition reply (wallet : str -> option (str * str)) (response : headers) (request : headers) : headers :=
  match www_from_headers response with
  | Ok (Some (Basic, realm)) => match wallet realm with Some a => basic_apply request a | None => request end
  | _ => request
  end.
Theorem C109_dialogue : forall accounts wallet response request realm u p v, valid_str u = true -> valid_str p = true -> ~ In 58 u -> ~ In 34 realm ->
  wallet realm = Some (u, p) ->
  serves accounts (reply wallet (www_apply response (Basic, realm)) request) v <-> v = u /\ In (u, p) accounts.
Proof.
  intros accounts wallet response request realm u p v U P C Q W. unfold reply. rewrite C47_round_trip_partial by exact Q. rewrite W.
  now apply C109_own_account.
Qed.
(** Without credentials for the realm, or challenged for another scheme, the client reveals nothing. *)
Theorem C109_silent : forall wallet response request sch realm, ~ In 34 realm -> sch <> Basic \/ wallet realm = None ->
  reply wallet (www_apply response (sch, realm)) request = request.
Proof.
  intros wallet response request sch realm Q H. unfold reply. rewrite C47_round_trip_partial by exact Q.
  destruct sch; try reflexivity. destruct H as [H|H]; [destruct (H eq_refl)|]. now rewrite H.
Qed.

(** A request that was given its credentials with [BasicAuth::apply] is served the same after conversion to the http crate and back. *)
Theorem C109_trip : forall name_ok uri_of url_of (V : Type) (r r' : request V) h a accounts u,
  proper (c_headers (rq_common r)) -> c_headers (rq_common r) = basic_apply h a -> request_trip name_ok uri_of url_of r r' ->
  serves accounts (c_headers (rq_common r')) u <-> serves accounts (c_headers (rq_common r)) u.
Proof.
  intros name_ok uri_of url_of V r r' h a accounts u P E T. unfold serves.
  assert (O : own_header_only basic_from_headers (lit "authorization")).
  { intros h1 h2 G. unfold basic_from_headers, auth_from_headers, with_last. change AUTHORIZATION with (lit "authorization"). rewrite G. reflexivity. }
  rewrite (C97_written_request name_ok uri_of url_of _ basic_from_headers (lit "authorization") h r r' O ltac:(discriminate) P); [reflexivity| |exact T].
  rewrite E. split; [eexists; unfold basic_apply, auth_apply; apply get_apply|]. intros n N. unfold basic_apply, auth_apply. now apply get_apply_other.
Qed.

(** A client that logs in under a name with a colon is somebody else ... *)
Theorem C109_other_name_refuted : exists accounts u p, ~ In u (map fst accounts) /\ serves accounts (basic_apply headers_new (u, p)) (lit "ann").
Proof.
  exists [(lit "ann", lit "x:secret")], (lit "ann:x"), (lit "secret"). split; [intros [F|[]]; discriminate F|].
  exists (lit "x:secret"). split; [vm_compute; reflexivity|now left].
Qed.
(** ... and a request with two Authorization headers is served for one user before, for another after conversion to the http crate and back. *)
Definition two_users : headers := [(lit "authorization", [lit "Basic YW5uOjE="; lit "Basic Ym9iOjI="])].
Theorem C109_trip_refuted : exists accounts (r r' : request unit), proper (c_headers (rq_common r)) /\
  request_trip toy_name Some (fun _ => Some toy_url) r r' /\
  serves accounts (c_headers (rq_common r)) (lit "bob") /\ ~ serves accounts (c_headers (rq_common r')) (lit "bob") /\
  serves accounts (c_headers (rq_common r')) (lit "ann").
Proof.
  exists [(lit "ann", lit "1"); (lit "bob", lit "2")], (toy_request two_users).
  eexists. split; [|split; [eexists; exists 0%nat; split; [vm_compute; reflexivity|vm_compute; reflexivity]|]].
  - split; [repeat constructor; cbn; intuition discriminate|]. intros n vs [E|[]]; injection E as <- <-; reflexivity.
  - split; [exists (lit "2"); split; [vm_compute; reflexivity|right; now left]|].
    split; [|exists (lit "1"); split; [vm_compute; reflexivity|now left]].
    intros (p & R & _). vm_compute in R. discriminate R.
Qed.

Print Assumptions C109_client.
Print Assumptions C109_own_account.
Print Assumptions C109_needs_password.
Print Assumptions C109_colon_account.
Print Assumptions C109_dialogue.
Print Assumptions C109_silent.
Print Assumptions C109_trip.
Print Assumptions C109_other_name_refuted.
Print Assumptions C109_trip_refuted.

(** A client with a password for the realm "files" answers its challenge, and is served; with a wrong password it is not. *)
Example C109_example :
  let accounts := [(lit "ann", lit "1:2"); (lit "bob", [233; 8364])] in
  let wallet realm := if seqb realm (lit "files") then Some (lit "bob", [233; 8364]) else None in
  let challenge := www_apply headers_new (Basic, lit "files") in
  serves accounts (reply wallet challenge headers_new) (lit "bob") /\
  ~ serves accounts (reply wallet challenge headers_new) (lit "ann") /\
  reply wallet (www_apply headers_new (Bearer, lit "files")) headers_new = headers_new /\
  reply wallet (www_apply headers_new (Basic, lit "mail")) headers_new = headers_new /\
  ~ serves accounts (basic_apply headers_new (lit "bob", lit "e")) (lit "bob").
Proof.
  cbv zeta. assert (W : forall v, serves [(lit "ann", lit "1:2"); (lit "bob", [233; 8364])]
    (reply (fun realm => if seqb realm (lit "files") then Some (lit "bob", [233; 8364]) else None) (www_apply headers_new (Basic, lit "files")) headers_new) v
    <-> v = lit "bob" /\ In (lit "bob", [233; 8364]) [(lit "ann", lit "1:2"); (lit "bob", [233; 8364])]).
  { intros v. apply C109_dialogue; try reflexivity; vm_compute; intuition discriminate. }
  split; [apply W; split; [reflexivity|right; now left]|]. split; [intros F; apply W in F; destruct F as [F _]; discriminate F|].
  split; [apply C109_silent; [vm_compute; intuition discriminate|left; discriminate]|].
  split; [apply C109_silent; [vm_compute; intuition discriminate|right; reflexivity]|].
  intros F. apply C109_own_account in F; [|reflexivity|reflexivity|vm_compute; intuition discriminate].
  destruct F as [_ [F|[F|[]]]]; discriminate F.
Qed.
Example C109_trip_case : exists r r' : request unit, proper (c_headers (rq_common r)) /\ c_headers (rq_common r) = basic_apply headers_new (lit "bob", lit "2") /\
  request_trip toy_name Some (fun _ => Some toy_url) r r' /\ serves [(lit "bob", lit "2")] (c_headers (rq_common r')) (lit "bob").
Proof.
  exists (toy_request (basic_apply headers_new (lit "bob", lit "2"))). eexists. split; [|split; [reflexivity|split; [eexists; exists 0%nat; split; [vm_compute; reflexivity|vm_compute; reflexivity]|]]].
  - split; [repeat constructor; cbn; intuition discriminate|]. intros n vs [E|[]]; injection E as <- <-; reflexivity.
  - exists (lit "2"). split; [vm_compute; reflexivity|now left].
Qed.
