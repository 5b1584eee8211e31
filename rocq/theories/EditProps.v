(** C123: clients that edit one resource at the same time, with [ETag] and [IfMatch]. *)
From Coq Require Import ZifyBool ZifyNat ZifyN Lia ZArith.
From Verif Require Import Base BaseFacts Headers HeadersFacts Typed TypedFacts Conditional ConditionalProps RoundTripProps HttpDate Other OtherProps RevalidateProps.

Section Editing.
  Context {A : Type} (tag : nat -> etag).

  (** The resource and its version, and for each client what it got last: the content and the headers of the response. *)
  Record world : Type := World { content : A; version : nat; seen : nat -> option (A * headers) }.
  (** A client fetches the resource; or it changes what it got last with [f] and sends that back.  [h] and [q] are the other headers
      of the response and the request. *)
  Inductive act : Type := Get (i : nat) (h : headers) | Put (i : nat) (f : A -> A) (q : headers).
  (** The check of the server. *)
  Definition admits (current : etag) (q : headers) : bool :=
    match cond_from_headers IfMatch q with Ok (Some (tags, star)) => star || existsb (etag_eqb current) tags | _ => false end.
  Definition put_seen (w : world) (i : nat) (x : A * headers) : world :=
    World (content w) (version w) (fun j => if Nat.eqb j i then Some x else seen w j).
  (** One act; the second part is the change if it was admitted. *)
  Definition act_on (w : world) (a : act) : world * list (A -> A) :=
    match a with
    | Get i h => (put_seen w i (content w, etag_apply h (tag (version w))), [])
    | Put i f q =>
        match seen w i with
        | Some (c, r) =>
            match etag_from_headers r with
            | Ok (Some e) => if admits (tag (version w)) (cond_apply IfMatch q ([e], false)) then (World (f c) (Datatypes.S (version w)) (seen w), [f]) else (w, [])
            | _ => (w, [])
            end
        | None => (w, [])
        end
    end.
  Fixpoint acts_on (w : world) (l : list act) : world * list (A -> A) :=
    match l with [] => (w, []) | a :: l => let (w1, fs) := act_on w a in let (w2, gs) := acts_on w1 l in (w2, fs ++ gs) end.
  Definition start (c : A) : world := World c 0 (fun _ => None).

  (** What clients remember is of some version, and if that is the present one it is the present content. *)
  Definition honest (w : world) : Prop := forall i c r, seen w i = Some (c, r) ->
    exists v h, (v <= version w)%nat /\ r = etag_apply h (tag v) /\ (v = version w -> c = content w).

  Lemma eqb_ok : forall a b, etag_eqb a b = true <-> a = b.
  Proof. intros [s|s] [t|t]; cbn [etag_eqb]; rewrite ?seqb_eq; split; try congruence; discriminate. Qed.
  Lemma read_back : forall h v e, etag_from_headers (etag_apply h (tag v)) = Ok (Some e) -> e = tag v /\ valid_etag e.
  Proof.
    intros h v e E. destruct (forallb etag_char (opaque (tag v))) eqn:F.
    - apply etag_chars_spec in F. rewrite (C39_round_trip_partial h (tag v) F) in E. injection E as <-. split; [reflexivity|exact F].
    - rewrite C39_invalid_tag_never_read_as_another in E; [discriminate E|]. intros V. apply etag_chars_spec in V. congruence.
  Qed.
  Lemma admitted : forall current q e, valid_etag e -> (admits current (cond_apply IfMatch q ([e], false)) = true <-> e = current /\ no_comma (opaque e)).
  Proof.
    intros current q e V. unfold admits. destruct (no_char 44 (opaque e)) eqn:C.
    - assert (NC : no_comma (opaque e)) by (now apply no_comma_spec).
      rewrite (C40_round_trip_partial IfMatch q [e] false) by (first [left; discriminate|repeat constructor; assumption]). cbn [orb existsb]. rewrite orb_false_r, eqb_ok. intuition.
    - assert (NC : ~ no_comma (opaque e)) by (intros X; apply no_comma_spec in X; congruence).
      rewrite (C40_comma_always_fails IfMatch q [e] false); [|repeat constructor; assumption|now constructor]. split; [discriminate|intros [_ X]; contradiction].
  Qed.

  Hypothesis distinct : forall v v', tag v = tag v' -> v = v'.

  Lemma honest_act : forall w a w' fs, honest w -> act_on w a = (w', fs) -> honest w' /\ content w' = fold_left (fun c f => f c) fs (content w).
  Proof.
    intros w [i h|i f q] w' fs H E; cbn [act_on] in E.
    - inv E. split; [|reflexivity]. intros j c r S. cbn [put_seen seen version content] in *. destruct (Nat.eqb j i); [|exact (H j c r S)].
      injection S as <- <-. exists (version w), h. auto.
    - destruct (seen w i) as [[c r]|] eqn:S; [|inv E; split; [exact H|reflexivity]]. destruct (H i c r S) as (v & h & L & -> & C).
      destruct (etag_from_headers (etag_apply h (tag v))) as [[e|]| |] eqn:R; try (inv E; split; [exact H|reflexivity]).
      destruct (read_back h v e R) as [-> V].
      destruct (admits (tag (version w)) (cond_apply IfMatch q ([tag v], false))) eqn:M; [|inv E; split; [exact H|reflexivity]].
      apply (admitted _ q _ V) in M as [M _]. apply distinct in M. inv E. cbn [content fold_left]. split; [|now rewrite (C eq_refl)].
      intros j c' r' S'. cbn [seen version content] in *. destruct (H j c' r' S') as (v' & h' & L' & -> & C'). exists v', h'. split; [lia|]. split; [reflexivity|lia].
  Qed.

  (** The resource is what the admitted changes make of it, carried out one after the other: none is lost. *)
  Theorem C123_serial : forall c l w fs, acts_on (start c) l = (w, fs) -> content w = fold_left (fun c f => f c) fs c.
  Proof.
    intros c l. assert (G : forall l w w' fs, honest w -> acts_on w l = (w', fs) -> content w' = fold_left (fun c f => f c) fs (content w)).
    { clear - distinct. intros l. induction l as [|a l IH]; intros w w' fs H E; cbn [acts_on] in E; [now inv E|].
      destruct (act_on w a) as [w1 f1] eqn:E1. destruct (acts_on w1 l) as [w2 f2] eqn:E2. inv E. destruct (honest_act w a w1 f1 H E1) as [H1 C1].
      rewrite fold_left_app, <- C1. now apply IH. }
    intros w fs E. apply (G l (start c) w fs); [|exact E]. intros i c' r S. discriminate S.
  Qed.

  (** A client that got the present version is let in, exactly if the tag can be read and has no comma. *)
  Theorem C123_admitted : forall w i f q h,
    let w1 := fst (act_on w (Get i h)) in
    (snd (act_on w1 (Put i f q)) = [f] <-> Forall etagc (opaque (tag (version w))) /\ ~ In 44 (opaque (tag (version w)))).
  Proof.
    intros w i f q h. cbn zeta. cbn [act_on fst put_seen seen version content]. rewrite Nat.eqb_refl.
    destruct (forallb etag_char (opaque (tag (version w)))) eqn:F.
    - assert (V := F). apply etag_chars_spec in V. rewrite (C39_round_trip_partial h (tag (version w)) V).
      destruct (admits (tag (version w)) (cond_apply IfMatch q ([tag (version w)], false))) eqn:M.
      + apply (admitted _ q _ V) in M as [_ M]. split; [|reflexivity]. intros _. split; [exact V|]. exact M.
      + split; [discriminate|]. intros [_ N]. exfalso. assert (T : admits (tag (version w)) (cond_apply IfMatch q ([tag (version w)], false)) = true) by (apply admitted; [exact V|split; [reflexivity|exact N]]). congruence.
    - rewrite C39_invalid_tag_never_read_as_another; [|intros V; apply etag_chars_spec in V; congruence]. split; [discriminate|]. intros [V _]. apply etag_chars_spec in V. congruence.
  Qed.
End Editing.
Print Assumptions C123_serial.
Print Assumptions C123_admitted.

(** FALSE with dates instead of tags: [LastModified] and [IfUnmodifiedSince] know only seconds, so a client that saw the resource of [t]
    is let in although it was changed at [t'], and that change is lost. *)
Theorem C123_dates_refuted : exists t t' h since, (t < t')%Z /\ date_apply LastModified [] t = Ok h /\
  (forall v, h_get h (lit "last-modified") = Some [v] -> date_from_headers IfUnmodifiedSince (apply_value [] (lit "if-unmodified-since") v) = Ok (Some since)) /\
  (whole_seconds t' <= since)%Z.
Proof.
  exists 1200000000%Z, 1700000000%Z, [(lit "last-modified", [lit "Thu, 01 Jan 1970 00:00:01 GMT"])], 1000000000%Z.
  split; [lia|]. split; [vm_compute; reflexivity|]. split; [|vm_compute; discriminate].
  intros v G. injection G as <-. vm_compute. reflexivity.
Qed.
Print Assumptions C123_dates_refuted.

(** Two clients count: the one that comes second is refused, fetches again and is then let in. *)
Example C123_example :
  let tag v := Strong (lit "v" ++ show_dec (N.of_nat v)) in
  let r := acts_on tag (start 10) [Get 1 []; Get 2 []; Put 1 (N.add 5) []; Put 2 (N.mul 2) []; Get 2 []; Put 2 (N.mul 2) []; Put 1 (N.add 1) []] in
  content (fst r) = 30 /\ length (snd r) = 2%nat /\ version (fst r) = 2%nat /\ (forall v v', tag v = tag v' -> v = v').
Proof.
  cbn zeta. split; [vm_compute; reflexivity|]. split; [vm_compute; reflexivity|]. split; [vm_compute; reflexivity|].
  intros v v' E. injection E as E. assert (P := parse_show_dec (N.max (N.of_nat v) (N.of_nat v')) (N.of_nat v) ltac:(lia)).
  rewrite E in P. rewrite parse_show_dec in P by lia. injection P as P. lia.
Qed.
