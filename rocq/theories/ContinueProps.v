(** C129: a client that waits for leave to send its body.  RFC 9110, section 10.1.1: a client that sent [Expect: 100-continue] keeps the body back
    until the server answers 100 or a final status; a server that meets the expectation sends 100 before it reads the body.  Client and server
    run at the same time over two streams; every interleaving is looked at. *)
From Coq Require Import ZifyBool ZifyNat ZifyN Lia.
From Verif Require Import Base BaseFacts Headers HeadersFacts Typed TypedFacts Other OtherProps.

Inductive client_at : Type := Start | Waits | Sends (left : N) | Got (status : N).
Inductive server_at : Type := Idle | Reads (want got : N) | Done (got : N).
Inductive item : Type := Head | Chunk (k : N).
Record wire : Type := Wire { at_client : client_at; at_server : server_at; up : list item; down : list N }.

(** What the server does with the head of the request, reading both headers with this crate. *)
Inductive decision : Type := Refuse (status : N) | Invite (want : N) | ReadOn (want : N).
Definition decide (willing : headers -> bool) (h : headers) : decision :=
  match expect_from_headers h, length_from_headers h with
  | Ok e, Ok o =>
    let want := match o with Some n => n | None => 0 end in
    if willing h then match e with Some _ => Invite want | None => ReadOn want end else Refuse 417
  | Err s, _ | _, Err s => Refuse s
  | Panic, _ | _, Panic => Refuse 500
  end.

(** One thing that happens; the body has [n] bytes. *)
Inductive happens (d : decision) (n : N) : wire -> wire -> Prop :=
| ask : forall s u w, happens d n (Wire Start s u w) (Wire Waits s (u ++ [Head]) w)
| refuse : forall st c u w, d = Refuse st -> happens d n (Wire c Idle (Head :: u) w) (Wire c (Done 0) u (w ++ [st]))
| invite : forall want c u w, d = Invite want -> happens d n (Wire c Idle (Head :: u) w) (Wire c (Reads want 0) u (w ++ [100]))
| read_on : forall want c u w, d = ReadOn want -> happens d n (Wire c Idle (Head :: u) w) (Wire c (Reads want 0) u w)
| leave : forall s u w, happens d n (Wire Waits s u (100 :: w)) (Wire (Sends n) s u w)
| final : forall c st s u w, c = Waits \/ (exists l, c = Sends l) -> 200 <= st -> happens d n (Wire c s u (st :: w)) (Wire (Got st) s u w)
| send : forall k l s u w, 1 <= k <= l -> happens d n (Wire (Sends l) s u w) (Wire (Sends (l - k)) s (u ++ [Chunk k]) w)
| receive : forall k want got c u w, happens d n (Wire c (Reads want got) (Chunk k :: u) w) (Wire c (Reads want (got + k)) u w)
| answer : forall want got c u w, want <= got -> happens d n (Wire c (Reads want got) u w) (Wire c (Done got) u (w ++ [200])).
Inductive runs (d : decision) (n : N) : nat -> wire -> wire -> Prop :=
| stays : forall s, runs d n 0 s s
| goes : forall k s s' s'', runs d n k s s' -> happens d n s' s'' -> runs d n (S k) s s''.
Definition begin : wire := Wire Start Idle [] [].
Definition over (s : wire) : Prop := exists st, at_client s = Got st.

(** ** Every run ends *)
Definition cost (n : N) (s : wire) : N :=
  match at_client s with Start => 2 * n + 3 | Waits => 2 * n + 2 | Sends l => 2 * l + 1 | Got _ => 0 end +
  match at_server s with Idle => 2 | Reads _ _ => 1 | Done _ => 0 end +
  fold_right (fun i a => match i with Chunk _ => 1 | Head => 0 end + a) 0 (up s).
Lemma cost_snoc : forall u i, fold_right (fun i a => match i with Chunk _ => 1 | Head => 0 end + a) 0 (u ++ [i]) =
  fold_right (fun i a => match i with Chunk _ => 1 | Head => 0 end + a) 0 u + match i with Chunk _ => 1 | Head => 0 end.
Proof. induction u as [|j u IH]; intros i; cbn [app fold_right]; [destruct i; reflexivity|]. rewrite IH. lia. Qed.
Lemma cost_less : forall d n s s', happens d n s s' -> cost n s' + 1 <= cost n s.
Proof.
  intros d n s s' H. destruct H; unfold cost; cbn [at_client at_server up]; try rewrite cost_snoc; cbn [fold_right]; try lia.
  destruct H as [->|[l ->]]; lia.
Qed.
(** Whatever the head says and whatever the server decides, no run has more steps than this. *)
Theorem C129_ends : forall d n k s, runs d n k begin s -> N.of_nat k <= 2 * n + 5.
Proof.
  intros d n k s R. assert (G : N.of_nat k + cost n s <= cost n begin).
  { remember begin as b. induction R; [lia|]. specialize (IHR Heqb). apply cost_less in H. lia. }
  unfold cost at 2 in G. cbn [begin at_client at_server up fold_right] in G. lia.
Qed.
Print Assumptions C129_ends.

(** ** The exchange *)
Definition total (u : list item) : N := fold_right (fun i a => match i with Chunk k => k | Head => 0 end + a) 0 u.
Definition chunks (u : list item) : Prop := Forall (fun i => exists k, i = Chunk k /\ 1 <= k) u.
Lemma total_snoc : forall u k, total (u ++ [Chunk k]) = total u + k.
Proof. induction u as [|j u IH]; intros k; cbn [app total fold_right]; [lia|]. fold (total (u ++ [Chunk k])) (total u). rewrite IH. lia. Qed.
(** The leave is still under way or was taken; the last answer is still to be given or was given. *)
Definition talking (n : N) (s : wire) : Prop :=
  exists (w f : bool) left got u, s = Wire (if w then Waits else Sends left) (if f then Done got else Reads n got) u ((if w then [100] else []) ++ (if f then [200] else [])) /\
    (w = true -> left = n) /\ (f = true -> got = n) /\ chunks u /\ got + total u + left = n.
Definition invited (n : N) (s : wire) : Prop :=
  s = begin \/ s = Wire Waits Idle [Head] [] \/ talking n s \/ s = Wire (Got 200) (Done n) [] [].
Definition turned_away (st : N) (s : wire) : Prop :=
  s = begin \/ s = Wire Waits Idle [Head] [] \/ s = Wire Waits (Done 0) [] [st] \/ s = Wire (Got st) (Done 0) [] [].

Lemma chunks_nil : forall u, chunks u -> total u = 0 -> u = [].
Proof. intros [|i u] C T; [reflexivity|]. inv C. destruct H1 as (k & -> & L). cbn [total fold_right] in T. fold (total u) in T. lia. Qed.
Lemma invited_step : forall n s s', invited n s -> happens (Invite n) n s s' -> invited n s'.
Proof.
  intros n s s' [->|[->|[T| ->]]] H.
  - inv H; right; left; reflexivity.
  - inv H; try discriminate; try congruence.
    + inv H4. right. right. left. eexists true, false, _, 0, []. cbn. repeat split; try lia; try constructor; discriminate.
  - destruct T as (w & f & left & got & u & -> & W & F & C & E). right. right. apply N.eqb_eq in E.
    assert (RC : forall k u0, u = Chunk k :: u0 -> chunks u0 /\ got + k + total u0 + left = n).
    { intros k u0 ->. split; [now apply Forall_inv_tail in C|]. apply N.eqb_eq in E. cbn [total fold_right] in E. fold (total u0) in E. lia. }
    assert (SD : forall k, 1 <= k <= left -> chunks (u ++ [Chunk k]) /\ got + total (u ++ [Chunk k]) + (left - k) = n).
    { intros k L. split; [apply Forall_app; split; [exact C|]; constructor; [|constructor]; exists k; split; [reflexivity|lia]|]. rewrite total_snoc. lia. }
    destruct w, f; cbn [app] in H.
    + specialize (W eq_refl). specialize (F eq_refl). inversion H as [| | | |s0 u0 w0 X| c0 st0 s0 u0 w0 Y Z X| | |]; subst; [|lia].
      left. exists false, true, n, n, u. repeat split; auto; lia.
    + specialize (W eq_refl). clear F SD. subst left. inversion H as [| | | |s0 u0 w0 X| c0 st0 s0 u0 w0 Y Z X| |k w0 g0 c0 u0 d0|w0 g0 c0 u0 d0 L]; subst.
      * left. exists false, false, n, got, u. repeat split; auto; (discriminate || lia).
      * lia.
      * destruct (RC k u0 eq_refl) as [C2 E2]. left. exists true, false, n, (got + k), u0. repeat split; auto; (discriminate || lia).
      * left. exists true, true, n, got, u. repeat split; auto; try discriminate; intros; lia.
    + specialize (F eq_refl). subst got. inversion H as [| | | | | c0 st0 s0 u0 w0 Y Z X|k l s0 u0 w0 L| |]; subst.
      * right. assert (total u = 0 /\ left = 0) as [T T2] by lia. now rewrite (chunks_nil u C T).
      * destruct (SD k L) as [C2 E2]. left. exists false, true, (left - k), n, (u ++ [Chunk k]). repeat split; auto; (discriminate || lia).
    + clear W F. inversion H as [| | | | | |k l s0 u0 w0 L|k w0 g0 c0 u0 d0|w0 g0 c0 u0 d0 L]; subst.
      * destruct (SD k L) as [C2 E2]. left. exists false, false, (left - k), got, (u ++ [Chunk k]). repeat split; auto; (discriminate || lia).
      * destruct (RC k u0 eq_refl) as [C2 E2]. left. exists false, false, left, (got + k), u0. repeat split; auto; (discriminate || lia).
      * left. exists false, true, left, got, u. repeat split; auto; try discriminate; intros; lia.
  - inversion H as [| | | | | | | |]; subst.
Qed.
Lemma turned_step : forall st n s s', 200 <= st -> turned_away st s -> happens (Refuse st) n s s' -> turned_away st s'.
Proof.
  intros st n s s' G [->|[->|[->| ->]]] H; inversion H; subst; try discriminate; try lia.
  - right. left. reflexivity.
  - match goal with X : Refuse _ = Refuse _ |- _ => injection X as X; subst end. right. right. left. reflexivity.
  - right. right. right. reflexivity.
Qed.
Lemma invited_all : forall n k s, runs (Invite n) n k begin s -> invited n s.
Proof.
  intros n k s R. remember begin as b. induction R; subst; [now left|]. eapply invited_step; [now apply IHR|eassumption].
Qed.
Lemma turned_all : forall st n k s, 200 <= st -> runs (Refuse st) n k begin s -> turned_away st s.
Proof.
  intros st n k s G R. remember begin as b. induction R; subst; [now left|]. eapply turned_step; [exact G|now apply IHR|eassumption].
Qed.

(** The head as this crate writes it. *)
Definition head (h : headers) (n : N) : headers := expect_apply (length_apply h n).
Lemma decide_head : forall willing h n, n <= u64_max -> decide willing (head h n) = if willing (head h n) then Invite n else Refuse 417.
Proof.
  intros willing h n L. unfold decide. unfold head at 1 2. rewrite C58_round_trip.
  assert (E : length_from_headers (expect_apply (length_apply h n)) = Ok (Some n)).
  { unfold length_from_headers, with_last, expect_apply. rewrite get_apply_other by discriminate.
    unfold length_apply. rewrite get_apply. cbn [values_last rev app bind]. unfold length_parse. rewrite trim_id by apply show_dec_no_edge. rewrite parse_show_dec by exact L. reflexivity. }
  rewrite E. reflexivity.
Qed.

(** In every interleaving: as long as the client has no final answer something can happen; a server that is willing ends with the whole body and
    answers 200, one that is not answers 417 and no byte of the body was sent. *)
Theorem C129_exchange : forall willing h n k s, n <= u64_max -> runs (decide willing (head h n)) n k begin s ->
  (over s \/ exists s', happens (decide willing (head h n)) n s s') /\
  (forall st, at_client s = Got st -> if willing (head h n) then st = 200 /\ at_server s = Done n else st = 417 /\ at_server s = Done 0) /\
  (willing (head h n) = false -> forall i, In i (up s) -> i = Head).
Proof.
  intros willing h n k s L R. rewrite decide_head in * by exact L. destruct (willing (head h n)).
  - apply invited_all in R. split; [|split; [|discriminate]].
    + destruct R as [->|[->|[T| ->]]]; [right; eexists; apply ask|right; eexists; now apply invite| |left; eexists; reflexivity].
      destruct T as (w & f & left & got & u & -> & W & F & C & E). right. destruct w; cbn [app].
      * eexists. apply leave.
      * destruct f; [eexists; apply final; [right; eauto|lia]|]. destruct u as [|i u].
        -- destruct (N.eq_dec left 0) as [->|Z]; [|eexists; apply (send _ _ 1); lia]. cbn in E. eexists. apply answer. lia.
        -- inv C. destruct H1 as (c & -> & _). eexists. apply receive.
    + intros st E. destruct R as [->|[->|[T| ->]]]; try discriminate E; [|inv E; auto].
      destruct T as (w & f & left & got & u & -> & _). destruct w; discriminate E.
  - apply turned_all in R; [|lia]. split; [|split].
    + destruct R as [->|[->|[->| ->]]]; [right; eexists; apply ask|right; eexists; now apply refuse| |left; eexists; reflexivity].
      right. eexists. apply final; [now left|lia].
    + intros st E. destruct R as [->|[->|[->| ->]]]; try discriminate E. inv E. auto.
    + intros _ i I. destruct R as [->|[->|[->| ->]]]; cbn in I; intuition.
Qed.
Print Assumptions C129_exchange.

(** False if the expectation is spelled with other capitals, which RFC 9110 permits: a willing server answers 400 and gets no body. *)
Theorem C129_spelling_refuted : exists v, to_lower v = lit "100-continue" /\
  let h := [(CONTENT_LENGTH, [lit "3"]); (EXPECT, [v])] in decide (fun _ => true) h = Refuse 400 /\
  forall k s st, runs (Refuse 400) 3 k begin s -> at_client s = Got st -> st = 400 /\ at_server s = Done 0.
Proof.
  exists (lit "100-Continue"). split; [reflexivity|]. split; [vm_compute; reflexivity|]. intros k s st R E.
  apply turned_all in R; [|lia]. destruct R as [->|[->|[->| ->]]]; try discriminate E. inv E. auto.
Qed.
Print Assumptions C129_spelling_refuted.
(** False if a hop between them takes the header away: both wait for each other, and nothing can happen any more. *)
Theorem C129_removed_refuted : exists h k s, runs (decide (fun _ => true) (fst (h_remove (head h 3) EXPECT))) 3 k begin s /\ ~ over s /\
  forall s', ~ happens (decide (fun _ => true) (fst (h_remove (head h 3) EXPECT))) 3 s s'.
Proof.
  exists [], 2%nat, (Wire Waits (Reads 3 0) [] []).
  assert (D : decide (fun _ => true) (fst (h_remove (head [] 3) EXPECT)) = ReadOn 3) by (vm_compute; reflexivity). rewrite D. split; [|split].
  - eapply goes; [eapply goes; [apply stays|apply ask]|]. cbn [app]. now apply read_on.
  - intros [st E]. discriminate E.
  - intros s' H. inversion H; subst; lia.
Qed.
Print Assumptions C129_removed_refuted.

(** Three bytes in two pieces, the second sent before the first was read. *)
Example C129_example : runs (decide (fun _ => true) (head [(lit "host", [lit "a"])] 3)) 3 9 begin (Wire (Got 200) (Done 3) [] []) /\
  h_get (head [(lit "host", [lit "a"])] 3) (lit "expect") = Some [lit "100-continue"].
Proof.
  split; [|vm_compute; reflexivity]. assert (D : decide (fun _ => true) (head [(lit "host", [lit "a"])] 3) = Invite 3) by (vm_compute; reflexivity). rewrite D.
  eapply goes; [eapply goes; [eapply goes; [eapply goes; [eapply goes; [eapply goes; [eapply goes; [eapply goes; [eapply goes; [apply stays|apply ask]|]|]|]|]|]|]|]|];
  cbn [app].
  - now apply invite.
  - apply leave.
  - apply (send _ _ 2). lia.
  - apply (send _ _ 1). lia.
  - apply receive.
  - apply receive.
  - apply answer. lia.
  - cbn. apply final; [right; eauto|lia].
Qed.
