(** C124: a tree of calls between services, each of which reads the trace context of the request it gets and puts its own into the
    requests it sends, as a collector of all the contexts sees it. *)
From Coq Require Import ZifyBool ZifyNat ZifyN Lia Permutation.
From Verif Require Import Base BaseFacts Headers HeadersFacts Typed TypedFacts Trace TraceProps.

(** The calls made under a context: over the wire, with [h] the other headers of the request, or as a span of the same program; each has
    the random number drawn for it, the calls made under it, and is followed by others. *)
Inductive link : Type := Wire (h : headers) | Inside.
Inductive calls : Type := Done | Call (l : link) (id : N) (inner next : calls).
Definition make (l : link) (id : N) (c : context) : outcome (option context) :=
  match l with Wire h => context_from_headers id (context_apply h c) | Inside => Ok (Some (child id c)) end.
(** All contexts made under [c], in the order of the calls. *)
Fixpoint contexts (c : context) (t : calls) : outcome (list context) :=
  match t with
  | Done => Ok []
  | Call l id inner next =>
      let* o := make l id c in
      match o with
      | Some d => let* a := contexts d inner in let* b := contexts c next in Ok (d :: a ++ b)
      | None => Err 0
      end
  end.

(** ** The tree itself *)
Fixpoint ids (t : calls) : list N := match t with Done => [] | Call _ id i n => id :: ids i ++ ids n end.
(** For every call the way back to the root. *)
Fixpoint ways (up : list N) (t : calls) : list (list N) :=
  match t with Done => [] | Call _ id i n => (id :: up) :: ways (id :: up) i ++ ways up n end.

(** ** The collector: knows contexts in any order, follows the parents. *)
Fixpoint back (fuel : nat) (log : list context) (id : N) : list N :=
  match fuel with
  | O => []
  | Datatypes.S fuel =>
      match find (fun d => ctx_id d =? id) log with
      | Some d => id :: match ctx_parent d with Some p => back fuel log p | None => [] end
      | None => []
      end
  end.

Lemma make_ok : forall l id c, in_types c -> exists d, make l id c = Ok (Some d) /\
  ctx_id d = id /\ ctx_parent d = Some (ctx_id c) /\ ctx_trace d = ctx_trace c /\ ctx_version d = ctx_version c /\ ctx_flags d = ctx_flags c.
Proof.
  intros [h|] id c T; cbn [make].
  - rewrite C63_round_trip by exact T. eexists. split; [reflexivity|]. cbn. auto.
  - eexists. split; [reflexivity|]. cbn. auto 10.
Qed.

Lemma make_types : forall l id c d, in_types c -> id < 2 ^ 64 -> make l id c = Ok (Some d) -> in_types d.
Proof.
  intros l id c d T I E. destruct (make_ok l id c T) as (d' & E' & A & B & C & D & F). rewrite E in E'. inv E'.
  destruct T as (T1 & T2 & T3 & T4 & T5). unfold in_types. rewrite B, C, D, F. auto.
Qed.
Definition alike (c d : context) : Prop :=
  ctx_trace d = ctx_trace c /\ ctx_version d = ctx_version c /\ ctx_flags d = ctx_flags c /\ sampled d = sampled c.

(** Every call gets a context; all have the trace id, version and flags of the root. *)
Theorem C124_one_trace : forall t c, in_types c -> Forall (fun i => i < 2 ^ 64) (ids t) ->
  exists log, contexts c t = Ok log /\ map ctx_id log = ids t /\ Forall (alike c) log.
Proof.
  induction t as [|l id i IHi n IHn]; intros c T F; cbn [contexts ids]; [exists []; auto|].
  inversion F as [|? ? F1 F2]; subst. apply Forall_app in F2 as [Fi Fn]. destruct (make_ok l id c T) as (d & E & A & B & C & D & G). rewrite E. cbn [bind].
  destruct (IHi d (make_types l id c d T F1 E) Fi) as (a & -> & Ma & Aa). destruct (IHn c T Fn) as (b & -> & Mb & Ab). cbn [bind].
  eexists. split; [reflexivity|]. cbn [map]. rewrite map_app, Ma, Mb, A. split; [reflexivity|].
  assert (S : alike c d) by (unfold alike, sampled; rewrite C, D, G; auto). constructor; [exact S|]. apply Forall_app. split; [|exact Ab].
  eapply Forall_impl; [|exact Aa]. intros x (X1 & X2 & X3 & X4). destruct S as (S1 & S2 & S3 & S4). unfold alike. rewrite X1, X2, X3, X4. auto.
Qed.
Print Assumptions C124_one_trace.

Lemma ways_linked : forall t c up log, in_types c -> Forall (fun i => i < 2 ^ 64) (ids t) -> contexts c t = Ok log ->
  forall w, In w (ways (ctx_id c :: up) t) -> exists i p w' d, w = i :: p :: w' /\ (p :: w' = ctx_id c :: up \/ In (p :: w') (ways (ctx_id c :: up) t)) /\
    In d log /\ ctx_id d = i /\ ctx_parent d = Some p.
Proof.
  induction t as [|l id i IHi n IHn]; intros c up log T F E w W; cbn [contexts ids ways] in *; [destruct W|].
  inversion F as [|? ? F1 F2]; subst. apply Forall_app in F2 as [Fi Fn]. destruct (make_ok l id c T) as (d & M & A & B & _). rewrite M in E. cbn [bind] in E.
  pose proof (make_types l id c d T F1 M) as Td.
  destruct (contexts d i) as [a| |] eqn:Ei; cbn [bind] in E; try discriminate E. destruct (contexts c n) as [b| |] eqn:En; cbn [bind] in E; try discriminate E. inv E.
  destruct W as [<-|W]; [|apply in_app_or in W as [W|W]].
  - exists (ctx_id d), (ctx_id c), up, d. split; [reflexivity|]. split; [now left|]. split; [now left|]. auto.
  - destruct (IHi d (ctx_id c :: up) a Td Fi Ei w W) as (x & p & w' & e & -> & P & I & X1 & X2). exists x, p, w', e. split; [reflexivity|].
    split; [|split; [right; apply in_or_app; now left|auto]]. right. destruct P as [P|P]; [left; now rewrite P|right; apply in_or_app; now left].
  - destruct (IHn c up b T Fn En w W) as (x & p & w' & e & -> & P & I & X1 & X2). exists x, p, w', e. split; [reflexivity|].
    split; [|split; [right; apply in_or_app; now right|auto]]. destruct P as [P|P]; [now left|right; right; apply in_or_app; now right].
Qed.
Lemma find_unique : forall log d, NoDup (map ctx_id log) -> In d log -> find (fun e => ctx_id e =? ctx_id d) log = Some d.
Proof.
  induction log as [|e log IH]; intros d N I; [destruct I|]. cbn [map] in N. inversion N as [|? ? N1 N2]; subst. cbn [find]. destruct I as [->|I]; [now rewrite N.eqb_refl|].
  destruct (N.eqb_spec (ctx_id e) (ctx_id d)) as [X|_]; [|now apply IH]. elim N1. rewrite X. now apply in_map.
Qed.

(** A collector that got the contexts of this trace in any order, among those of others, finds from every call the way back to the root by
    following the parents, if the random numbers drawn in this trace differ. *)
Theorem C124_ways : forall t id trace log others seen, id < 2 ^ 64 -> trace < 2 ^ 128 -> Forall (fun i => i < 2 ^ 64) (ids t) -> NoDup (id :: ids t) ->
  contexts (context_new id trace) t = Ok log -> Forall (fun d => ctx_trace d <> trace) others ->
  Permutation seen ((context_new id trace :: log) ++ others) ->
  forall w, In w (ways [id] t) -> back (length w) (filter (fun d => ctx_trace d =? trace) seen) (hd 0 w) = w.
Proof.
  intros t id trace log others seen I T F ND E O P.
  assert (TY : in_types (context_new id trace)) by (unfold in_types; cbn; repeat split; assumption || reflexivity).
  destruct (C124_one_trace t (context_new id trace) TY F) as (log' & E' & M & AL). rewrite E in E'. inv E'. rename log' into log.
  set (all := filter (fun d => ctx_trace d =? trace) seen).
  assert (PA : Permutation all (context_new id trace :: log)).
  { unfold all. assert (Q : Permutation (filter (fun d => ctx_trace d =? trace) seen) (filter (fun d => ctx_trace d =? trace) ((context_new id trace :: log) ++ others))).
    { clear - P. induction P; cbn [filter]; try destruct (_ =? trace); try destruct (_ =? trace); eauto using Permutation. }
    rewrite Q. rewrite filter_app. replace (filter _ others) with (@nil context); [rewrite app_nil_r|].
    - replace (filter _ (context_new id trace :: log)) with (context_new id trace :: log); [reflexivity|]. symmetry. cbn [filter context_new ctx_trace]. rewrite N.eqb_refl. f_equal.
      clear - AL. induction AL as [|d log (A & _) AL IH]; [reflexivity|]. cbn [filter]. rewrite A. cbn [context_new ctx_trace]. rewrite N.eqb_refl. now f_equal.
    - symmetry. clear - O. induction O as [|d l N O IH]; [reflexivity|]. cbn [filter]. destruct (N.eqb_spec (ctx_trace d) trace); [contradiction|exact IH]. }
  assert (NA : NoDup (map ctx_id all)).
  { apply (Permutation_NoDup (l := map ctx_id (context_new id trace :: log))); [apply Permutation_map; now symmetry|]. cbn [map context_new ctx_id]. now rewrite M. }
  assert (IN : forall d, In d (context_new id trace :: log) -> In d all) by (intros d D; apply (Permutation_in d (Permutation_sym PA)); exact D).
  intros w. remember (length w) as k eqn:K. revert w K. induction k as [|k IH]; intros w K W.
  - destruct w; [|discriminate K]. destruct (ways_linked t _ [] log TY F E [] W) as (? & ? & ? & ? & X & _). discriminate X.
  - destruct (ways_linked t _ [] log TY F E w W) as (i & p & w' & d & -> & Q & D & <- & D2). cbn [context_new ctx_id] in Q. injection K as K. cbn [hd back].
    rewrite (find_unique all d NA) by (apply IN; now right). rewrite D2. f_equal. destruct Q as [Q|Q].
    + injection Q as -> ->. cbn [length] in K. subst k. cbn [back].
      pose proof (find_unique all (context_new id trace) NA (IN _ (or_introl eq_refl))) as X. cbn [context_new ctx_id] in X. now rewrite X.
    + exact (IH (p :: w') K Q).
Qed.
Print Assumptions C124_ways.

(** FALSE if a number is drawn twice: the two calls cannot be told apart. *)
Theorem C124_twice_refuted : exists t log w, contexts (context_new 1 9) t = Ok log /\ Forall (fun i => i < 2 ^ 64) (ids t) /\ In w (ways [1] t) /\
  back (length w) (context_new 1 9 :: log) (hd 0 w) <> w.
Proof.
  exists (Call Inside 2 (Call Inside 3 Done Done) (Call Inside 4 (Call Inside 3 Done Done) Done)).
  eexists. exists [3; 4; 1]. split; [vm_compute; reflexivity|]. split; [cbn [ids app]; repeat constructor|]. split; [vm_compute; auto 10|]. vm_compute. discriminate.
Qed.
Print Assumptions C124_twice_refuted.

(** A service calls two others, the first of which has a span of its own and makes a call under it. *)
Example C124_example :
  let t := Call (Wire [(lit "host", [lit "a"])]) 20 (Call Inside 30 (Call (Wire []) 40 Done Done) Done) (Call (Wire [(lit "traceparent", [lit "x"])]) 50 Done Done) in
  exists log, contexts (context_new 10 77) t = Ok log /\ ways [10] t = [[20; 10]; [30; 20; 10]; [40; 30; 20; 10]; [50; 10]] /\ NoDup (10 :: ids t) /\
    back 4 (rev (context_new 10 77 :: log)) 40 = [40; 30; 20; 10] /\ map ctx_trace log = [77; 77; 77; 77].
Proof.
  cbn zeta. eexists. split; [vm_compute; reflexivity|]. split; [vm_compute; reflexivity|].
  split; [cbn [ids app]; repeat (constructor; [cbn; intuition discriminate|]); constructor|]. vm_compute. auto.
Qed.
