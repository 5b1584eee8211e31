(** Facts about bodies: what is left to read, and what one poll does to it. *)
From Verif Require Import Base BaseFacts Utf8 Mime Body.
From Coq Require Import ZifyBool ZifyNat ZifyN.

Scheme body_mut := Induction for body Sort Prop with source_mut := Induction for source Sort Prop.
Combined Scheme body_source_ind from body_mut, source_mut.

(** All the data a script will ever deliver. *)
Definition data (evs : list event) : list N :=
  flat_map (fun e => match e with EData b bs => b :: bs | _ => [] end) evs.
Definition limit {A} (len : option N) (rd : N) (l : list A) : list A :=
  match len with None => l | Some n => firstn (N.to_nat (n - rd)) l end.

(** What is left to read from a body. *)
Fixpoint rest (b : body) : list N :=
  match b with Body s _ len rd => limit len rd (rest_src s) end
with rest_src (s : source) : list N :=
  match s with
  | Stream evs => data evs
  | Chained b1 b2 true => rest b2
  | Chained b1 b2 false => rest b1 ++ rest b2
  end.

(** No body has delivered more than its length. *)
Fixpoint wf (b : body) : Prop :=
  match b with Body s _ len rd => match len with Some l => rd <= l | None => True end /\ wf_src s end
with wf_src (s : source) : Prop :=
  match s with Stream _ => True | Chained b1 b2 _ => wf b1 /\ wf b2 end.

(** How many events are pending or failing. *)
Definition stalls (evs : list event) : nat :=
  length (filter (fun e => match e with EData _ _ => false | _ => true end) evs).
Fixpoint waits (b : body) : nat :=
  match b with Body s _ _ _ => waits_src s end
with waits_src (s : source) : nat :=
  match s with
  | Stream evs => stalls evs
  | Chained b1 b2 true => waits b2
  | Chained b1 b2 false => waits b1 + waits b2
  end.

(** No failing event is left. *)
Definition never_fails (evs : list event) : Prop := forall e, ~ In (EFail e) evs.
Fixpoint sound (b : body) : Prop :=
  match b with Body s _ _ _ => sound_src s end
with sound_src (s : source) : Prop :=
  match s with Stream evs => never_fails evs | Chained b1 b2 _ => sound b1 /\ sound b2 end.

Lemma data_app : forall a b, data (a ++ b) = data a ++ data b.
Proof. intros. apply flat_map_app. Qed.
Lemma data_chunk : forall bs, data (chunk bs) = bs.
Proof. intros [|b bs]; cbn; rewrite ?app_nil_r; reflexivity. Qed.
Lemma stalls_app : forall a b, stalls (a ++ b) = (stalls a + stalls b)%nat.
Proof. intros. unfold stalls. rewrite filter_app, app_length. reflexivity. Qed.
Lemma stalls_chunk : forall bs, stalls (chunk bs) = O.
Proof. intros [|b bs]; reflexivity. Qed.
Lemma never_fails_chunk : forall bs, never_fails (chunk bs).
Proof. intros [|b bs] e H; cbn in H; [exact H|destruct H as [H|[]]; discriminate]. Qed.

Lemma stream_read_spec : forall evs cap r evs', stream_read evs cap = (r, evs') ->
  (never_fails evs -> never_fails evs') /\
  match r with
  | Ready bs => data evs = bs ++ data evs' /\ (length bs <= cap)%nat /\ stalls evs' = stalls evs
                /\ (bs = [] -> cap = O \/ data evs = [])
  | Pending => data evs' = data evs /\ (stalls evs' < stalls evs)%nat
  | Failed e => data evs' = data evs /\ (stalls evs' < stalls evs)%nat /\ ~ never_fails evs
  | Panicked => False
  end.
Proof.
  intros evs cap r evs' H. destruct evs as [|[|e|b bs] evs]; cbn [stream_read] in H.
  - inv H. split; [auto|]. cbn. repeat apply conj; auto; lia.
  - inv H. split; [intros N e I; apply (N e); right; exact I|]. cbn. split; [reflexivity|unfold stalls; cbn; lia].
  - inv H. split; [intros N e' I; apply (N e'); right; exact I|]. cbn. repeat apply conj; [reflexivity|unfold stalls; cbn; lia|].
    intros N. apply (N e). left. reflexivity.
  - destruct cap as [|k]; inv H.
    + split; [auto|]. cbn. repeat apply conj; auto.
    + split.
      { intros N e I. apply in_app_iff in I as [I|I]; [apply (never_fails_chunk _ _ I)|apply (N e); right; exact I]. }
      rewrite data_app, data_chunk, stalls_app, stalls_chunk. repeat apply conj; [| |reflexivity|discriminate].
      * cbn. rewrite app_assoc, firstn_skipn. reflexivity.
      * cbn. rewrite firstn_length. lia.
Qed.

Definition read_post (b : body) (cap : nat) (r : poll (list N)) (b' : body) : Prop :=
  wf b' /\ body_len b' = body_len b /\ body_mime b' = body_mime b /\ (sound b -> sound b') /\
  match r with
  | Ready bs => rest b = bs ++ rest b' /\ (length bs <= cap)%nat /\ (waits b' <= waits b)%nat
                /\ body_read b' = body_read b + nlen bs /\ (bs = [] -> cap = O \/ rest b = [])
  | Pending => rest b' = rest b /\ (waits b' < waits b)%nat /\ body_read b' = body_read b
  | Failed e => rest b' = rest b /\ (waits b' < waits b)%nat /\ body_read b' = body_read b /\ ~ sound b
  | Panicked => False
  end.
Definition src_post (s : source) (cap : nat) (r : poll (list N)) (s' : source) : Prop :=
  wf_src s' /\ (sound_src s -> sound_src s') /\
  match r with
  | Ready bs => rest_src s = bs ++ rest_src s' /\ (length bs <= cap)%nat /\ (waits_src s' <= waits_src s)%nat
                /\ (bs = [] -> cap = O \/ rest_src s = [])
  | Pending => rest_src s' = rest_src s /\ (waits_src s' < waits_src s)%nat
  | Failed e => rest_src s' = rest_src s /\ (waits_src s' < waits_src s)%nat /\ ~ sound_src s
  | Panicked => False
  end.

Lemma limit_step : forall {A} (len : option N) rd (bs r : list A),
  match len with Some l => rd <= l /\ nlen bs <= l - rd | None => True end ->
  limit len rd (bs ++ r) = bs ++ limit len (rd + nlen bs) r.
Proof.
  intros A [l|] rd bs r H; [|reflexivity]. cbn [limit]. unfold nlen in *.
  rewrite firstn_app, firstn_all2 by lia. f_equal. f_equal. lia.
Qed.

Lemma poll_read_spec :
  (forall b cap r b', wf b -> poll_read b cap = (r, b') -> read_post b cap r b') /\
  (forall s cap r s', wf_src s -> src_read s cap = (r, s') -> src_post s cap r s').
Proof.
  apply body_source_ind.
  - intros s IH m len rd cap r b' [W1 W2] H. cbn [poll_read] in H.
    destruct (limit_buf len rd cap) as [x|cap'] eqn:L.
    + unfold limit_buf in L. destruct len as [l|]; [|discriminate].
      destruct (N.eqb_spec l rd) as [->|Nl].
      * inv L. inv H. unfold read_post. cbn [wf body_len body_mime rest limit body_read].
        rewrite N.sub_diag. cbn [N.to_nat firstn app length].
        repeat apply conj; auto; unfold nlen; cbn; lia.
      * destruct (l <? rd) eqn:E; [lia|discriminate].
    + assert (C : (cap' <= cap)%nat /\ (cap' = O -> cap = O)
                  /\ match len with Some l => N.of_nat cap' <= l - rd | None => True end).
      { unfold limit_buf in L. destruct len as [l|].
        - destruct (N.eqb_spec l rd); [discriminate|]. destruct (l <? rd) eqn:E; [discriminate|]. inv L. lia.
        - inv L. auto. }
      destruct C as (C1 & C0 & C2).
      destruct (src_read s cap') as [x s'] eqn:R. apply IH in R; [|exact W2]. destruct R as (R1 & R2 & R3).
      unfold read_post.
      destruct x as [|bs|e|]; inv H; cbn [wf body_len body_mime rest body_read sound waits]; [| | |contradiction].
      * destruct R3 as [-> R3]. repeat apply conj; auto; lia.
      * destruct R3 as (R3 & R4 & R5 & R6).
        repeat apply conj; auto; [destruct len; unfold nlen; lia| |lia|].
        -- rewrite R3. apply limit_step. destruct len as [l|]; [|exact I]. unfold nlen. lia.
        -- intros B. destruct (R6 B) as [->|Z]; [left; auto|right]. rewrite Z. destruct len; [apply firstn_nil|reflexivity].
      * destruct R3 as (-> & R3 & R4). repeat apply conj; auto; lia.
  - intros evs cap r s' W H. cbn [src_read] in H. destruct (stream_read evs cap) as [x evs'] eqn:E. inv H.
    apply stream_read_spec in E as [E1 E2]. unfold src_post. cbn [wf_src sound_src rest_src waits_src].
    split; [exact I|]. split; [exact E1|]. destruct r; auto. destruct E2 as (A & B & C & D). rewrite C. auto.
  - intros b1 IH1 b2 IH2 done cap r s' [W1 W2] H. cbn [src_read] in H. destruct done.
    + destruct (poll_read b2 cap) as [x b2'] eqn:E. inv H. apply IH2 in E; [|exact W2].
      destruct E as (A & B & C & D & E). unfold src_post. cbn [wf_src sound_src rest_src waits_src].
      split; [auto|]. split; [tauto|]. destruct r; tauto.
    + destruct (poll_read b1 cap) as [x b1'] eqn:E1. apply IH1 in E1; [|exact W1].
      destruct E1 as (A & B & C & D & E1).
      assert (K : forall bs, x = Ready bs -> bs <> [] \/ cap = O -> src_post (Chained b1 b2 false) cap x (Chained b1' b2 false)).
      { intros bs -> Z. destruct E1 as (F & G & H' & _ & J). unfold src_post. cbn [wf_src sound_src rest_src waits_src].
        repeat apply conj; auto; [tauto|rewrite F, app_assoc; reflexivity|lia|].
        intros ->. destruct Z as [Z| ->]; [congruence|auto]. }
      destruct x as [|[|c bs]|e|].
      * inv H. destruct E1 as (F & G & _). unfold src_post. cbn [wf_src sound_src rest_src waits_src].
        rewrite F. repeat apply conj; auto; [tauto|lia].
      * destruct cap as [|k]; [inv H; apply (K []); auto|].
        destruct E1 as (F & _ & H' & _ & J). destruct (J eq_refl) as [J'|J']; [discriminate|].
        destruct (poll_read b2 (S k)) as [y b2'] eqn:E2. inv H. apply IH2 in E2; [|exact W2].
        destruct E2 as (A' & B' & C' & D' & E2). unfold src_post. cbn [wf_src sound_src rest_src waits_src].
        rewrite J'. cbn [app]. split; [auto|]. split; [tauto|].
        destruct r; [|decompose [and] E2; repeat apply conj; auto; lia| |contradiction].
        -- decompose [and] E2. repeat apply conj; auto; lia.
        -- decompose [and] E2. repeat apply conj; auto; [lia|tauto].
      * inv H. apply (K (c :: bs)); auto. left. discriminate.
      * inv H. destruct E1 as (F & G & _ & S). unfold src_post. cbn [wf_src sound_src rest_src waits_src].
        rewrite F. repeat apply conj; auto; [tauto|lia|tauto].
      * contradiction.
Qed.

Lemma poll_read_post : forall b cap r b', wf b -> poll_read b cap = (r, b') -> read_post b cap r b'.
Proof. apply poll_read_spec. Qed.

(** Bodies are well formed from the start. *)
Lemma wf_from_reader : forall evs len, wf (from_reader evs len).
Proof. intros evs [l|]; cbn; auto. split; [lia|exact I]. Qed.
Lemma wf_from_bytes : forall bs, wf (from_bytes bs).
Proof. intros bs. cbn. split; [lia|exact I]. Qed.
Lemma wf_from_string : forall s, wf (from_string s).
Proof. intros s. cbn. split; [lia|exact I]. Qed.
Lemma wf_empty : wf body_empty.
Proof. cbn. split; [lia|exact I]. Qed.
Lemma wf_set_mime : forall m b, wf b -> wf (set_mime m b).
Proof. intros m [s m' l r] H. exact H. Qed.
Lemma wf_len : forall b l, wf b -> body_len b = Some l -> body_read b <= l.
Proof. intros [s m l' r] l [H _] E. cbn in *. subst l'. exact H. Qed.
Lemma chain_ok : forall b1 b2, wf b1 -> wf b2 -> exists b, chain b1 b2 = Ok b /\ wf b
  /\ body_source b = Chained b1 b2 false /\ body_read b = 0.
Proof.
  intros b1 b2 W1 W2. unfold chain.
  destruct (body_len b1) as [l1|] eqn:E1; [destruct (body_len b2) as [l2|] eqn:E2|].
  - apply wf_len in E1; [|exact W1]. apply wf_len in E2; [|exact W2].
    replace ((l1 <? body_read b1) || (l2 <? body_read b2)) with false by lia.
    eexists. split; [reflexivity|]. cbn [wf wf_src body_source body_read]. split; [|auto]. split; [|auto].
    match goal with |- context [if ?b then _ else _] => destruct b end; [lia|exact I].
  - eexists. split; [reflexivity|]. cbn. auto.
  - eexists. split; [reflexivity|]. cbn. auto.
Qed.

(** The bytes handed to the caller by a sequence of polls. *)
Fixpoint delivered (rs : list (poll (list N))) : list N :=
  match rs with
  | [] => []
  | Ready bs :: rs' => bs ++ delivered rs'
  | _ :: rs' => delivered rs'
  end.

Lemma reads_spec : forall caps b rs b', wf b -> reads b caps = (rs, b') ->
  wf b' /\ body_len b' = body_len b /\ body_mime b' = body_mime b /\ (sound b -> sound b')
  /\ ~ In Panicked rs /\ rest b = delivered rs ++ rest b' /\ body_read b' = body_read b + nlen (delivered rs).
Proof.
  induction caps as [|c cs IH]; intros b rs b' W H; cbn [reads] in H.
  - inv H. cbn. repeat apply conj; auto. lia.
  - destruct (poll_read b c) as [r b1] eqn:P. destruct (reads b1 cs) as [rs1 b2] eqn:Q. inv H.
    apply poll_read_post in P; [|exact W]. destruct P as (P1 & P2 & P3 & P4 & P5).
    apply IH in Q; [|exact P1]. destruct Q as (Q1 & Q2 & Q3 & Q4 & Q5 & Q6 & Q7).
    rewrite Q2, Q3. repeat apply conj; auto.
    + intros [->|I]; [contradiction|auto].
    + destruct r as [|bs|e|]; cbn [delivered].
      * destruct P5 as (<- & _). exact Q6.
      * destruct P5 as (-> & _). rewrite Q6, app_assoc. reflexivity.
      * destruct P5 as (<- & _). exact Q6.
      * contradiction.
    + destruct r as [|bs|e|]; cbn [delivered].
      * destruct P5 as (_ & _ & <-). exact Q7.
      * destruct P5 as (_ & _ & _ & P5 & _). rewrite Q7, P5. unfold nlen. rewrite app_length. lia.
      * destruct P5 as (_ & _ & <- & _). exact Q7.
      * contradiction.
Qed.

(** Collecting. *)
Lemma read_to_end_spec : forall caps b acc r, wf b -> read_to_end caps b acc = Some r ->
  r = Ok (acc ++ rest b) \/ (r = Err 500 /\ ~ sound b).
Proof.
  induction caps as [|c cs IH]; intros b acc r W H; cbn [read_to_end] in H; [discriminate|].
  destruct (poll_read b (S c)) as [x b'] eqn:P. apply poll_read_post in P; [|exact W].
  destruct P as (P1 & P2 & P3 & P4 & P5). destruct x as [|[|y ys]|e|].
  - apply IH in H; [|exact P1]. destruct P5 as (<- & _). tauto.
  - inv H. left. destruct P5 as (_ & _ & _ & _ & [Z|Z]); [reflexivity|discriminate|]. rewrite Z, app_nil_r. reflexivity.
  - apply IH in H; [|exact P1]. destruct P5 as (-> & _). rewrite app_assoc. tauto.
  - inv H. right. tauto.
  - contradiction.
Qed.

Lemma read_to_end_done : forall caps b acc, wf b -> (length (rest b) + waits b < length caps)%nat ->
  exists r, read_to_end caps b acc = Some r.
Proof.
  induction caps as [|c cs IH]; intros b acc W L; cbn [length] in L; [lia|]. cbn [read_to_end].
  destruct (poll_read b (S c)) as [x b'] eqn:P. apply poll_read_post in P; [|exact W].
  destruct P as (P1 & P2 & P3 & P4 & P5). destruct x as [|[|y ys]|e|]; eauto.
  - apply IH; [exact P1|]. destruct P5 as (-> & P5 & _). lia.
  - apply IH; [exact P1|]. destruct P5 as (P5 & _ & P6 & _).
    assert (Q := f_equal (@length N) P5). rewrite app_length in Q. cbn [length] in Q. lia.
Qed.

Lemma rest_from_bytes : forall bs, rest (from_bytes bs) = bs.
Proof.
  intros bs. cbn [from_bytes rest rest_src limit]. rewrite data_chunk. unfold nlen.
  apply firstn_all2. lia.
Qed.
Lemma rest_from_string : forall s, rest (from_string s) = utf8_encode s.
Proof.
  intros bs. cbn [from_string rest rest_src limit]. rewrite data_chunk. unfold nlen.
  apply firstn_all2. lia.
Qed.
