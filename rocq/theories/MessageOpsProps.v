(** Property C82: a message is a record of independent parts. *)
From Verif Require Import Base BaseFacts Method StatusCode EnumProps Headers HeadersFacts HeadersProps Mime MimeFacts Utf8 Body BodyFacts BodyProps Message MessageProps MessageOps.
From Coq Require Import ZifyBool ZifyNat ZifyN.

Section History.
Context {V : Type}.

(** The calls on a message that requests and responses share. *)
Inductive call :=
| CHeader (o : Headers.op)        (* header, header_mut, insert_header, append_header, remove_header *)
| CVersion (v : option version)
| CPeer (a : option str)
| CLocal (a : option str)
| CType (m : mime)                (* set_content_type *)
| CSetBody (b : body)
| CReplace (b : body)
| CSwap (b : body)
| CTake
| CRead (cap : nat)               (* poll_read with a buffer of this size *)
| CExt (o : @ext_op V).
Inductive answer :=
| AHeader (r : outcome (option header_values))
| ABody (b : body)
| ARead (r : poll (list N))
| AExt (r : @ext_res V)
| ANothing.

Definition act (c : common V) (o : call) : common V * answer :=
  match o with
  | CHeader o => let '(h, r) := step (c_headers c) o in (with_headers c h, AHeader r)
  | CVersion v => (set_version c v, ANothing)
  | CPeer a => (set_peer_addr c a, ANothing)
  | CLocal a => (set_local_addr c a, ANothing)
  | CType m => let '(c', r) := set_content_type c m in (c', AHeader r)
  | CSetBody b => (set_body c b, ANothing)
  | CReplace b => let '(old, c') := replace_body c b in (c', ABody old)
  | CSwap b => let '(old, c') := swap_body c b in (c', ABody old)
  | CTake => let '(old, c') := take_body c in (c', ABody old)
  | CRead n => let '(r, c') := message_poll_read c n in (c', ARead r)
  | CExt o => let '(e, r) := ext_step (c_ext c) o in (with_ext c e, AExt r)
  end.
Fixpoint acts (c : common V) (l : list call) : common V * list answer :=
  match l with
  | [] => (c, [])
  | o :: l' => let '(c', r) := act c o in let '(c'', rs) := acts c' l' in (c'', r :: rs)
  end.

(** ** The specification: six parts, each with its own history. *)
(** The last value written by the calls that [f] picks. *)
Definition last_written {A} (f : call -> option A) (l : list call) (a : A) : A :=
  fold_left (fun a o => match f o with Some a' => a' | None => a end) l a.
Definition wrote_version (o : call) : option (option version) := match o with CVersion v => Some v | _ => None end.
Definition wrote_peer (o : call) : option (option str) := match o with CPeer a => Some a | _ => None end.
Definition wrote_local (o : call) : option (option str) := match o with CLocal a => Some a | _ => None end.
(** The body: the last one put in, as far as it has been read since. *)
Definition body_after (b : body) (o : call) : body :=
  match o with CSetBody b' | CReplace b' | CSwap b' => b' | CTake => body_empty | CRead n => snd (poll_read b n) | _ => b end.
(** The headers: a multimap; a body put in a message without Content-Type brings its media type. *)
Definition put_in (o : call) : option body := match o with CSetBody b | CReplace b | CSwap b => Some b | CTake => Some body_empty | _ => None end.
Definition headers_after (m : multimap) (o : call) : multimap :=
  match o with
  | CHeader o => fst (mm_step m o)
  | CType t => mm_set m (lit "content-type") (Some [mime_format t])
  | _ => match put_in o with
         | Some b => match m (lit "content-type"), body_mime b with
                     | None, Some t => mm_set m (lit "content-type") (Some [mime_format t])
                     | _, _ => m
                     end
         | None => m
         end
  end.
Definition ext_after (m : @tmap V) (o : call) : @tmap V := match o with CExt o => fst (tm_step m o) | _ => m end.
(** The answers, from the parts before the call. *)
Definition answers (b : body) (m : multimap) (x : @tmap V) (o : call) : answer :=
  match o with
  | CHeader o => AHeader (snd (mm_step m o))
  | CType _ => AHeader (Ok (m (lit "content-type")))
  | CReplace _ | CSwap _ | CTake => ABody b
  | CRead n => ARead (fst (poll_read b n))
  | CExt o => AExt (snd (tm_step x o))
  | _ => ANothing
  end.
Fixpoint all_answers (b : body) (m : multimap) (x : @tmap V) (l : list call) : list answer :=
  match l with [] => [] | o :: l' => answers b m x o :: all_answers (body_after b o) (headers_after m o) (ext_after x o) l' end.

Definition agrees (c : common V) (b : body) (m : multimap) (x : @tmap V) : Prop :=
  c_body c = b /\ refines (c_headers c) m /\ ext_ok (c_ext c) /\ forall t, ext_get (c_ext c) t = x t.

Lemma refines_insert : forall h m k v, refines h m -> refines (hm_insert h k v) (mm_set m k (Some v)).
Proof. intros h m k v R. split; [apply hm_insert_nodup, R|]. apply mm_set_get, R. Qed.
Lemma put_body_agrees : forall c b0 m x b, agrees c b0 m x ->
  agrees (snd (replace_body c b)) b (match m (lit "content-type"), body_mime b with
                     | None, Some t => mm_set m (lit "content-type") (Some [mime_format t]) | _, _ => m end) x.
Proof.
  intros c b0 m x b (B & R & K & E). unfold replace_body, copy_content_type. cbn [snd with_body c_headers c_body].
  change CONTENT_TYPE with (lit "content-type"). unfold h_get. rewrite (proj2 R).
  destruct (m (lit "content-type")); [repeat split; auto; apply R|].
  destruct (body_mime b) as [t|]; [|repeat split; auto; apply R].
  unfold set_content_type, h_insert. cbn [to_header_values fst with_headers c_body c_headers c_ext with_body].
  split; [reflexivity|]. split; [apply refines_insert, R|]. split; [exact K|exact E].
Qed.
Lemma act_agrees : forall c b m x o, agrees c b m x ->
  agrees (fst (act c o)) (body_after b o) (headers_after m o) (ext_after x o) /\ snd (act c o) = answers b m x o /\
  c_version (fst (act c o)) = last_written wrote_version [o] (c_version c) /\
  c_peer (fst (act c o)) = last_written wrote_peer [o] (c_peer c) /\
  c_local (fst (act c o)) = last_written wrote_local [o] (c_local c).
Proof.
  intros c b m x o A. assert (A' := A). destruct A' as (B & R & K & E).
  destruct o as [o|v|a|a|t|b'|b'|b'| |n|o]; cbn [act body_after headers_after ext_after put_in answers last_written fold_left wrote_version wrote_peer wrote_local].
  - destruct (step_refines (c_headers c) m o R) as [S1 S2]. destruct (step (c_headers c) o) as [h r]. cbn [fst snd] in *. subst r.
    repeat split; auto; apply S1.
  - repeat split; auto; apply R.
  - repeat split; auto; apply R.
  - repeat split; auto; apply R.
  - unfold set_content_type, h_insert. cbn [to_header_values fst snd with_headers c_body c_headers c_ext c_version c_peer c_local].
    split; [|rewrite (proj2 R); auto]. split; [exact B|]. split; [apply refines_insert, R|]. split; [exact K|exact E].
  - destruct (C29_bodies_exchanged c b') as (_ & _ & _ & _ & _ & _ & W1 & _ & W3 & W4). cbn [fst snd].
    split; [apply (put_body_agrees c b m x b' A)|]. split; [reflexivity|]. repeat split; assumption.
  - destruct (C29_bodies_exchanged c b') as (_ & _ & _ & _ & _ & _ & W1 & _ & W3 & W4).
    assert (P := put_body_agrees c b m x b' A). unfold set_body in *. destruct (replace_body c b') as [old c'] eqn:Q. cbn [fst snd] in *.
    unfold replace_body in Q. injection Q as <- _. rewrite B. repeat split; auto; apply P.
  - destruct (C29_bodies_exchanged c b') as (_ & _ & _ & _ & _ & _ & W1 & _ & W3 & W4).
    assert (P := put_body_agrees c b m x b' A). unfold set_body, swap_body in *. destruct (replace_body c b') as [old c'] eqn:Q. cbn [fst snd] in *.
    unfold replace_body in Q. injection Q as <- _. rewrite B. repeat split; auto; apply P.
  - destruct (C29_bodies_exchanged c body_empty) as (_ & _ & _ & _ & _ & _ & W1 & _ & W3 & W4).
    assert (P := put_body_agrees c b m x body_empty A). unfold set_body, take_body in *. destruct (replace_body c body_empty) as [old c'] eqn:Q. cbn [fst snd] in *.
    unfold replace_body in Q. injection Q as <- _. rewrite B. repeat split; auto; apply P.
  - unfold message_poll_read. rewrite B. destruct (poll_read b n) as [r b']. cbn [fst snd]. repeat split; auto; apply R.
  - destruct (ext_step_ok (c_ext c) x o K E) as (K' & E' & S). destruct (ext_step (c_ext c) o) as [e r]. cbn [fst snd] in *. subst r.
    repeat split; auto; apply R.
Qed.

(** Every history: the answers are those of the parts, and afterwards every getter sees the history of its own part. *)
Theorem C82_parts : forall (l : list call),
  let c := fst (acts common_new l) in
  snd (acts common_new l) = all_answers body_empty mm_empty (fun _ => None) l /\
  c_version c = last_written wrote_version l None /\
  c_peer c = last_written wrote_peer l None /\
  c_local c = last_written wrote_local l None /\
  c_body c = fold_left body_after l body_empty /\
  (forall n, h_get (c_headers c) n = fold_left headers_after l mm_empty n) /\
  (forall t, ext_get (c_ext c) t = fold_left ext_after l (fun _ => None) t).
Proof.
  intros l.
  assert (G : forall l c b m x, agrees c b m x ->
     snd (acts c l) = all_answers b m x l /\
     c_version (fst (acts c l)) = last_written wrote_version l (c_version c) /\
     c_peer (fst (acts c l)) = last_written wrote_peer l (c_peer c) /\
     c_local (fst (acts c l)) = last_written wrote_local l (c_local c) /\
     agrees (fst (acts c l)) (fold_left body_after l b) (fold_left headers_after l m) (fold_left ext_after l x)).
  { clear l. induction l as [|o l IH]; intros c b m x A; cbn [acts all_answers fold_left last_written]; [auto|].
    destruct (act_agrees c b m x o A) as (A1 & A2 & A3 & A4 & A5).
    destruct (act c o) as [c' r]. cbn [fst snd] in *.
    destruct (IH c' _ _ _ A1) as (B1 & B2 & B3 & B4 & B5). destruct (acts c' l) as [c'' rs]. cbn [fst snd] in *.
    unfold last_written in *. cbn [fold_left] in *. rewrite A2, B1, B2, B3, B4, A3, A4, A5. auto. }
  cbv zeta. destruct (G l common_new body_empty mm_empty (fun _ => None)) as (B1 & B2 & B3 & B4 & B5 & B6 & B7 & B8).
  - split; [reflexivity|]. split; [split; [constructor|reflexivity]|]. split; [exact I|reflexivity].
  - split; [exact B1|]. split; [exact B2|]. split; [exact B3|]. split; [exact B4|]. split; [exact B5|]. split; [exact (proj2 B6)|exact B8].
Qed.
End History.
Print Assumptions C82_parts.
Example C82_example :
  let '(c, rs) := acts (V := str) common_new
     [CHeader (OpInsert (lit "X-A") (TvText (lit "1"))); CVersion (Some Http1_1); CSetBody (from_string (lit "hello")); CRead 2;
      CPeer (Some (lit "p")); CHeader (OpGet (lit "Content-Type")); CVersion None; CReplace (from_bytes [7]); CExt (XInsert 1 (lit "e")); CType MIME_JSON] in
  (nth_error rs 3, nth_error rs 5, c_version c, c_peer c, c_local c, message_len c, map snd (c_headers c)) =
  (Some (ARead (Ready (lit "he"))), Some (AHeader (Ok (Some [lit "text/plain;charset=utf-8"]))), None, Some (lit "p"), None, Some 1,
   [[lit "1"]; [lit "application/json"]]).
Proof. vm_compute. reflexivity. Qed.

(** A fresh message has nothing in it, and says so. *)
Theorem C82_fresh : forall V m u k k' s,
  let rq := request_new (V := V) m u k in
  let rs := response_from_status (V := V) s k k' in
  rq_method rq = m /\ rq_url rq = u /\ rs_status rs = s /\
  forall c, In c [rq_common rq; rs_common rs; rs_common (response_from_unit k k')] ->
    (forall n, h_get (c_headers c) n = None) /\ message_len c = Some 0 /\ message_is_empty c = Some true /\
    (forall cap, fst (message_poll_read c cap) = Ready []) /\ content_type c = Ok None /\
    c_version c = None /\ c_peer c = None /\ c_local c = None /\ (forall t, ext_get (c_ext c) t = None).
Proof.
  intros V m u k k' s. cbn [rq_method rq_url request_new rs_status response_from_status response_of]. repeat (split; [reflexivity|]).
  intros c I. assert (E : c = common_new) by (cbn in I; intuition). subst c. repeat split.
Qed.
Print Assumptions C82_fresh.
(** The length a message tells is the one declared for its body, none if none was, however much of it was read. *)
Theorem C82_length : forall V (c : common V) evs len bs s caps,
  let read c := fold_left (fun c cap => snd (message_poll_read c cap)) caps c in
  message_len (read (set_body c (from_reader evs len))) = len /\
  message_is_empty (read (set_body c (from_reader evs len))) = match len with Some n => Some (n =? 0) | None => None end /\
  message_len (read (set_body c (from_bytes bs))) = Some (nlen bs) /\
  message_len (read (set_body c (from_string s))) = Some (nlen (utf8_encode s)).
Proof.
  intros V c evs len bs s caps read.
  assert (B : forall b, c_body (set_body c b) = b).
  { intros b. destruct (C29_bodies_exchanged c b) as (_ & X & _). exact X. }
  assert (P : forall b cap, (exists evs m l k, b = Body (Stream evs) m l k) ->
    body_len (snd (poll_read b cap)) = body_len b /\ exists evs m l k, snd (poll_read b cap) = Body (Stream evs) m l k).
  { intros b cap (e & m & l & k & ->). cbn [poll_read]. destruct (limit_buf l k cap) as [x|cap']; [split; [reflexivity|now exists e, m, l, k]|].
    cbn [src_read]. destruct (stream_read e cap') as [[|d|x|] e']; cbn; (split; [reflexivity|]); eexists _, _, _, _; reflexivity. }
  assert (R : forall b, (exists evs m l k, b = Body (Stream evs) m l k) -> message_len (read (set_body c b)) = body_len b).
  { assert (G : forall d : common V, (exists evs m l k, c_body d = Body (Stream evs) m l k) -> message_len (read d) = body_len (c_body d));
      [|intros b S; rewrite G; rewrite B; [reflexivity|exact S]]. unfold read. clear - P.
    induction caps as [|cap caps IH]; intros d S; [reflexivity|]. cbn [fold_left]. destruct (P (c_body d) cap S) as [L S'].
    assert (Q : c_body (snd (message_poll_read d cap)) = snd (poll_read (c_body d) cap)).
    { unfold message_poll_read. destruct (poll_read (c_body d) cap). reflexivity. }
    rewrite IH; rewrite Q; assumption. }
  split; [rewrite R by (eexists _, _, _, _; reflexivity); reflexivity|].
  split; [unfold message_is_empty, body_is_empty; fold (message_len (read (set_body c (from_reader evs len)))); rewrite R by (eexists _, _, _, _; reflexivity); destruct len; reflexivity|].
  split; rewrite R by (eexists _, _, _, _; reflexivity); reflexivity.
Qed.
Print Assumptions C82_length.
Example C82_length_example : message_len (set_body (V := N) common_new (from_reader [] None)) = None /\
  message_len (snd (message_poll_read (set_body (V := N) common_new (from_string (lit "abc"))) 2)) = Some 3.
Proof. vm_compute. auto. Qed.
(** The constructors named after a method make a request with that method; numbers make a response exactly when
    they are a known status. *)
Theorem C82_shorthands : forall V u k name s, In (name, s)
    [("GET", Get); ("HEAD", Head); ("POST", Post); ("PUT", Put); ("DELETE", Delete); ("CONNECT", Connect); ("OPTIONS", Options);
     ("TRACE", Trace); ("PATCH", Patch)]%string ->
  let r := request_shorthand (V := V) s u k in
  method_str (rq_method r) = lit name /\ rq_url r = u /\ rq_common r = common_new.
Proof. intros V u k name s I. cbn [In] in I. repeat (destruct I as [I|I]; [injection I as <- <-; repeat split|]). destruct I. Qed.
Print Assumptions C82_shorthands.
Theorem C82_status_numbers : forall V k k' n,
  (exists s, code_u16 s = n /\ response_new (V := V) n k k' = Ok (response_from_status s k k')) \/
  ((forall s, code_u16 s <> n) /\ response_new (V := V) n k k' = Panic).
Proof.
  intros V k k' n. unfold response_new. destruct (code_try_from n) as [s| |] eqn:E.
  - left. exists s. split; [apply C09_number_code_number, E|reflexivity].
  - right. split; [|reflexivity]. intros s <-. rewrite C09_code_number_code in E. discriminate E.
  - right. split; [|reflexivity]. intros s <-. rewrite C09_code_number_code in E. discriminate E.
Qed.
Print Assumptions C82_status_numbers.
Theorem C82_conversions : forall V k k' b n,
  let r := response_from_body (V := V) b k k' in
  code_u16 (rs_status r) = 200 /\ c_body (rs_common r) = b /\
  h_get (c_headers (rs_common r)) n = (if seqb n (lit "content-type") then option_map (fun t => [mime_format t]) (body_mime b) else None) /\
  e_flag (rs_trailers r) = false /\ e_flag (rs_upgrade r) = false /\
  code_u16 (rs_status (response_from_unit (V := V) k k')) = 204.
Proof.
  intros V k k' b n. cbn [response_from_body rs_status rs_common rs_trailers rs_upgrade e_flag]. split; [reflexivity|].
  split; [apply (C29_bodies_exchanged common_new b)|]. split; [|repeat split].
  destruct (seqb n (lit "content-type")) eqn:E.
  - apply seqb_eq in E. subst n. apply C29_content_type_set_if_absent. reflexivity.
  - rewrite C29_other_headers_kept; [reflexivity|]. intros ->. rewrite seqb_refl in E. discriminate E.
Qed.
Print Assumptions C82_conversions.
(** However a message was made, its trailers have both ends of the channel made for them and nothing was sent; a response has another such channel
    for the upgrade. *)
Definition joined (e : ends) (k : nat) : Prop := e_send e = Some k /\ e_recv e = Some k /\ e_flag e = false.
Theorem C82_channels : forall V m u s sh b n k k',
  (forall r : request V, In r [request_new m u k; request_shorthand sh u k] -> joined (rq_trailers r) k) /\
  (forall r : response V, response_new n k k' = Ok r \/ In r [response_from_body b k k'; response_from_unit k k'; response_from_status s k k'] ->
     joined (rs_trailers r) k /\ joined (rs_upgrade r) k').
Proof.
  intros V m u s sh b n k k'. split.
  - intros r [<-|[<-|[]]]; repeat split.
  - intros r [H|[<-|[<-|[<-|[]]]]]; [|repeat split..]. unfold response_new in H. destruct (code_try_from n); try discriminate H. injection H as <-. repeat split.
Qed.
Print Assumptions C82_channels.
(** Reading through the message and then taking its body: together, the content. *)
Fixpoint message_reads {V} (c : common V) (caps : list nat) : list (poll (list N)) * common V :=
  match caps with
  | [] => ([], c)
  | n :: ns => let '(r, c') := message_poll_read c n in let '(rs, c'') := message_reads c' ns in (r :: rs, c'')
  end.
Theorem C82_read_then_take : forall V (r : request V) content caps rs c', holds (c_body (rq_common r)) content ->
  message_reads (rq_common r) caps = (rs, c') ->
  exists left, content = delivered rs ++ left /\
    holds (body_from_request (mkRequest (rq_method r) (rq_url r) c' (rq_trailers r))) left /\ c_headers c' = c_headers (rq_common r).
Proof.
  intros V r content caps rs c' H R.
  assert (G : forall caps (c : common V) rs c', message_reads c caps = (rs, c') -> reads (c_body c) caps = (rs, c_body c') /\ c_headers c' = c_headers c).
  { clear. induction caps as [|n ns IH]; intros c rs c' R; cbn [message_reads reads] in *; [injection R as <- <-; auto|].
    unfold message_poll_read in R. destruct (poll_read (c_body c) n) as [x b]. destruct (message_reads (with_body c b) ns) as [rs1 c1] eqn:Q.
    injection R as <- <-. destruct (IH _ _ _ Q) as [A B]. cbn [with_body c_body c_headers] in A, B. rewrite A. auto. }
  destruct (G _ _ _ _ R) as [A B]. destruct (C24_reads_deliver_content _ _ _ _ _ H A) as (left & E & L). exists left. auto.
Qed.
Print Assumptions C82_read_then_take.
Example C82_conversion_example :
  let r := response_from_body (V := str) (from_string (lit "hi")) 0 1 in
  (code_u16 (rs_status r), c_headers (rs_common r), fst (message_reads (rs_common r) [1%nat; 5%nat; 5%nat])) =
  (200, [(lit "content-type", [lit "text/plain;charset=utf-8"])], [Ready (lit "h"); Ready (lit "i"); Ready []]).
Proof. vm_compute. reflexivity. Qed.
