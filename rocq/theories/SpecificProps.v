(** Property C104: whether negotiation chooses what RFC 9110, sections 12.5.1 and 12.5.3, prefers. *)
From Coq Require Import ZifyBool ZifyNat ZifyN Lia.
From Verif Require Import Base BaseFacts Headers HeadersFacts Typed Float Negotiate NegotiateFacts NegotiateProps Mime MimeFacts MimeProps ExactProps.

(** ** Accept: section 12.5.1 *)
(** How specific a range is: "*/*", then "type/*", then "type/subtype", the more parameters the more so. *)
Definition specific (r : mime) : nat :=
  if seqb (basetype r) (lit "*") then 0 else if seqb (subtype r) (lit "*") then 1 else 2 + length (params r).
(** The quality of a type: that of the most specific range it matches, and 0 when it matches none. *)
Definition rfc_quality (l : list media_proposal) (m : mime) (q : N) : Prop :=
  (exists p, In p l /\ matches m (mp_type p) /\ q = quality (mp_weight p) /\
     forall p', In p' l -> matches m (mp_type p') -> (specific (mp_type p') <= specific (mp_type p))%nat) \/
  (q = 0 /\ forall p, In p l -> ~ matches m (mp_type p)).
(** No available type is matched by two ranges of which the more specific one has the lower weight. *)
Definition graded (l : list media_proposal) (available : list mime) : Prop :=
  forall m p p', In m available -> In p l -> In p' l -> matches m (mp_type p) -> matches m (mp_type p') ->
    (specific (mp_type p) <= specific (mp_type p'))%nat -> quality (mp_weight p) <= quality (mp_weight p').

Lemma most : forall (A : Type) (f : A -> bool) (g : A -> nat) l, (forall x, In x l -> f x = false) \/
  exists x, In x l /\ f x = true /\ forall y, In y l -> f y = true -> (g y <= g x)%nat.
Proof.
  intros A f g l. induction l as [|a l [IH|(x & I & F & B)]].
  - left. intros x [].
  - destruct (f a) eqn:E.
    + right. exists a. split; [now left|]. split; [exact E|]. intros y [<-|I] Y; [lia|]. rewrite (IH y I) in Y. discriminate Y.
    + left. intros x [<-|I]; auto.
  - right. destruct (f a) eqn:E; [destruct (Nat.le_ge_cases (g a) (g x)) as [L|L]|].
    + exists x. split; [now right|]. split; [exact F|]. intros y [<-|J] Y; auto.
    + exists a. split; [now left|]. split; [exact E|]. intros y [<-|J] Y; [lia|]. specialize (B y J Y). lia.
    + exists x. split; [now right|]. split; [exact F|]. intros y [<-|J] Y; [congruence|auto].
Qed.
Lemma match_read : forall h l w p m, media_from_headers h = Ok (Some (l, w)) -> In p l -> is_utf8 (mp_type p) = false ->
  (subset_eq m (mp_type p) = true <-> matches m (mp_type p)).
Proof.
  intros h l w p m H I U. assert (T := media_read_types _ _ _ H). rewrite Forall_forall in T. specialize (T p I).
  assert (D := proj1 (parsed_good _ _ (mime_round_trip _ (proj1 T)))). rewrite subset_eq_spec. unfold matches.
  assert (A : forall n v, get_param (mp_type p) n = Some v <-> In (n, v) (params (mp_type p))).
  { intros n v. unfold get_param. rewrite U, andb_false_r. apply find_param_in, D. }
  split; intros (H1 & H2 & H3); (split; [exact H1|split; [exact H2|]]); intros n v X; apply H3, A, X.
Qed.
(** Every type has a quality. *)
Lemma quality_exists : forall h l w m, media_from_headers h = Ok (Some (l, w)) -> (forall p, In p l -> is_utf8 (mp_type p) = false) ->
  exists q, rfc_quality l m q.
Proof.
  intros h l w m H U. destruct (most _ (fun p => subset_eq m (mp_type p)) (fun p => specific (mp_type p)) l) as [N|(p & I & F & B)].
  - exists 0. right. split; [reflexivity|]. intros p I M. apply (match_read h l w p m H I (U p I)) in M. rewrite (N p I) in M. discriminate M.
  - exists (quality (mp_weight p)). left. exists p. split; [exact I|]. split; [now apply (match_read h l w p m H I (U p I))|]. split; [reflexivity|].
    intros p' I' M'. apply B; [exact I'|]. now apply (match_read h l w p' m H I' (U p' I')).
Qed.

(** When no range with a charset of utf-8 and no weight of 0 is asked for, and the weights are graded, the chosen type has the
    highest quality of all, and 406 is the answer exactly when every available type has the quality 0. *)
Theorem C104_media : forall h l available, media_from_headers h = Ok (Some (l, false)) ->
  (forall p, In p l -> is_utf8 (mp_type p) = false) -> (forall p, In p l -> quality (mp_weight p) <> 0) -> graded l available ->
  (forall m, media_negotiate (l, false) available = Ok m ->
     In m available /\ exists q, rfc_quality l m q /\ 0 < q /\ forall m' q', In m' available -> rfc_quality l m' q' -> q' <= q) /\
  (media_negotiate (l, false) available = Err 406 <-> forall m, In m available -> rfc_quality l m 0).
Proof.
  intros h l available H U Z G. assert (MR := fun p m I => match_read h l false p m H I (U p I)).
  assert (W := C52_media_parsed h l false H). rewrite Forall_forall in W.
  assert (RK : forall p, In p l -> rank (mp_weight p) = quality (mp_weight p) + 1).
  { intros p I. destruct (W p I) as [NW GW]. destruct (mp_weight p) as [x|]; [|congruence]. destruct GW as (v & -> & _). reflexivity. }
  split.
  - intros m N. destruct (C51_best l false available m) as [(i & p & IP & (pre & post & EA & S & _) & B)|(E & _)]; [|exact N| |discriminate E].
    { apply Forall_forall. intros p I. apply (W p I). }
    assert (I := nth_error_In _ _ IP). assert (AM : In m available) by (rewrite EA; apply in_elt). split; [exact AM|].
    assert (M := proj1 (MR p m I) S). destruct (quality_exists h l false m H U) as (q & Q). exists q. split; [exact Q|].
    destruct Q as [(p1 & I1 & M1 & -> & B1)|(_ & NM)]; [|elim (NM p I M)].
    split; [specialize (Z p1 I1); lia|]. assert (L1 := G m p p1 AM I I1 M M1 (B1 p I M)).
    intros m' q' A' [(p2 & I2 & M2 & -> & _)|(-> & _)]; [|lia].
    destruct (In_nth_error _ _ I2) as (j & J). specialize (B j p2 m' J A' (proj2 (MR p2 m' I2) M2)). unfold no_better in B.
    rewrite (RK p I), (RK p2 I2) in B. lia.
  - rewrite C51_not_acceptable. split.
    + intros (_ & N & _) m A. right. split; [reflexivity|]. intros p I M. apply (MR p m I) in M. rewrite (N p m I A) in M. discriminate M.
    + intros Q. split; [reflexivity|]. split; [|now left]. intros p m I A. destruct (subset_eq m (mp_type p)) eqn:E; [|reflexivity].
      apply (MR p m I) in E. destruct (Q m A) as [(p1 & I1 & _ & E1 & _)|(_ & N)]; [elim (Z p1 I1); congruence|elim (N p I E)].
Qed.
Example C104_media_example : exists l, media_from_headers [(lit "accept", [lit "text/*;q=0.3, text/html;q=0.7, image/png;q=0.5"])] = Ok (Some (l, false)) /\
  (forall p, In p l -> is_utf8 (mp_type p) = false) /\ (forall p, In p l -> quality (mp_weight p) <> 0) /\
  graded l [mime_of (lit "text/plain"); mime_of (lit "image/png"); mime_of (lit "text/html")] /\
  media_negotiate (l, false) [mime_of (lit "text/plain"); mime_of (lit "image/png"); mime_of (lit "text/html")] = Ok (mime_of (lit "text/html")) /\
  media_negotiate (l, false) [mime_of (lit "audio/mp4")] = Err 406.
Proof.
  assert (E : exists l, media_from_headers [(lit "accept", [lit "text/*;q=0.3, text/html;q=0.7, image/png;q=0.5"])] = Ok (Some (l, false))) by (eexists; vm_compute; reflexivity).
  destruct E as (l & E). exists l. split; [exact E|].
  assert (F : forall p, In p l -> is_utf8 (mp_type p) = false /\ quality (mp_weight p) <> 0).
  { intros p I. vm_compute in E. injection E as <-. repeat (destruct I as [<-|I]; [split; [reflexivity|vm_compute; discriminate]|]). destruct I. }
  split; [apply F|]. split; [apply F|]. split.
  - intros m p p' A I I' M M' S. apply (match_read _ _ _ p m E I (proj1 (F p I))) in M. apply (match_read _ _ _ p' m E I' (proj1 (F p' I'))) in M'.
    revert S. assert (X : forallb (fun m => forallb (fun p => forallb (fun p' => negb (subset_eq m (mp_type p)) || negb (subset_eq m (mp_type p')) ||
       negb (Nat.leb (specific (mp_type p)) (specific (mp_type p'))) || (quality (mp_weight p) <=? quality (mp_weight p'))) l) l)
       [mime_of (lit "text/plain"); mime_of (lit "image/png"); mime_of (lit "text/html")] = true).
    { clear - E. vm_compute in E. injection E as <-. vm_compute. reflexivity. }
    rewrite forallb_forall in X. specialize (X m A). cbv beta in X. rewrite forallb_forall in X. specialize (X p I). cbv beta in X. rewrite forallb_forall in X. specialize (X p' I'). cbv beta in X.
    rewrite M, M' in X. cbn [negb orb] in X. intros S. apply Nat.leb_le in S. rewrite S in X. cbn [negb orb] in X. lia.
  - clear F. vm_compute in E. injection E as <-. vm_compute. split; reflexivity.
Qed.
Lemma no_params : forall r m, is_utf8 r = false -> params r = [] -> forall n v, get_param r n = Some v -> get_param m n = Some v.
Proof. intros r m U P n v. unfold get_param. rewrite U, P, andb_false_r. discriminate. Qed.
(** Otherwise a type is judged by the range that asks for it most, however specific another one is: text/html is sent, of
    quality 0.1, and not image/png, of quality 0.9; and a type that is excluded by name is sent because "*/*" matches it. *)
Theorem C104_media_refuted : exists l m n, media_from_headers [(lit "accept", [lit "*/*;q=0.9, text/html;q=0.1"])] = Ok (Some (l, false)) /\
  (forall p, In p l -> is_utf8 (mp_type p) = false /\ quality (mp_weight p) <> 0) /\
  media_negotiate (l, false) [m; n] = Ok m /\ exists q q', rfc_quality l m q /\ rfc_quality l n q' /\ q < q'.
Proof.
  exists [MediaProposal (mime_of (lit "*/*")) (milli 900); MediaProposal (mime_of (lit "text/html")) (milli 100)], (mime_of (lit "text/html")), (mime_of (lit "image/png")).
  split; [vm_compute; reflexivity|]. split; [intros p [<-|[<-|[]]]; (split; [reflexivity|vm_compute; discriminate])|]. split; [vm_compute; reflexivity|].
  exists (quality (milli 100)), (quality (milli 900)). split; [|split; [|vm_compute; reflexivity]].
  - left. eexists. split; [right; left; reflexivity|]. cbn [mp_type mp_weight]. split; [repeat split; auto|]. split; [reflexivity|].
    intros p [<-|[<-|[]]] _; vm_compute; lia.
  - left. eexists. split; [left; reflexivity|]. cbn [mp_type mp_weight]. split; [split; [left; reflexivity|split; [left; reflexivity|now apply no_params]]|]. split; [reflexivity|].
    intros p [<-|[<-|[]]] M; [vm_compute; lia|]. destruct M as ([M|M] & _); vm_compute in M; discriminate M.
Qed.
Theorem C104_excluded_refuted : exists l m n, media_from_headers [(lit "accept", [lit "text/html;q=0, */*"])] = Ok (Some (l, false)) /\
  media_negotiate (l, false) [m; n] = Ok m /\ rfc_quality l m 0 /\ rfc_quality l n (2 ^ 149).
Proof.
  exists [MediaProposal (mime_of (lit "text/html")) (milli 0); MediaProposal (mime_of (lit "*/*")) (milli 1000)], (mime_of (lit "text/html")), (mime_of (lit "image/png")).
  split; [vm_compute; reflexivity|]. split; [vm_compute; reflexivity|]. split.
  - left. eexists. split; [left; reflexivity|]. cbn [mp_type mp_weight]. split; [repeat split; auto|]. split; [reflexivity|].
    intros p [<-|[<-|[]]] _; vm_compute; lia.
  - left. eexists. split; [right; left; reflexivity|]. cbn [mp_type mp_weight]. split; [split; [left; reflexivity|split; [left; reflexivity|now apply no_params]]|]. split; [reflexivity|].
    intros p [<-|[<-|[]]] M; [|vm_compute; lia]. destruct M as ([M|M] & _); vm_compute in M; discriminate M.
Qed.
Print Assumptions C104_media.
Print Assumptions C104_media_refuted.
Print Assumptions C104_excluded_refuted.

(** ** Accept-Encoding: section 12.5.3 *)
(** A coding is acceptable when it is listed with a weight above 0, or when it is not listed and "*" is there, or it is the
    identity. *)
Definition listed (l : list proposal) (c : coding) : Prop := exists p, In p l /\ p_coding p = c.
Definition acceptable (l : list proposal) (star : bool) (c : coding) : Prop :=
  (exists p, In p l /\ p_coding p = c /\ 0 < quality (p_weight p)) \/ (~ listed l c /\ (star = true \/ c = Identity)).
(** When no weight is 0, what is chosen is acceptable, and 406 is the answer exactly when nothing available is acceptable but
    an identity that is not listed. *)
Theorem C104_codings : forall l star available, (forall p, In p l -> 0 < quality (p_weight p)) ->
  (forall c, negotiate (l, star) available = Ok c -> In c available /\ acceptable l star c) /\
  (negotiate (l, star) available = Err 406 <->
   forall c, In c available -> acceptable l star c -> c = Identity /\ star = false /\ ~ listed l c).
Proof.
  intros l star available Z. split.
  - intros c N. unfold negotiate in N. cbn [fst snd] in N. destruct (find _ _) as [p|] eqn:F.
    + apply find_some in F as [I P]. apply (proj1 (in_sort _ _ _)) in I. apply available_has_in in P. assert (E : c = p_coding p) by congruence. subst c.
      split; [exact P|]. left. exists p. auto.
    + assert (X : forall p, In p l -> ~ In (p_coding p) available).
      { intros p I C. apply find_sort_none with (x := p) in F; [|exact I]. apply available_has_in in C. rewrite C in F. discriminate. }
      destruct star, available as [|c' av]; try discriminate N. assert (c' = c) as -> by congruence. split; [now left|]. right.
      split; [|now left]. intros (p & I & <-). elim (X p I). now left.
  - rewrite C49_not_acceptable. split.
    + intros (_ & X & S) c A [(p & I & <- & _)|(NL & [E|E])]; [elim (X p I A)| |].
      * destruct S as [S|S]; [congruence|]. subst available. destruct A.
      * split; [exact E|]. split; [|exact NL]. destruct S as [S|S]; [exact S|]. subst available. destruct A.
    + intros X. split; [reflexivity|]. assert (NL : forall p, In p l -> ~ In (p_coding p) available).
      { intros p I A. destruct (X _ A) as (_ & _ & N); [left; exists p; auto|]. apply N. exists p. auto. }
      split; [exact NL|]. destruct star; [|now left]. right. destruct available as [|c av]; [reflexivity|]. exfalso.
      destruct (X c (or_introl eq_refl)) as (_ & E & _); [|discriminate E]. right. split; [|now left]. intros (p & I & E). apply (NL p I). rewrite E. now left.
Qed.
Example C104_codings_example : exists l, accept_from_headers Content [(lit "accept-encoding", [lit "gzip;q=0.5, br"])] = Ok (Some (l, false)) /\
  (forall p, In p l -> 0 < quality (p_weight p)) /\ negotiate (l, false) [Brotli; Gzip; Zstd] = Ok Gzip /\ negotiate (l, false) [Zstd; Deflate] = Err 406.
Proof.
  exists [Proposal Gzip (milli 500); Proposal Brotli None]. split; [vm_compute; reflexivity|]. split; [intros p [<-|[<-|[]]]; vm_compute; reflexivity|].
  vm_compute. auto.
Qed.
(** The identity is refused unless it is listed. *)
Theorem C104_identity_refuted : exists l, accept_from_headers Content [(lit "accept-encoding", [lit "gzip"])] = Ok (Some (l, false)) /\
  negotiate (l, false) [Identity] = Err 406 /\ acceptable l false Identity.
Proof.
  exists [Proposal Gzip None]. split; [vm_compute; reflexivity|]. split; [vm_compute; reflexivity|]. right. split; [|now right].
  intros (p & [<-|[]] & E). discriminate E.
Qed.
(** A listed coding of weight 0.1 is preferred to one that only "*" names, of quality 1. *)
Theorem C104_star_refuted : exists l w, accept_from_headers Content [(lit "accept-encoding", [lit "gzip;q=0.1, *"])] = Ok (Some (l, true)) /\
  negotiate (l, true) [Brotli; Gzip] = Ok Gzip /\ In (Proposal Gzip w) l /\ quality w < 2 ^ 149 /\ ~ listed l Brotli /\ acceptable l true Brotli.
Proof.
  exists [Proposal Gzip (milli 100)], (milli 100). split; [vm_compute; reflexivity|]. split; [vm_compute; reflexivity|]. split; [now left|].
  split; [vm_compute; reflexivity|]. assert (N : ~ listed [Proposal Gzip (milli 100)] Brotli) by (intros (p & [<-|[]] & E); discriminate E).
  split; [exact N|]. right. auto.
Qed.
(** A weighted "*" is not seen at all. *)
Theorem C104_weighted_star_refuted : exists l, accept_from_headers Content [(lit "accept-encoding", [lit "*;q=0.5"])] = Ok (Some (l, false)) /\
  negotiate (l, false) [Gzip] = Err 406.
Proof. exists []. split; vm_compute; reflexivity. Qed.
Print Assumptions C104_codings.
Print Assumptions C104_identity_refuted.
Print Assumptions C104_star_refuted.
Print Assumptions C104_weighted_star_refuted.
