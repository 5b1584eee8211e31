(** C115: how the result of a negotiation changes when the server has one format more or less, or the client changes one
    of its proposals. *)
From Coq Require Import ZifyBool ZifyNat ZifyN Lia Permutation.
From Verif Require Import Base BaseFacts Headers Typed Mime Float FloatFacts Negotiate NegotiateFacts NegotiateProps.
Import ListNotations.

Lemma split_twice : forall A (a b a1 b1 : list A) p x, a ++ p :: b = a1 ++ x :: b1 ->
  (a1 = a /\ x = p /\ b1 = b) \/ (exists m, a = a1 ++ x :: m /\ b1 = m ++ p :: b) \/ (exists m, b = m ++ x :: b1 /\ a1 = a ++ p :: m).
Proof.
  intros A. induction a as [|y a IH]; intros b [|z a1] b1 p x E; cbn [app] in E; injection E; clear E.
  - intros -> ->. now left.
  - intros -> <-. right. right. now exists a1.
  - intros <- ->. right. left. now exists a.
  - intros E ->. destruct (IH _ _ _ _ _ E) as [(-> & -> & ->)|[(m & -> & ->)|(m & -> & ->)]]; [now left|right; left; now exists m|right; right; now exists m].
Qed.

Section Pick.
  Context {T : Type} (weight : T -> option float) (good : T -> bool).
  (** The one that is found: good, heavier than every good one after it, and no lighter than any good one before it. *)
  Definition leads (l : list T) (x : T) : Prop := exists a b, l = a ++ x :: b /\ good x = true /\
    (forall y, In y a -> good y = true -> rank (weight y) <= rank (weight x)) /\
    (forall y, In y b -> good y = true -> rank (weight y) < rank (weight x)).
  Definition pick (l : list T) : option T := find good (sort_by_weight weight l).
  Definition sound (l : list T) : Prop := Forall (fun x => good_weight (weight x)) l.

  Lemma leads_one : forall l x y, leads l x -> leads l y -> x = y.
  Proof.
    intros l x y (a & b & -> & Gx & Ax & Bx) (a1 & b1 & E & Gy & Ay & By).
    destruct (split_twice _ _ _ _ _ _ _ E) as [(-> & -> & ->)|[(m & -> & ->)|(m & -> & ->)]]; [reflexivity|exfalso|exfalso].
    - assert (X := By x). assert (Y := Ax y). rewrite !in_app_iff in *. cbn [In] in *. specialize (X (or_intror (or_introl eq_refl)) Gx).
      specialize (Y (or_intror (or_introl eq_refl)) Gy). lia.
    - assert (X := Bx y). assert (Y := Ay x). rewrite !in_app_iff in *. cbn [In] in *. specialize (X (or_intror (or_introl eq_refl)) Gy).
      specialize (Y (or_intror (or_introl eq_refl)) Gx). lia.
  Qed.
  Lemma pick_leads : forall l x, sound l -> pick l = Some x -> leads l x.
  Proof.
    intros l x S F. apply first_in_sort in F as (i & I & G & B); [|exact S]. destruct (nth_error_split _ _ I) as (a & b & -> & L).
    exists a, b. split; [reflexivity|]. split; [exact G|]. split; intros y J Gy; apply In_nth_error in J as (j & J).
    - assert (Lj : (j < length a)%nat) by (apply nth_error_Some; congruence). destruct (B j y) as [R|[R _]]; [now rewrite nth_error_app1|exact Gy|lia|lia].
    - destruct (B (length a + Datatypes.S j)%nat y) as [R|[R Q]]; [|exact Gy|exact R|lia].
      rewrite nth_error_app2 by lia. replace (length a + Datatypes.S j - length a)%nat with (Datatypes.S j) by lia. exact J.
  Qed.
  Lemma pick_iff : forall l x, sound l -> (pick l = Some x <-> leads l x).
  Proof.
    intros l x S. split; [now apply pick_leads|]. intros L. destruct (pick l) as [y|] eqn:P.
    - apply pick_leads in P; [|exact S]. f_equal. now apply (leads_one l).
    - destruct L as (a & b & -> & G & _). assert (N : good x = false); [|congruence]. apply (proj1 (find_sort_none weight good _) P). apply in_elt.
  Qed.
  Lemma pick_none : forall l, pick l = None <-> forall x, In x l -> good x = false.
  Proof.
    intros l. split.
    - intros P x I. now apply (proj1 (find_sort_none weight good _) P).
    - intros N. destruct (pick l) as [y|] eqn:P; [|reflexivity]. apply find_some in P as [I G]. apply (proj1 (in_sort _ _ _)) in I. rewrite (N _ I) in G. discriminate.
  Qed.
  (** One more in the list: it is found, or the same as before is. *)
  Lemma pick_more : forall a p b, sound (a ++ p :: b) -> pick (a ++ p :: b) = pick (a ++ b) \/ (good p = true /\ pick (a ++ p :: b) = Some p).
  Proof.
    intros a p b S. assert (S' : sound (a ++ b)).
    { apply Forall_app in S as [S1 S2]. inversion S2; subst. now apply Forall_app. }
    destruct (pick (a ++ p :: b)) as [x|] eqn:P.
    - apply pick_leads in P; [|exact S]. assert (P' := P). destruct P as (a1 & b1 & E & G & A & B).
      destruct (split_twice _ _ _ _ _ _ _ E) as [(-> & -> & ->)|[(m & -> & ->)|(m & -> & ->)]]; [now right|left|left]; symmetry; apply pick_iff; try exact S'.
      + exists a1, (m ++ b). split; [now rewrite <- app_assoc|]. split; [exact G|]. split; [exact A|]. intros y I. apply B.
        apply in_app_iff in I as [I|I]; apply in_app_iff; [now left|right; now right].
      + exists (a ++ m), b1. split; [now rewrite <- app_assoc|]. split; [exact G|]. split; [|exact B]. intros y I. apply A.
        apply in_app_iff in I as [I|I]; apply in_app_iff; [now left|right; now right].
    - left. symmetry. apply pick_none. rewrite pick_none in P. intros x I. apply P. apply in_app_iff in I as [I|I]; apply in_app_iff; [now left|right; now right].
  Qed.
  (** One made heavier: it is found, or the same as before is. *)
  Lemma pick_heavier : forall a p p' b, sound (a ++ p :: b) -> sound (a ++ p' :: b) -> good p' = good p -> rank (weight p) <= rank (weight p') ->
    pick (a ++ p' :: b) = pick (a ++ p :: b) \/ (good p' = true /\ pick (a ++ p' :: b) = Some p').
  Proof.
    intros a p p' b S S' Gp W. destruct (pick (a ++ p' :: b)) as [x|] eqn:P.
    - apply pick_leads in P; [|exact S']. destruct P as (a1 & b1 & E & G & A & B).
      destruct (split_twice _ _ _ _ _ _ _ E) as [(-> & -> & ->)|[(m & -> & ->)|(m & -> & ->)]]; [now right|left|left]; symmetry; apply pick_iff; try exact S.
      + exists a1, (m ++ p :: b). split; [now rewrite <- app_assoc|]. split; [exact G|]. split; [exact A|]. intros y I Gy.
        apply in_app_iff in I as [I|[<-|I]]; [apply B; [apply in_app_iff; now left|exact Gy]| |apply B; [apply in_app_iff; right; now right|exact Gy]].
        assert (X : rank (weight p') < rank (weight x)) by (apply B; [apply in_elt|now rewrite Gp]). lia.
      + exists (a ++ p :: m), b1. split; [now rewrite <- app_assoc|]. split; [exact G|]. split; [|exact B]. intros y I Gy.
        apply in_app_iff in I as [I|[<-|I]]; [apply A; [apply in_app_iff; now left|exact Gy]| |apply A; [apply in_app_iff; right; now right|exact Gy]].
        assert (X : rank (weight p') <= rank (weight x)) by (apply A; [apply in_elt|now rewrite Gp]). lia.
    - left. symmetry. apply pick_none. rewrite pick_none in P. intros x I. apply in_app_iff in I as [I|[<-|I]].
      + apply P. apply in_app_iff. now left.
      + rewrite <- Gp. apply P. apply in_elt.
      + apply P. apply in_app_iff. right. now right.
  Qed.
End Pick.

Lemma find_weaken : forall A (f g : A -> bool) l x, find f l = Some x -> (forall y, In y l -> g y = true -> f y = true) -> g x = true -> find g l = Some x.
Proof.
  intros A f g. induction l as [|z l IH]; intros x F W G; [discriminate|]. cbn [find] in *. destruct (f z) eqn:Fz.
  - injection F as ->. now rewrite G.
  - destruct (g z) eqn:Gz; [rewrite W in Fz; [discriminate|now left|exact Gz]|]. apply IH; [exact F|intros y I; apply W; now right|exact G].
Qed.
Lemma find_same : forall A (f g : A -> bool) l, (forall y, In y l -> f y = g y) -> find f l = find g l.
Proof. intros A f g. induction l as [|z l IH]; intros E; [reflexivity|]. cbn [find]. rewrite (E z) by now left. destruct (g z); [reflexivity|]. apply IH. intros y I. apply E. now right. Qed.

(** ** Codings *)
Lemma negotiate_pick : forall l star av, negotiate (l, star) av =
  match pick p_weight (fun p => available_has av (p_coding p)) l with
  | Some p => Ok (p_coding p)
  | None => match star, av with true, c :: _ => Ok c | _, _ => Err 406 end
  end.
Proof. reflexivity. Qed.
Lemma has_more : forall a x b c, available_has (a ++ x :: b) c = orb (coding_eqb c x) (available_has (a ++ b) c).
Proof. intros a x b c. unfold available_has. rewrite !existsb_app. cbn [existsb]. destruct (coding_eqb c x), (existsb (coding_eqb c) a); reflexivity. Qed.
Lemma coding_eqb_eq : forall a b, coding_eqb a b = true -> a = b.
Proof. intros [] []; (reflexivity || discriminate). Qed.

(** A server that has one coding more chooses that one, or what it chose before: so does one that loses a coding it did
    not choose. *)
Theorem C115_one_more_available : forall l star a x b,
  negotiate (l, star) (a ++ x :: b) = negotiate (l, star) (a ++ b) \/ negotiate (l, star) (a ++ x :: b) = Ok x.
Proof.
  intros l star a x b. unfold negotiate. cbn [fst snd]. set (S := sort_by_weight p_weight l).
  destruct (find (fun p => available_has (a ++ x :: b) (p_coding p)) S) as [p|] eqn:F.
  - assert (Gp := proj2 (find_some _ _ F)). cbv beta in Gp. rewrite has_more in Gp. destruct (coding_eqb (p_coding p) x) eqn:E.
    + right. now rewrite (coding_eqb_eq _ _ E).
    + cbn [orb] in Gp. left. rewrite (find_weaken _ _ _ _ _ F); [reflexivity| |exact Gp]. intros y _ H. rewrite has_more, H. apply Bool.orb_true_r.
  - assert (N : find (fun p => available_has (a ++ b) (p_coding p)) S = None).
    { destruct (find (fun p => available_has (a ++ b) (p_coding p)) S) as [q|] eqn:Q; [|reflexivity]. apply find_some in Q as [I Q].
      apply (find_none _ _ F) in I. rewrite has_more, Q, Bool.orb_true_r in I. discriminate. }
    rewrite N. destruct star; [|left; reflexivity]. destruct a; [right; reflexivity|left; reflexivity].
Qed.
(** The order of the codings a server has matters only when nothing it has is proposed. *)
Theorem C115_order_of_available : forall l star av av', (forall c, In c av <-> In c av') -> star = false \/ (exists p, In p l /\ In (p_coding p) av) ->
  negotiate (l, star) av = negotiate (l, star) av'.
Proof.
  intros l star av av' E C. unfold negotiate. cbn [fst snd].
  rewrite (find_same _ (fun p => available_has av (p_coding p)) (fun p => available_has av' (p_coding p))).
  - destruct (find _ _) eqn:F; [reflexivity|]. destruct C as [->|(p & I & A)]; [reflexivity|]. exfalso.
    apply (proj2 (in_sort p_weight l p)) in I. apply (find_none _ _ F) in I. apply E in A. apply available_has_in in A. congruence.
  - intros p _. apply Bool.eq_iff_eq_true. rewrite !available_has_in. apply E.
Qed.
(** A client that adds a proposal, wherever in its list, gets that coding or what it got before. *)
Theorem C115_one_more_proposal : forall a p b star av, Forall (fun q => good_weight (p_weight q)) (a ++ p :: b) ->
  negotiate (a ++ p :: b, star) av = negotiate (a ++ b, star) av \/
  (In (p_coding p) av /\ negotiate (a ++ p :: b, star) av = Ok (p_coding p)).
Proof.
  intros a p b star av S. rewrite !negotiate_pick. destruct (pick_more p_weight (fun q => available_has av (p_coding q)) a p b S) as [->|[G ->]]; [now left|right].
  split; [now apply available_has_in|reflexivity].
Qed.
(** Proposals for codings that the server does not have make no difference. *)
Theorem C115_unavailable_proposals : forall a p b star av, Forall (fun q => good_weight (p_weight q)) (a ++ p :: b) -> ~ In (p_coding p) av ->
  negotiate (a ++ p :: b, star) av = negotiate (a ++ b, star) av.
Proof. intros a p b star av S N. destruct (C115_one_more_proposal a p b star av S) as [E|[I _]]; [exact E|contradiction]. Qed.
(** A client that gives one proposal a greater weight gets that coding or what it got before.  (No weight is the least.) *)
Theorem C115_greater_weight : forall a c w w' b star av,
  Forall (fun q => good_weight (p_weight q)) (a ++ Proposal c w :: b) -> good_weight w' -> rank w <= rank w' ->
  negotiate (a ++ Proposal c w' :: b, star) av = negotiate (a ++ Proposal c w :: b, star) av \/
  (In c av /\ negotiate (a ++ Proposal c w' :: b, star) av = Ok c).
Proof.
  intros a c w w' b star av S G W. rewrite !negotiate_pick.
  destruct (pick_heavier p_weight (fun q => available_has av (p_coding q)) a (Proposal c w) (Proposal c w') b) as [->|[H ->]]; auto.
  - apply Forall_app in S as [S1 S2]. inversion S2; subst. apply Forall_app. split; [exact S1|]. now constructor.
  - right. split; [now apply available_has_in|reflexivity].
Qed.
(** So what is chosen stays chosen when its weight grows and when the weights of others shrink. *)
Theorem C115_stays_chosen : forall a c w w' b star av d,
  Forall (fun q => good_weight (p_weight q)) (a ++ Proposal c w :: b) -> good_weight w' ->
  negotiate (a ++ Proposal c w :: b, star) av = Ok d ->
  (c = d /\ rank w <= rank w') \/ (c <> d /\ rank w' <= rank w) -> negotiate (a ++ Proposal c w' :: b, star) av = Ok d.
Proof.
  intros a c w w' b star av d S G N [[-> W]|[C W]].
  - destruct (C115_greater_weight a d w w' b star av S G W) as [E|[_ E]]; congruence.
  - assert (S' : Forall (fun q => good_weight (p_weight q)) (a ++ Proposal c w' :: b)).
    { apply Forall_app in S as [S1 S2]. inversion S2; subst. apply Forall_app. split; [exact S1|]. now constructor. }
    assert (G' : good_weight w) by (apply Forall_app in S as [_ S2]; now inversion S2).
    destruct (C115_greater_weight a c w' w b star av S' G' W) as [E|[_ E]]; congruence.
Qed.
(** The wildcard only helps where nothing else does. *)
Theorem C115_wildcard : forall l av,
  (forall c, negotiate (l, false) av = Ok c -> negotiate (l, true) av = Ok c) /\
  (forall c, negotiate (l, true) av = Ok c -> negotiate (l, false) av = Ok c \/ (negotiate (l, false) av = Err 406 /\ hd_error av = Some c)) /\
  (negotiate (l, true) av = Err 406 <-> av = []).
Proof.
  intros l av. unfold negotiate. cbn [fst snd]. destruct (find _ _) as [p|] eqn:F.
  - split; [auto|]. split; [auto|]. split; [discriminate|]. intros ->. apply find_some in F as [_ F]. discriminate F.
  - split; [discriminate|]. split; [intros c H; right; destruct av; [discriminate H|injection H as ->; auto]|]. destruct av; split; (reflexivity || discriminate).
Qed.
Print Assumptions C115_one_more_available.
Print Assumptions C115_order_of_available.
Print Assumptions C115_one_more_proposal.
Print Assumptions C115_unavailable_proposals.
Print Assumptions C115_greater_weight.
Print Assumptions C115_stays_chosen.
Print Assumptions C115_wildcard.
Example C115_codings_example : let l := [Proposal Gzip (milli 500); Proposal Brotli (milli 300); Proposal Zstd None] in
  Forall (fun q => good_weight (p_weight q)) l /\ negotiate (l, false) [Identity; Zstd; Brotli] = Ok Brotli /\
  negotiate (l, false) [Identity; Gzip; Zstd; Brotli] = Ok Gzip /\ negotiate (l ++ [Proposal Zstd (milli 400)], false) [Identity; Zstd; Brotli] = Ok Zstd.
Proof.
  split; [|vm_compute; auto]. repeat constructor; unfold p_weight, milli; cbn [good_weight]; eexists; (split; [reflexivity|vm_compute; discriminate]).
Qed.
(** Refusing a coding with "q=0" beside a wildcard makes the server choose it over its own first choice. *)
Theorem C115_refusing_refuted : exists a b, accept_from_headers Content [(lit "accept-encoding", [lit "*"])] = Ok (Some a) /\
  accept_from_headers Content [(lit "accept-encoding", [lit "*, gzip;q=0"])] = Ok (Some b) /\
  negotiate a [Brotli; Gzip] = Ok Brotli /\ negotiate b [Brotli; Gzip] = Ok Gzip.
Proof. exists ([], true), ([Proposal Gzip (milli 0)], true). vm_compute. auto. Qed.
(** With the wildcard the order of what the server has does matter. *)
Theorem C115_order_refuted : exists av av', Permutation av av' /\ negotiate ([], true) av <> negotiate ([], true) av'.
Proof. exists [Gzip; Brotli], [Brotli; Gzip]. split; [constructor|]. vm_compute. discriminate. Qed.
Print Assumptions C115_refusing_refuted.
Print Assumptions C115_order_refuted.

(** ** Media types *)
Definition served (av : list mime) (p : media_proposal) : bool := existsb (fun m => subset_eq m (mp_type p)) av.
Lemma find_media_pick : forall av ps, find_media av ps =
  match find (served av) ps with Some p => find (fun m => subset_eq m (mp_type p)) av | None => None end.
Proof.
  intros av. induction ps as [|p ps IH]; [reflexivity|]. cbn [find_media find]. unfold served at 1. destruct (find (fun m => subset_eq m (mp_type p)) av) as [m|] eqn:F.
  - apply find_some in F as F'. destruct F' as [I M]. assert (E : existsb (fun m => subset_eq m (mp_type p)) av = true) by (apply existsb_exists; eauto). rewrite E. now rewrite F.
  - assert (E : existsb (fun m => subset_eq m (mp_type p)) av = false).
    { apply Bool.not_true_is_false. intros X. apply existsb_exists in X as (m & I & M). apply (find_none _ _ F) in I. congruence. }
    now rewrite E.
Qed.
Lemma served_find : forall av p, served av p = true -> exists m, find (fun m => subset_eq m (mp_type p)) av = Some m.
Proof.
  intros av p H. destruct (find (fun m => subset_eq m (mp_type p)) av) as [m|] eqn:F; [eauto|]. apply existsb_exists in H as (m & I & M).
  apply (find_none _ _ F) in I. congruence.
Qed.
Definition fallback (star : bool) (av : list mime) : outcome mime := match star, av with true, m :: _ => Ok m | _, _ => Err 406 end.
Lemma media_pick : forall l star av, media_negotiate (l, star) av =
  match pick mp_weight (served av) l with
  | Some p => match find (fun m => subset_eq m (mp_type p)) av with Some m => Ok m | None => fallback star av end
  | None => fallback star av
  end.
Proof. intros l star av. unfold media_negotiate, pick. cbn [fst snd]. rewrite find_media_pick. destruct (find (served av) _); reflexivity. Qed.

Lemma find_more : forall (f : mime -> bool) a x b, find f (a ++ x :: b) = find f (a ++ b) \/ find f (a ++ x :: b) = Some x.
Proof.
  intros f a x b. induction a as [|y a IH]; cbn [app find]; [destruct (f x); auto|]. destruct (f y); [now left|exact IH].
Qed.
Theorem C115_media_one_more_available : forall l star a x b,
  media_negotiate (l, star) (a ++ x :: b) = media_negotiate (l, star) (a ++ b) \/ media_negotiate (l, star) (a ++ x :: b) = Ok x.
Proof.
  intros l star a x b. unfold media_negotiate. cbn [fst snd]. set (S := sort_by_weight mp_weight l).
  assert (H : find_media (a ++ x :: b) S = find_media (a ++ b) S \/ find_media (a ++ x :: b) S = Some x).
  { induction S as [|p S IH]; [now left|]. cbn [find_media]. destruct (find_more (fun m => subset_eq m (mp_type p)) a x b) as [-> | ->]; [|now right].
    destruct (find _ (a ++ b)); [now left|exact IH]. }
  destruct H as [-> | ->]; [|now right]. destruct (find_media (a ++ b) S); [now left|]. destruct star; [|now left]. destruct a; [now right|now left].
Qed.
Theorem C115_media_one_more_proposal : forall a p b star av, Forall (fun q => good_weight (mp_weight q)) (a ++ p :: b) ->
  media_negotiate (a ++ p :: b, star) av = media_negotiate (a ++ b, star) av \/
  exists m, first_match av (mp_type p) m /\ media_negotiate (a ++ p :: b, star) av = Ok m.
Proof.
  intros a p b star av S. rewrite !media_pick. destruct (pick_more mp_weight (served av) a p b S) as [->|[G ->]]; [now left|right].
  destruct (served_find _ _ G) as (m & F). exists m. rewrite F. split; [now apply find_first|reflexivity].
Qed.
Theorem C115_media_greater_weight : forall a t w w' b star av,
  Forall (fun q => good_weight (mp_weight q)) (a ++ MediaProposal t w :: b) -> good_weight w' -> rank w <= rank w' ->
  media_negotiate (a ++ MediaProposal t w' :: b, star) av = media_negotiate (a ++ MediaProposal t w :: b, star) av \/
  exists m, first_match av t m /\ media_negotiate (a ++ MediaProposal t w' :: b, star) av = Ok m.
Proof.
  intros a t w w' b star av S G W. rewrite !media_pick.
  destruct (pick_heavier mp_weight (served av) a (MediaProposal t w) (MediaProposal t w') b) as [->|[H ->]]; auto.
  - apply Forall_app in S as [S1 S2]. inversion S2; subst. apply Forall_app. split; [exact S1|]. now constructor.
  - right. destruct (served_find _ _ H) as (m & F). cbn [mp_type] in *. exists m. rewrite F. split; [now apply find_first|reflexivity].
Qed.
Print Assumptions C115_media_one_more_available.
Print Assumptions C115_media_one_more_proposal.
Print Assumptions C115_media_greater_weight.
(** Between two types that answer the same range, the order in which the server names them decides. *)
Theorem C115_media_order_refuted : exists h a m n, media_from_headers h = Ok (Some (a, false)) /\
  media_negotiate (a, false) [m; n] = Ok m /\ media_negotiate (a, false) [n; m] = Ok n /\ m <> n /\ h_get h (lit "accept") = Some [lit "text/*"].
Proof.
  exists [(lit "accept", [lit "text/*"])].
  destruct (media_from_headers [(lit "accept", [lit "text/*"])]) as [[[a w]|]| |] eqn:E; try (vm_compute in E; discriminate E).
  destruct (mime_parse (lit "text/html")) as [m| |] eqn:M; try (vm_compute in M; discriminate M).
  destruct (mime_parse (lit "text/plain")) as [n| |] eqn:N; try (vm_compute in N; discriminate N).
  exists a, m, n. vm_compute in E, M, N. injection E as <- <-. injection M as <-. injection N as <-.
  split; [reflexivity|]. split; [vm_compute; reflexivity|]. split; [vm_compute; reflexivity|]. split; [discriminate|reflexivity].
Qed.
Print Assumptions C115_media_order_refuted.
Example C115_media_example : let l := [MediaProposal MIME_PLAIN (milli 500); MediaProposal MIME_JSON (milli 300)] in
  Forall (fun q => good_weight (mp_weight q)) l /\ media_negotiate (l, false) [MIME_JSON; MIME_FORM] = Ok MIME_JSON /\
  media_negotiate (l, false) [MIME_JSON; MIME_FORM; MIME_PLAIN] = Ok MIME_PLAIN /\
  media_negotiate ([MediaProposal MIME_PLAIN (milli 500); MediaProposal MIME_JSON (milli 501)], false) [MIME_JSON; MIME_FORM; MIME_PLAIN] = Ok MIME_JSON.
Proof.
  split; [|vm_compute; auto]. repeat constructor; unfold mp_weight, milli; cbn [good_weight]; eexists; (split; [reflexivity|vm_compute; discriminate]).
Qed.
