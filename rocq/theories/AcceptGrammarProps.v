(** C70 and C71, exactly: which texts of Accept-Encoding, TE and Accept are understood, and as what, in terms of the texts only. *)
From Verif Require Import Base BaseFacts Headers Mime MimeProps Typed TypedFacts Float Negotiate NegotiateProps NegotiateExactProps GrammarProps.

(** A piece between commas says whether it is the star, and what it proposes, if anything. *)
Definition entry {A} (proposes : str -> option A -> Prop) (c : str) (i : bool * option A) : Prop :=
  (fst i = true <-> c = lit "*") /\ proposes c (snd i).
Definition proposed {A} (items : list (bool * option A)) : list A := flat_map (fun i => match snd i with Some p => [p] | None => [] end) items.

Lemma entries_stars : forall A (proposes : str -> option A -> Prop) ts items, Forall2 (entry proposes) ts items ->
  (In true (map fst items) <-> In (lit "*") ts) /\ Forall2 proposes ts (map snd items).
Proof.
  intros A proposes ts items F. induction F as [|t i ts items (S & P) F (I1 & I2)]; cbn [map In]; [split; [tauto|constructor]|].
  split; [|constructor; assumption]. rewrite I1, S. intuition congruence.
Qed.
Lemma entries_exist : forall A (proposes : str -> option A -> Prop) ts os, Forall2 proposes ts os ->
  exists items, Forall2 (entry proposes) ts items /\ map snd items = os.
Proof.
  intros A proposes ts os F. induction F as [|t o ts os P F (items & I & <-)]; [exists []; split; [constructor|reflexivity]|].
  exists ((seqb t (lit "*"), o) :: items). split; [|reflexivity]. constructor; [|exact I]. split; [|exact P]. cbn [fst]. apply seqb_eq.
Qed.
Lemma proposed_snd : forall A (items : list (bool * option A)), proposed items = flat_map (fun o => match o with Some p => [p] | None => [] end) (map snd items).
Proof. intros A items. induction items as [|[b o] items IH]; [reflexivity|]. cbn [map]. unfold proposed. cbn [flat_map snd]. f_equal. exact IH. Qed.

Theorem C70_accepted_iff : forall k h vs l (w : bool), h_get h (accept_name k) = Some vs ->
  (accept_from_headers k h = Ok (Some (l, w)) <->
   exists items, all_spell (entry (piece k)) vs items /\ l = proposed items /\ (w = true <-> In true (map fst items))).
Proof.
  intros k h vs l w G. rewrite (accept_read_iff k h vs l w G). split.
  - intros (os & F & -> & W). apply forall2_map_l in F. destruct (entries_exist _ _ _ _ F) as (items & I & <-). exists items.
    split; [now apply all_spell_parts|]. split; [symmetry; apply proposed_snd|]. rewrite W. symmetry. now apply (entries_stars _ _ _ _ I).
  - intros (items & S & -> & W). apply all_spell_parts in S. destruct (entries_stars _ _ _ _ S) as (T & P). exists (map snd items).
    split; [now apply forall2_map_l|]. split; [apply proposed_snd|]. now rewrite W.
Qed.
Print Assumptions C70_accepted_iff.

(** In an Accept header the empty piece and the star propose nothing, and every other piece has to be a media type. *)
Definition media_proposes (c : str) (o : option media_proposal) : Prop :=
  match o with None => c = [] \/ c = lit "*" | Some p => c <> [] /\ c <> lit "*" /\ media_piece c p end.
Lemma media_filter : forall ts l,
  Forall2 media_piece (filter (fun t => negb (seqb t []) && negb (seqb t (lit "*"))) ts) l <->
  exists os, Forall2 media_proposes ts os /\ l = flat_map (fun o => match o with Some p => [p] | None => [] end) os.
Proof.
  induction ts as [|t ts IH]; intros l; cbn [filter].
  - split; [intros F; inversion F; exists []; split; [constructor|reflexivity]|]. intros (os & F & ->). inversion F. constructor.
  - destruct (seqb_spec t []) as [E|NE]; [|destruct (seqb_spec t (lit "*")) as [E|NS]]; cbn [negb andb].
    3: { split.
         - intros F. inversion F as [|? p ? l' P F']; subst. apply IH in F' as (os & O & ->). exists (Some p :: os). split; [constructor; [|exact O]|reflexivity]. now split.
         - intros (os & F & ->). apply forall2_cons_l in F as ([p|] & os' & -> & P & F); [|destruct P as [P|P]; contradiction].
           cbn [flat_map app]. constructor; [apply P|]. apply IH. now exists os'. }
    all: rewrite IH; split.
    + intros (os & F & ->). exists (None :: os). split; [constructor; [now left|exact F]|reflexivity].
    + intros (os & F & ->). apply forall2_cons_l in F as ([p|] & os' & -> & P & F); [destruct P as (P & _); contradiction|]. now exists os'.
    + intros (os & F & ->). exists (None :: os). split; [constructor; [now right|exact F]|reflexivity].
    + intros (os & F & ->). apply forall2_cons_l in F as ([p|] & os' & -> & P & F); [destruct P as (_ & P & _); contradiction|]. now exists os'.
Qed.
Theorem C71_accepted_iff : forall h vs l (w : bool), h_get h (lit "accept") = Some vs ->
  (media_from_headers h = Ok (Some (l, w)) <->
   exists items, all_spell (entry media_proposes) vs items /\ l = proposed items /\ (w = true <-> In true (map fst items))).
Proof.
  intros h vs l w G. rewrite (media_read_iff h vs l w G). rewrite media_filter. split.
  - intros ((os & F & ->) & W). destruct (entries_exist _ _ _ _ F) as (items & I & <-). exists items.
    split; [now apply all_spell_parts|]. split; [symmetry; apply proposed_snd|]. rewrite W. symmetry. now apply (entries_stars _ _ _ _ I).
  - intros (items & S & -> & W). apply all_spell_parts in S. destruct (entries_stars _ _ _ _ S) as (T & P). split; [|now rewrite W].
    exists (map snd items). split; [exact P|]. apply proposed_snd.
Qed.
Print Assumptions C71_accepted_iff.
(** The star is found with blanks around it, in any value; a piece "*;q=0.5" of Accept is no media type, while in Accept-Encoding it is skipped. *)
Example C70_C71_star_example :
  accept_from_headers Content [(lit "accept-encoding", [lit "gzip"; lit "br , *"; lit ""])] = Ok (Some ([Proposal Gzip None; Proposal Brotli None], true)) /\
  accept_from_headers Content [(lit "accept-encoding", [lit "*;q=0.5"])] = Ok (Some ([], false)) /\
  media_from_headers [(lit "accept", [lit "*;q=0.5"])] = Err 500 /\
  media_from_headers [(lit "accept", [lit "text/html,,"; lit " * "])] = Ok (Some ([MediaProposal (mime_of (lit "text/html")) (milli 1000)], true)).
Proof. vm_compute. auto. Qed.
