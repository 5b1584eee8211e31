(** C122: a front that follows RFC 9112 and a service behind it that takes the lengths of bodies from [ContentLength].  The front is
    written down from section 6.3 of RFC 9112 and section 8.6 of RFC 9110 (no Transfer-Encoding). *)
From Coq Require Import ZifyBool ZifyNat ZifyN Lia.
From Verif Require Import Base BaseFacts Headers HeadersFacts Body BodyProps Typed TypedFacts Other OtherProps Rfc InteropProps InteropReadProps NegotiateExactProps ConnectionProps.

(** ** The front *)
(** The lines, cut at commas, have to be digits, and all of the same value; else the message is refused. *)
Definition pieces_of (vs : list str) : list str := map strip (flat_map (split 44) vs).
Definition number (s : str) : option N := match s with [] => None | _ => if forallb is_digit s then Some (dec_value s) else None end.
Definition agreed (ns : list (option N)) : option N :=
  match ns with
  | Some n :: ns' => if forallb (fun m => match m with Some m => m =? n | None => false end) ns' then Some n else None
  | _ => None
  end.
Definition front_length (h : headers) : option N :=
  match h_get h (lit "content-length") with Some vs => agreed (map number (pieces_of vs)) | None => None end.
(** What stands on the connection for each message it lets pass. *)
Definition front_cuts (hs : list headers) (d : list N) (ms : list (list N)) : Prop :=
  exists ns, Forall2 (fun h n => front_length h = Some n) hs ns /\ ms = slices ns d.

Definition wired (h : headers) : Prop := forall vs, h_get h (lit "content-length") = Some vs -> Forall field vs.

Lemma agreed_all : forall ns n m, agreed ns = Some n -> In m ns -> m = Some n.
Proof.
  intros [|[a|] ns] n m E I; cbn [agreed] in E; try discriminate E.
  destruct (forallb _ ns) eqn:F; [|discriminate E]. injection E as ->. destruct I as [<-|I]; [reflexivity|].
  rewrite forallb_forall in F. specialize (F m I). destruct m as [m|]; [|discriminate F]. apply N.eqb_eq in F. now subst.
Qed.
Lemma number_text : forall s n, number s = Some n -> dec_text s n.
Proof.
  intros s n E. unfold number in E. destruct s as [|c s]; [discriminate E|]. destruct (forallb is_digit (c :: s)) eqn:F; [|discriminate E]. injection E as <-.
  exists (c :: s). split; [now left|]. split; [discriminate|]. split; [|reflexivity]. apply Forall_forall. intros x I. rewrite forallb_forall in F. specialize (F x I).
  unfold is_digit in F. lia.
Qed.
Lemma dec_text_same : forall s n m, dec_text s n -> dec_text s m -> n = m.
Proof.
  intros s n m (d & D & ND & FD & ->) (e & E & NE & FE & ->). f_equal. destruct D as [->| ->], E as [E|E].
  - exact E.
  - subst d. inversion FD; lia.
  - subst e. inversion FE; lia.
  - now injection E.
Qed.
Lemma split_plain : forall v, ~ In 44 v -> split 44 v = [v].
Proof. intros v N. apply split_no_char. now apply no_char_in. Qed.

(** What the front lets pass, the service behind it never takes for a message of another length. *)
Theorem C122_never_differ : forall h n m, wired h -> front_length h = Some n -> length_from_headers h = Ok (Some m) -> m = n.
Proof.
  intros h n m W F L. unfold front_length in F. destruct (h_get h (lit "content-length")) as [vs|] eqn:G; [|discriminate F].
  destruct vs as [|v0 vs0]; [discriminate F|]. destruct (@exists_last _ (v0 :: vs0) ltac:(discriminate)) as (vs & v & E). rewrite E in *. clear E v0 vs0.
  destruct (C55_texts_partial h vs v G) as [T _]. apply T in L as [L _].
  assert (NC : ~ In 44 v).
  { intros I. destruct L as (ds & D & _ & FD & _). assert (J : In 44 (trim v)).
    { unfold trim. destruct (trim_matches_decomp is_ws v) as (a & b & E & A & B). rewrite E in I. apply in_app_or in I as [I|I]; [|apply in_app_or in I as [I|I]].
      - rewrite forallb_forall in A. specialize (A 44 I). vm_compute in A. discriminate A.
      - exact I.
      - rewrite forallb_forall in B. specialize (B 44 I). vm_compute in B. discriminate B. }
    rewrite Forall_forall in FD. destruct D as [D|D]; rewrite D in J.
    - specialize (FD 44 J). lia.
    - destruct J as [J|J]; [discriminate J|]. specialize (FD 44 J). lia. }
  assert (I : In (number (strip v)) (map number (pieces_of (vs ++ [v])))).
  { apply in_map. unfold pieces_of. apply in_map. apply in_flat_map. exists v. split; [apply in_or_app; right; now left|]. rewrite split_plain by exact NC. now left. }
  apply (agreed_all _ _ _ F) in I. apply number_text in I. pose proof (W _ G) as Fv. apply Forall_app in Fv as [_ Fv]. inversion Fv as [|? ? Fv1 _]; subst.
  rewrite (trim_strip v Fv1) in L. exact (dec_text_same _ _ _ L I).
Qed.
Print Assumptions C122_never_differ.

(** It takes all of them, up to 64 bits, except those whose last line has a comma. *)
Theorem C122_taken : forall h vs v n, wired h -> h_get h (lit "content-length") = Some (vs ++ [v]) -> front_length h = Some n ->
  (length_from_headers h = Ok (Some n) <-> n <= u64_max /\ ~ In 44 v).
Proof.
  intros h vs v n W G F. pose proof (W _ G) as Fv. apply Forall_app in Fv as [_ Fv]. inversion Fv as [|? ? Fv1 _]; subst.
  destruct (C55_texts_partial h vs v G) as [T _]. rewrite T, (trim_strip v Fv1). unfold front_length in F. rewrite G in F. split.
  - intros [D L]. split; [exact L|]. intros I. assert (J : In 44 (strip v)).
    { unfold strip. destruct (trim_matches_decomp blank v) as (a & b & E & A & B). rewrite E in I. apply in_app_or in I as [I|I]; [|apply in_app_or in I as [I|I]].
      - rewrite forallb_forall in A. specialize (A 44 I). vm_compute in A. discriminate A.
      - exact I.
      - rewrite forallb_forall in B. specialize (B 44 I). vm_compute in B. discriminate B. }
    destruct D as (ds & D & _ & FD & _). rewrite Forall_forall in FD. destruct D as [D|D]; rewrite D in J.
    + specialize (FD 44 J). lia.
    + destruct J as [J|J]; [discriminate J|]. specialize (FD 44 J). lia.
  - intros [L NC]. split; [|exact L]. apply number_text. apply (agreed_all _ _ _ F). apply in_map. unfold pieces_of. apply in_map. apply in_flat_map. exists v.
    split; [apply in_or_app; right; now left|]. rewrite split_plain by exact NC. now left.
Qed.
Print Assumptions C122_taken.

(** So both cut the connection at the same places, however the data arrives and is read: no part of a body becomes a message. *)
Theorem C122_same_cuts : forall hs evs got left ms, Forall wired hs -> received hs evs got left -> front_cuts hs (script_data evs) ms -> got = ms.
Proof.
  intros hs evs got left ms W R (ns & F & ->).
  assert (L : exists ls, Forall2 (fun h l => length_from_headers h = Ok (Some l)) hs ls).
  { clear - R. induction R as [|h hs evs n caps rs m l k evs' got left L _ _ _ [ls IH]]; [exists []; constructor|exists (n :: ls); now constructor]. }
  destruct L as [ls L]. destruct (C113_cut hs ls evs got left L R) as [-> _]. f_equal. clear R. revert ls L. induction F as [|h n hs ns E F IH]; intros ls L; inversion L as [|? l ? ls' L1 L2]; subst; [reflexivity|].
  inversion W as [|? ? W1 W2]; subst. f_equal; [exact (C122_never_differ h n l W1 E L1)|exact (IH W2 ls' L2)].
Qed.
Print Assumptions C122_same_cuts.

Lemma field_ok : forall v, forallb (fun c => (c =? 9) || ((32 <=? c) && (c <=? 126))) v = true -> field v.
Proof. intros v F. rewrite forallb_forall in F. apply Forall_forall. intros c I. specialize (F c I). lia. Qed.
(** FALSE: that the service refuses what such a front refuses.  Behind one that does not check, it takes the length of the last line. *)
Theorem C122_lenient_refuted : exists h h', wired h /\ wired h' /\ front_length h = None /\ length_from_headers h = Ok (Some 7) /\ front_length h' = None /\ length_from_headers h' = Ok (Some 5) /\
  h_get h (lit "content-length") = Some [lit "5"; lit "7"] /\ h_get h' (lit "content-length") = Some [lit "+5"].
Proof.
  exists [(lit "content-length", [lit "5"; lit "7"])], [(lit "content-length", [lit "+5"])].
  split; [intros vs G; injection G as <-; repeat (apply Forall_cons; [apply field_ok; vm_compute; reflexivity|]); constructor|].
  split; [intros vs G; injection G as <-; repeat (apply Forall_cons; [apply field_ok; vm_compute; reflexivity|]); constructor|]. vm_compute. repeat split.
Qed.
Print Assumptions C122_lenient_refuted.

Example C122_example :
  let h1 := [(lit "content-length", [lit " 3"; lit "003 "])] in
  let h2 := [(lit "content-length", [lit "2,2"; lit "2"])] in
  front_length h1 = Some 3 /\ length_from_headers h1 = Ok (Some 3) /\ front_length h2 = Some 2 /\ length_from_headers h2 = Ok (Some 2) /\
  front_cuts [h1; h2] (lit "abcdef") [lit "abc"; lit "de"] /\
  front_length [(lit "content-length", [lit "2,2"])] = Some 2 /\ length_from_headers [(lit "content-length", [lit "2,2"])] = Err 400.
Proof.
  cbn zeta. do 4 (split; [vm_compute; reflexivity|]). split; [exists [3; 2]; split; [repeat constructor|]; vm_compute; reflexivity|]. vm_compute. auto.
Qed.
