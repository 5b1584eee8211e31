(** C120: a shared cache between clients and a server that negotiates.  The cache is written down from RFC 9111, section 4.1; the
    header that guides it is written by [Vary]. *)
From Coq Require Import ZifyBool ZifyNat ZifyN Lia.
From Verif Require Import Base BaseFacts Headers HeadersFacts Typed TypedFacts Mime Conditional Negotiate Rfc InteropProps OwnProps LastProps.

(** ** The cache *)
(** The lines of a field as one line. *)
Definition combined (h : headers) (n : str) : option str := option_map (join (lit ",")) (h_get h n).
Definition same (a b : option str) : bool :=
  match a, b with Some a, Some b => seqb a b | None, None => true | _, _ => false end.
Definition vary_names (r : headers) : list str := match h_get r (lit "vary") with Some vs => flat_map (elements true) vs | None => [] end.
Section Cache.
  Context {A : Type}.
  (** A stored response: the request it answered, its headers and the rest. *)
  Definition entry : Type := (headers * (headers * A))%type.
  (** Section 4.1: a star never matches; the fields named have to be as they were in the first request. *)
  Definition selects (e : entry) (q : headers) : bool :=
    let ns := vary_names (fst (snd e)) in
    negb (existsb (seqb (lit "*")) ns) && forallb (fun n => same (combined (fst e) (to_lower n)) (combined q (to_lower n))) ns.
  (** One request: from the store if something there matches, else from the server, and stored. *)
  Definition ask (server : headers -> headers * A) (store : list entry) (q : headers) : A * list entry :=
    match find (fun e => selects e q) store with
    | Some e => (snd (snd e), store)
    | None => let r := server q in (snd r, (q, r) :: store)
    end.
  Fixpoint asks (server : headers -> headers * A) (store : list entry) (qs : list headers) : list A :=
    match qs with [] => [] | q :: qs => let (a, store') := ask server store q in a :: asks server store' qs end.
End Cache.

(** Requests as they come from the wire. *)
Definition wire (q : headers) : Prop := forall n vs, h_get q n = Some vs -> vs <> [] /\ Forall trimmed vs.

Lemma same_ok : forall a b, same a b = true <-> a = b.
Proof. intros [a|] [b|]; cbn [same]; rewrite ?seqb_eq; split; try congruence; discriminate. Qed.

(** A server whose responses say with [Vary], written by the crate, what they depend on. *)
Definition says_what_it_reads {A} (server : headers -> headers * A) : Prop := forall q, wire q ->
  exists h ns (w : bool), vary_apply h (ns, w) = Ok (fst (server q)) /\ Forall (fun n => rfc_token n = true) ns /\
    (w = false -> forall q', wire q' -> (forall n, In n ns -> combined q (to_lower n) = combined q' (to_lower n)) -> snd (server q') = snd (server q)).

(** Nobody can tell from the answers that there is a cache. *)
Theorem C120_transparent : forall A (server : headers -> headers * A), says_what_it_reads server ->
  forall qs, Forall wire qs -> asks server [] qs = map (fun q => snd (server q)) qs.
Proof.
  intros A server HS. assert (G : forall qs store, Forall wire qs -> Forall (fun e => wire (fst e) /\ snd e = server (fst e)) store ->
    asks server store qs = map (fun q => snd (server q)) qs).
  { induction qs as [|q qs IH]; intros store Q F; [reflexivity|]. inversion Q as [|? ? W Q']; subst. cbn [asks map]. unfold ask.
    destruct (find (fun e => selects e q) store) as [e|] eqn:E; cbn [fst snd].
    - f_equal; [|now apply IH]. apply find_some in E as [I S]. rewrite Forall_forall in F. destruct (F e I) as [We Ee]. destruct (HS (fst e) We) as (h & ns & w & V & T & D).
      rewrite Ee. unfold selects in S. rewrite Ee in S. unfold vary_apply in V.
      destruct (vary_value (ns, w)) as [t| |] eqn:X; cbn [bind] in V; try discriminate V. injection V as V.
      assert (N : vary_names (fst (server (fst e))) = ns ++ (if w then [lit "*"] else [])).
      { unfold vary_names. rewrite <- V. change VARY with (lit "vary"). rewrite get_apply. cbn [flat_map]. rewrite app_nil_r. exact (C102_vary ns w t T X). }
      rewrite N in S. apply andb_prop in S as [S1 S2]. destruct w.
      + rewrite existsb_app in S1. cbn [existsb] in S1. rewrite seqb_refl, orb_true_r in S1. discriminate S1.
      + rewrite app_nil_r in S2. symmetry. apply (D eq_refl q W). intros n J. rewrite forallb_forall in S2. apply same_ok. exact (S2 n J).
    - f_equal. apply IH; [exact Q'|]. constructor; [split; [exact W|reflexivity]|exact F]. }
  intros qs Q. apply G; [exact Q|constructor].
Qed.
Print Assumptions C120_transparent.

(** ** What negotiation depends on *)
Lemma depends : forall B (from : headers -> outcome (option B)) n, reads_only from n -> list_header from n ->
  forall q q', wire q -> wire q' -> combined q n = combined q' n -> from q = from q'.
Proof.
  intros B from n R L q q' W W' E. unfold combined in E. destruct (h_get q n) as [vs|] eqn:G, (h_get q' n) as [vs'|] eqn:G'; cbn [option_map] in E; try discriminate E.
  - injection E as E. destruct (W n vs G) as [N F], (W' n vs' G') as [N' F']. rewrite (L q vs G N F), (L q' vs' G' N' F'). apply R.
    rewrite E. unfold h_get, h_insert, to_header_values. cbn [fst]. now rewrite !hm_get_insert_same.
  - apply R. congruence.
Qed.

Lemma rfc_ascii : forall s, rfc_token s = true -> is_ascii s = true.
Proof.
  intros s T. unfold rfc_token in T. apply andb_prop in T as [_ F]. unfold is_ascii. rewrite forallb_forall in *. intros c I.
  specialize (F c I). apply andb_prop in F as [F _]. lia.
Qed.

(** A server that chooses a coding and a media type by what the request accepts, and says so. *)
Definition choose (codings : list coding) (types : list mime) (q : headers) : outcome coding * outcome mime :=
  ((let* a := accept_from_headers Content q in match a with Some a => negotiate a codings | None => Ok Identity end),
   (let* a := media_from_headers q in match a with Some a => media_negotiate a types | None => match types with m :: _ => Ok m | [] => Err 406 end end)).
Definition negotiating {A} (codings : list coding) (types : list mime) (render : outcome coding * outcome mime -> A) (ns : list str) (w : bool) (h q : headers) : headers * A :=
  (match vary_apply h (ns, w) with Ok h' => h' | _ => h end, render (choose codings types q)).

Theorem C120_negotiation : forall A codings types (render : outcome coding * outcome mime -> A) ns w h qs,
  Forall (fun n => rfc_token n = true) ns -> w = true \/ (In (lit "accept") (map to_lower ns) /\ In (lit "accept-encoding") (map to_lower ns)) ->
  Forall wire qs -> asks (negotiating codings types render ns w h) [] qs = map (fun q => render (choose codings types q)) qs.
Proof.
  intros A codings types render ns w h qs T H Q. rewrite (C120_transparent A (negotiating codings types render ns w h)); [reflexivity| |exact Q].
  intros q W. exists h, ns, w. refine (conj _ (conj T _)).
  - unfold negotiating. cbn [fst]. unfold vary_apply, vary_value. cbn [fst snd].
    assert (X : exists r, vary_texts ns = Ok r).
    { clear - T. induction T as [|n ns N T [r IH]]; [now exists []|]. exists (n :: r). cbn [vary_texts]. unfold value_from_str.
      rewrite (rfc_ascii n N). cbn [bind]. now rewrite IH. }
    destruct X as [r X]. rewrite X. reflexivity.
  - intros Ew q' W' E. subst w. destruct H as [H|[H1 H2]]; [discriminate H|]. unfold negotiating. cbn [snd]. f_equal. unfold choose.
    apply in_map_iff in H1 as (n1 & E1 & I1). apply in_map_iff in H2 as (n2 & E2 & I2).
    pose proof (E n1 I1) as C1. pose proof (E n2 I2) as C2. rewrite E1 in C1. rewrite E2 in C2.
    destruct (C74_values_join IfMatch Content (fun _ => 0)) as (_ & _ & _ & _ & LA & LM & _).
    destruct (C68_reads_only_its_header 0 (fun _ => 0) IfMatch Content) as (_ & _ & _ & _ & _ & _ & _ & _ & _ & _ & _ & _ & _ & _ & _ & _ & _ & RA & _ & RM & _).
    now rewrite (depends _ _ _ RA LA q q' W W' C2), (depends _ _ _ RM LM q q' W W' C1).
Qed.
Print Assumptions C120_negotiation.

(** A star: the stored response is never used again. *)
Theorem C120_wildcard : forall A ns h h' (a : A) q q', Forall (fun n => rfc_token n = true) ns -> vary_apply h (ns, true) = Ok h' ->
  selects (q, (h', a)) q' = false.
Proof.
  intros A ns h h' a q q' T V. unfold selects. cbn [fst snd]. unfold vary_apply in V.
  destruct (vary_value (ns, true)) as [t| |] eqn:X; cbn [bind] in V; try discriminate V. injection V as <-.
  unfold vary_names. change VARY with (lit "vary"). rewrite get_apply. cbn [flat_map]. rewrite app_nil_r, (C102_vary ns true t T X), existsb_app.
  cbn [existsb]. now rewrite seqb_refl, orb_true_r.
Qed.
Print Assumptions C120_wildcard.

(** ... while without one the same request, or one that differs only in fields not named, finds it. *)
Theorem C120_reused : forall A ns h h' (a : A) q q', Forall (fun n => rfc_token n = true) ns -> ~ In (lit "*") ns -> vary_apply h (ns, false) = Ok h' ->
  (selects (q, (h', a)) q' = true <-> forall n, In n ns -> combined q (to_lower n) = combined q' (to_lower n)).
Proof.
  intros A ns h h' a q q' T NS V. unfold selects. cbn [fst snd]. unfold vary_apply in V.
  destruct (vary_value (ns, false)) as [t| |] eqn:X; cbn [bind] in V; try discriminate V. injection V as <-.
  unfold vary_names. change VARY with (lit "vary"). rewrite get_apply. cbn [flat_map]. rewrite app_nil_r, (C102_vary ns false t T X), app_nil_r.
  assert (E : existsb (seqb (lit "*")) ns = false).
  { destruct (existsb (seqb (lit "*")) ns) eqn:E; [|reflexivity]. apply existsb_exists in E as (n & I & E). apply seqb_eq in E. subst n. contradiction. }
  rewrite E. cbn [negb andb]. rewrite forallb_forall. split; intros H n I; apply same_ok; exact (H n I).
Qed.
Print Assumptions C120_reused.

(** FALSE without the name: the second client gets a coding it does not accept. *)
Theorem C120_unnamed_refuted : exists q q', wire q /\ wire q' /\
  asks (negotiating [Gzip; Brotli] [] fst [lit "accept"] false []) [] [q; q'] = [Ok Gzip; Ok Gzip] /\
  fst (choose [Gzip; Brotli] [] q') = Ok Brotli.
Proof.
  assert (W : forall v, trim v = v -> wire [(lit "accept-encoding", [v])]).
  { intros v T n vs G. unfold h_get in G. cbn [hm_get] in G. destruct (seqb _ _) in G; [|discriminate G]. injection G as <-. split; [discriminate|]. constructor; [exact T|constructor]. }
  exists [(lit "accept-encoding", [lit "gzip"])], [(lit "accept-encoding", [lit "br"])].
  split; [apply W; reflexivity|]. split; [apply W; reflexivity|]. split; vm_compute; reflexivity.
Qed.
Print Assumptions C120_unnamed_refuted.

(** Three requests: the second, with its list on two lines, is answered from the cache; the third is not. *)
Example C120_example :
  let q1 := [(lit "accept-encoding", [lit "br,gzip"])] in
  let q2 := [(lit "accept-encoding", [lit "br"; lit "gzip"]); (lit "user-agent", [lit "x"])] in
  let q3 := [(lit "accept-encoding", [lit "br"])] in
  let server := negotiating [Gzip; Brotli] [] fst [lit "accept"; lit "Accept-Encoding"] false [] in
  asks server [] [q1; q2; q3] = [Ok Gzip; Ok Gzip; Ok Brotli] /\
  selects (q1, server q1) q2 = true /\ selects (q1, server q1) q3 = false /\
  selects (q1, negotiating [Gzip] [] fst [lit "accept"] true [] q1) q1 = false /\
  h_get (fst (server q1)) (lit "vary") = Some [lit "accept, Accept-Encoding"].
Proof. vm_compute. repeat split. Qed.
