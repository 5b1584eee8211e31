(** C110: setting several typed headers on a message, in any order. *)
From Verif Require Import Base BaseFacts Headers HeadersFacts Typed TypedFacts Conditional Cache Auth Mime Negotiate HttpDate Other Trace Timing Forwarded Security LastProps ChainProps.
From Coq Require Import ZifyBool ZifyNat ZifyN Permutation.

(** One call of [apply] (or [apply_header]) on a message: it may fail.  [sets f n]: whether it fails does not depend on the message, and if it
    does not, it leaves one value under [n], always the same, and every other name as it was. *)
Definition sets (f : headers -> outcome headers) (n : str) : Prop :=
  exists t : outcome str, forall h, match t with
  | Ok v => exists h', f h = Ok h' /\ h_get h' n = Some [v] /\ forall m, m <> n -> h_get h' m = h_get h m
  | Err e => f h = Err e
  | Panic => f h = Panic
  end.
Fixpoint build (fs : list (headers -> outcome headers)) (h : headers) : outcome headers :=
  match fs with [] => Ok h | f :: fs' => let* h' := f h in build fs' h' end.
(** No program can tell the two apart by looking up names. *)
Definition same (a b : headers) : Prop := forall m, h_get a m = h_get b m.

Lemma sets_apply : forall n v, sets (fun h => Ok (apply_value h n v)) n.
Proof. intros n v. exists (Ok v). intros h. eexists. split; [reflexivity|]. split; [apply get_apply|]. intros m N. now apply get_apply_other. Qed.
Lemma sets_bind : forall n (o : outcome str), sets (fun h => let* v := o in Ok (apply_value h n v)) n.
Proof. intros n [v|e|]; [apply sets_apply|exists (Err e); reflexivity|exists Panic; reflexivity]. Qed.

(** Every typed header of the crate. *)
Definition ok {A} (apply : headers -> A -> headers) (x : A) (h : headers) : outcome headers := Ok (apply h x).
Theorem C110_typed_headers :
  (forall x, sets (ok etag_apply x) (lit "etag")) /\
  (forall x, sets (ok (cond_apply IfMatch) x) (lit "if-match")) /\
  (forall x, sets (ok (cond_apply IfNoneMatch) x) (lit "if-none-match")) /\
  (forall x, sets (fun h => vary_apply h x) (lit "vary")) /\
  (forall x, sets (ok cache_apply x) (lit "cache-control")) /\
  (forall x, sets (ok age_apply x) (lit "age")) /\
  (forall x, sets (ok clear_apply x) (lit "clear-site-data")) /\
  (forall x, sets (ok auth_apply x) (lit "authorization")) /\
  (forall x, sets (ok basic_apply x) (lit "authorization")) /\
  (forall x, sets (ok www_apply x) (lit "www-authenticate")) /\
  (forall x, sets (ok (encoding_apply Content) x) (lit "content-encoding")) /\
  (forall x, sets (ok (encoding_apply Transfer) x) (lit "transfer-encoding")) /\
  (forall x, sets (ok (accept_apply Content) x) (lit "accept-encoding")) /\
  (forall x, sets (ok (accept_apply Transfer) x) (lit "te")) /\
  (forall x, sets (ok media_apply x) (lit "accept")) /\
  (forall x, sets (ok length_apply x) (lit "content-length")) /\
  (forall x, sets (ok ctype_apply x) (lit "content-type")) /\
  (forall x, sets (fun h => date_apply DateHeader h x) (lit "date")) /\
  (forall x, sets (fun h => date_apply Expires h x) (lit "expires")) /\
  (forall x, sets (fun h => date_apply LastModified h x) (lit "last-modified")) /\
  (forall x, sets (fun h => date_apply IfModifiedSince h x) (lit "if-modified-since")) /\
  (forall x, sets (fun h => date_apply IfUnmodifiedSince h x) (lit "if-unmodified-since")) /\
  (forall x, sets (fun h => retry_apply h x) (lit "retry-after")) /\
  sets (fun h => Ok (expect_apply h)) (lit "expect") /\
  (forall x, sets (ok allow_apply x) (lit "allow")) /\
  (forall x, sets (ok hsts_apply x) (lit "strict-transport-security")) /\
  (forall x, sets (fun h => fw_apply h x) (lit "forwarded")) /\
  (forall show x, sets (ok (timing_apply show) x) (lit "server-timing")) /\
  (forall x, sets (ok context_apply x) (lit "traceparent")) /\
  (forall (url : Type) (show : url -> str),
     (forall x, sets (ok (location_apply show) x) (lit "content-location")) /\
     (forall x, sets (ok (reference_apply show Referer) x) (lit "referer")) /\
     (forall x, sets (ok (reference_apply show SourceMap) x) (lit "sourcemap")) /\
     (forall x, sets (ok (origins_apply show) x) (lit "timing-allow-origin"))).
Proof. repeat split; intros; first [apply sets_apply|apply sets_bind]. Qed.

(** Setting a header twice is setting it to the second value. *)
Theorem C110_twice : forall f g n h h1 h2, sets f n -> sets g n -> build [f; g] h = Ok h1 -> build [g] h = Ok h2 -> same h1 h2.
Proof.
  intros f g n h h1 h2 [t F] [u G] A B. cbn [build] in *.
  specialize (F h). destruct t as [v|e|]; [|rewrite F in A; discriminate A|rewrite F in A; discriminate A]. destruct F as (hf & F & _ & Fo).
  rewrite F in A. cbn [bind] in A. assert (G1 := G hf). assert (G2 := G h). destruct u as [w|e|]; [|rewrite G1 in A; discriminate A|rewrite G1 in A; discriminate A].
  destruct G1 as (a & Ga & Gv & Go), G2 as (b & Gb & Hv & Ho). rewrite Ga in A. rewrite Gb in B. cbn [bind] in *. injection A as <-. injection B as <-.
  intros m. destruct (str_eq_dec m n) as [->|N]; [congruence|]. rewrite Go, Fo, Ho by exact N. reflexivity.
Qed.

(** Calls for different headers may be made in any order: they all succeed or fail in every order, with the same result. *)
Lemma build_same : forall fs ns h k, Forall2 sets fs ns -> same h k ->
  match build fs h with Ok h' => exists k', build fs k = Ok k' /\ same h' k' | Err e => build fs k = Err e | Panic => build fs k = Panic end.
Proof.
  intros fs ns h k S. revert h k. induction S as [|f n fs ns [t F] S IH]; intros h k E; cbn [build]; [eauto|].
  assert (A := F h). assert (B := F k). destruct t as [v|e|]; [|rewrite A, B; reflexivity|rewrite A, B; reflexivity].
  destruct A as (a & Fa & Va & Oa), B as (b & Fb & Vb & Ob). rewrite Fa, Fb. cbn [bind]. apply IH.
  intros m. destruct (str_eq_dec m n) as [->|N]; [congruence|]. rewrite Oa, Ob by exact N. apply E.
Qed.
Lemma swap : forall f g n m h h', sets f n -> sets g m -> n <> m -> build [f; g] h = Ok h' -> exists k, build [g; f] h = Ok k /\ same h' k.
Proof.
  intros f g n m h h' [t F] [u G] N A. cbn [build] in *.
  assert (F1 := F h). destruct t as [v|e|]; [|rewrite F1 in A; discriminate A|rewrite F1 in A; discriminate A]. destruct F1 as (hf & F1 & Fv & Fo).
  rewrite F1 in A. cbn [bind] in A. assert (G1 := G hf). assert (G2 := G h). destruct u as [w|e|]; [|rewrite G1 in A; discriminate A|rewrite G1 in A; discriminate A].
  destruct G1 as (a & Ga & Gv & Go), G2 as (b & Gb & Hv & Ho). rewrite Ga in A. cbn [bind] in A. injection A as <-.
  rewrite Gb. cbn [bind]. destruct (F b) as (c & Fc & Cv & Co). rewrite Fc. cbn [bind]. exists c. split; [reflexivity|].
  intros x. destruct (str_eq_dec x n) as [->|X]; [rewrite Go, Cv by exact N; exact Fv|].
  rewrite (Co x X). destruct (str_eq_dec x m) as [->|Y]; [congruence|]. rewrite Go, Fo, Ho by assumption. reflexivity.
Qed.
Theorem C110_order : forall (l l' : list ((headers -> outcome headers) * str)) h h',
  Forall (fun c => sets (fst c) (snd c)) l -> NoDup (map snd l) -> Permutation l l' ->
  build (map fst l) h = Ok h' -> exists k, build (map fst l') h = Ok k /\ same h' k.
Proof.
  intros l l' h h' S D P. revert h h' S D. induction P as [|c l l' P IH|c d l|l l' l'' P IH P' IH']; intros h h' S D A.
  - exists h'. split; [exact A|intros m; reflexivity].
  - cbn [map build] in *. destruct (fst c h) as [hc| |]; try discriminate A. cbn [bind] in *. inv S. inv D. eapply IH; eassumption.
  - cbn [map build] in A. destruct c as [f n], d as [g m]. cbn [fst snd] in *.
    inversion S as [|? ? Sd S1]; subst. inversion S1 as [|? ? Sc S2]; subst. cbn [fst snd map] in *. inversion D as [|? ? N D1]; subst.
    assert (A' : exists h1, build [g; f] h = Ok h1 /\ build (map fst l) h1 = Ok h').
    { cbn [build]. destruct (g h) as [hg| |]; try discriminate A. cbn [bind] in *. destruct (f hg) as [hf| |]; try discriminate A. cbn [bind] in *. eauto. }
    destruct A' as (h1 & A1 & A2). destruct (swap g f m n h h1 Sd Sc) as (k & B & E); [intros ->; apply N; now left|exact A1|].
    assert (Q := build_same (map fst l) (map snd l) h1 k). rewrite A2 in Q. destruct Q as (k' & K & E'); [clear - S2; induction S2; constructor; auto|exact E|].
    exists k'. split; [|exact E']. cbn [map fst build] in *. destruct (f h) as [hf| |]; try discriminate B. cbn [bind] in *. destruct (g hf) as [hg| |]; try discriminate B. cbn [bind] in *.
    injection B as ->. exact K.
  - destruct (IH h h' S D A) as (k & B & E). destruct (IH' h k) as (k' & C & E').
    + rewrite Forall_forall in *. intros c I. apply S. eapply Permutation_in; [apply Permutation_sym; exact P|exact I].
    + eapply Permutation_NoDup; [apply Permutation_map; exact P|exact D].
    + exact B.
    + exists k'. split; [exact C|]. intros m. rewrite E. apply E'.
Qed.

(** What is read afterwards under a name is what the last call for it wrote. *)
Theorem C110_reads : forall A (from : headers -> outcome (option A)) n f before after h h1 h', own_header_only from n -> sets f n ->
  Forall (fun c => sets (fst c) (snd c) /\ snd c <> n) after -> build (before ++ f :: map fst after) h = Ok h' -> f h = Ok h1 -> from h' = from h1.
Proof.
  intros A from n f before after h h1 h' O [t F] S B E. apply O.
  assert (T : exists v, t = Ok v) by (specialize (F h); destruct t; [eauto|congruence|congruence]). destruct T as [v ->].
  assert (V : h_get h1 n = Some [v]) by (destruct (F h) as (a & Fa & Va & _); congruence). rewrite V. clear E V h1.
  assert (Q : forall k, build (f :: map fst after) k = Ok h' -> h_get h' n = Some [v]).
  { clear B. intros k K. cbn [build] in K. destruct (F k) as (a & Fa & Va & _). rewrite Fa in K. cbn [bind] in K. clear F Fa. revert a Va K.
    induction S as [|c l [[u G] N] S IH]; intros a Va K; cbn [map build] in K; [congruence|].
    specialize (G a). destruct u as [w|e|]; [|rewrite G in K; discriminate K|rewrite G in K; discriminate K].
    destruct G as (b & Gb & _ & Gn). rewrite Gb in K. cbn [bind] in K. apply (IH b); [|exact K]. rewrite Gn by congruence. exact Va. }
  revert h B. induction before as [|g before IH]; intros h B; [exact (Q h B)|]. cbn [app build] in B. destruct (g h) as [b| |]; try discriminate B. exact (IH b B).
Qed.

Print Assumptions C110_typed_headers.
Print Assumptions C110_twice.
Print Assumptions C110_order.
Print Assumptions C110_reads.

(** A response with an entity tag, a date, directives for caches and a type: the same in two orders, each read back.  Of two ages the second
    counts; a date outside the range of the format makes every order panic. *)
Definition made : list ((headers -> outcome headers) * str) :=
  [(ok etag_apply (Weak (lit "v1")), lit "etag"); (fun h => date_apply DateHeader h 1000000000%Z, lit "date");
   (ok cache_apply [MaxAge (Dur 60 0)], lit "cache-control"); (ok (encoding_apply Content) Gzip, lit "content-encoding")].
Example C110_example : Forall (fun c => sets (fst c) (snd c)) made /\ NoDup (map snd made) /\
  exists h k, build (map fst made) [(lit "date", [lit "x"])] = Ok h /\ build (map fst (rev made)) [(lit "date", [lit "x"])] = Ok k /\ h <> k /\ same h k /\
    etag_from_headers k = Ok (Some (Weak (lit "v1"))) /\ date_from_headers DateHeader k = Ok (Some 1000000000%Z).
Proof.
  assert (S : Forall (fun c => sets (fst c) (snd c)) made).
  { destruct C110_typed_headers as (T1 & _ & _ & _ & T2 & _ & _ & _ & _ & _ & T3 & _ & _ & _ & _ & _ & _ & T4 & _).
    apply Forall_cons; [apply T1|]. apply Forall_cons; [apply T4|]. apply Forall_cons; [apply T2|]. apply Forall_cons; [apply T3|constructor]. }
  assert (D : NoDup (map snd made)) by (repeat constructor; cbn; intuition discriminate).
  split; [exact S|]. split; [exact D|].
  destruct (build (map fst made) [(lit "date", [lit "x"])]) as [h| |] eqn:E; [|vm_compute in E; discriminate E|vm_compute in E; discriminate E].
  destruct (C110_order made (rev made) _ h S D (Permutation_rev made) E) as (k & K & X). exists h, k. split; [reflexivity|]. split; [exact K|].
  vm_compute in E. injection E as <-. vm_compute in K. injection K as <-. split; [discriminate|]. split; [exact X|]. split; vm_compute; reflexivity.
Qed.
Example C110_reads_case : exists h', build [ok age_apply (Dur 5 0); ok age_apply (Dur 7 0); ok etag_apply (Strong (lit "a"))] headers_new = Ok h' /\
  age_from_headers h' = Ok (Some (Dur 7 0)) /\
  build [ok age_apply (Dur 5 0); (fun h => date_apply DateHeader h (-1)%Z)] headers_new = Panic.
Proof. eexists. split; [vm_compute; reflexivity|]. split; vm_compute; reflexivity. Qed.
