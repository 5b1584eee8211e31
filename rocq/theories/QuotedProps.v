(** Property C38 beyond ASCII: tokens and quoted strings in any text, and byte offsets. *)
From Verif Require Import Base BaseFacts Utf8 ParseUtils ParseUtilsFacts ForwardedFacts ForwardedProps.
From Coq Require Import ZifyBool ZifyNat ZifyN.

(** Slicing a text at a byte offset gives the two parts whose UTF-8 encodings meet at the offset, and
    panics if there are none. *)
Lemma blen_utf8 s : blen s = N.of_nat (length (utf8_encode s)).
Proof.
  induction s as [|c s IH]; [reflexivity|]. cbn [blen utf8_encode flat_map]. rewrite app_length. fold (utf8_encode s). rewrite IH.
  unfold clen, utf8_char. destruct (c <? 128), (c <? 2048), (c <? 65536); cbn [length]; lia.
Qed.
Theorem C38_offsets : forall s n,
  (forall a b, split_at s n = Ok (a, b) <-> s = a ++ b /\ N.of_nat (length (utf8_encode a)) = n) /\
  (split_at s n = Panic <-> forall a b, s = a ++ b -> N.of_nat (length (utf8_encode a)) <> n).
Proof.
  assert (F : forall s n a b, split_at s n = Ok (a, b) -> s = a ++ b /\ blen a = n).
  { induction s as [|c s IH]; intros n a b; cbn [split_at]; destruct (N.eqb_spec n 0) as [->|Z].
    - intros H. inv H. auto.
    - discriminate.
    - intros H. inv H. auto.
    - destruct (clen c <=? n) eqn:L; [|discriminate]. destruct (split_at s (n - clen c)) as [[a' b']| |] eqn:E; try discriminate.
      intros H. inv H. apply IH in E as [-> E]. split; [reflexivity|]. cbn [blen]. lia. }
  assert (B : forall a b, split_at (a ++ b) (blen a) = Ok (a, b)) by (intros; apply split_at_app).
  intros s n.
  assert (P : split_at s n = Panic \/ exists a b, split_at s n = Ok (a, b)).
  { revert n. induction s as [|c s IH]; intros n; cbn [split_at]; destruct (n =? 0); eauto.
    destruct (clen c <=? n); [|auto]. destruct (IH (n - clen c)) as [->|(a & b & ->)]; cbn [bind]; eauto. }
  split.
  - intros a b. rewrite <- blen_utf8. split; [apply F|]. intros [-> <-]. apply B.
  - split.
    + intros H a b -> E. rewrite <- blen_utf8 in E. subst n. rewrite B in H. discriminate.
    + intros H. destruct P as [P|(a & b & P)]; [exact P|]. apply F in P as [E1 E2]. rewrite blen_utf8 in E2. exfalso. exact (H a b E1 E2).
Qed.

(** What the parser takes for the inside of a quoted string, in any text [e], and the value [v] it reads.
    Characters beyond ASCII are judged by the low byte of their code point. *)
Inductive ubody : str -> str -> Prop :=
| UB_nil : ubody [] []
| UB_ascii c e v : c < 128 -> lax_qdtext c = true -> ubody e v -> ubody (c :: e) (c :: v)
| UB_wide c e v : 128 <= c -> 128 <= c mod 256 \/ lax_qdtext (c mod 256) = true -> ubody e v -> ubody (c :: e) (c :: v)
| UB_dropped c e v : 128 <= c -> c mod 256 = 92 -> ubody e v -> ubody (c :: e) v
| UB_pair c e v : c mod 256 = 9 \/ 32 <= c mod 256 <= 126 \/ 128 <= c mod 256 -> ubody e v -> ubody (92 :: c :: e) (c :: v).

(** A character that is taken for the closing quote and cut in two. *)
Definition false_quote (c : N) : Prop := 128 <= c /\ c mod 256 = 34.

Lemma ubody_yes e v r : ubody e v -> qs (e ++ 34 :: r) = QYes v r.
Proof.
  intros B. induction B as [|c e v L Q B IH|c e v L Q B IH|c e v L Q B IH|c e v Q B IH]; cbn [app qs].
  - reflexivity.
  - replace (as_u8 c) with c by (unfold as_u8; lia). unfold lax_qdtext in Q. replace (c =? 92) with false by lia. replace (c =? 34) with false by lia.
    replace (qdtext c) with true by (unfold qdtext; lia). rewrite IH. reflexivity.
  - replace (c =? 92) with false by lia. replace (c =? 34) with false by lia. unfold as_u8, lax_qdtext in *.
    replace (c mod 256 =? 92) with false by lia. replace (c mod 256 =? 34) with false by lia.
    replace (qdtext (c mod 256)) with true by (unfold qdtext; lia). rewrite IH. reflexivity.
  - replace (c =? 92) with false by lia. unfold as_u8. rewrite Q. exact IH.
  - change (92 =? 92) with true. cbn iota. replace (vchar c) with true by (unfold vchar, as_u8; lia). rewrite IH. reflexivity.
Qed.
Lemma ubody_panics e v c r : ubody e v -> false_quote c -> qs (e ++ c :: r) = QPanics.
Proof.
  intros B [C1 C2]. induction B as [|d e v L Q B IH|d e v L Q B IH|d e v L Q B IH|d e v Q B IH]; cbn [app qs].
  - replace (c =? 92) with false by lia. replace (c =? 34) with false by lia. unfold as_u8. rewrite C2. reflexivity.
  - replace (as_u8 d) with d by (unfold as_u8; lia). unfold lax_qdtext in Q. replace (d =? 92) with false by lia. replace (d =? 34) with false by lia.
    replace (qdtext d) with true by (unfold qdtext; lia). rewrite IH. reflexivity.
  - replace (d =? 92) with false by lia. replace (d =? 34) with false by lia. unfold as_u8, lax_qdtext in *.
    replace (d mod 256 =? 92) with false by lia. replace (d mod 256 =? 34) with false by lia.
    replace (qdtext (d mod 256)) with true by (unfold qdtext; lia). rewrite IH. reflexivity.
  - replace (d =? 92) with false by lia. unfold as_u8. rewrite Q. exact IH.
  - change (92 =? 92) with true. cbn iota. replace (vchar d) with true by (unfold vchar, as_u8; lia). rewrite IH. reflexivity.
Qed.
Lemma qs_ubody : forall n s, (length s <= n)%nat ->
  match qs s with
  | QNo => True
  | QPanics => exists e v c r, s = e ++ c :: r /\ ubody e v /\ false_quote c
  | QYes v r => exists e, s = e ++ 34 :: r /\ ubody e v
  end.
Proof.
  induction n as [|n IH]; intros s L; (destruct s as [|c s]; [exact I|]); cbn [length] in L; [lia|].
  cbn [qs]. destruct (N.eqb_spec c 92) as [->|N92].
  - destruct s as [|d s]; [exact I|]. destruct (vchar d) eqn:V; [|exact I]. cbn [length] in L. specialize (IH s ltac:(lia)).
    assert (W : d mod 256 = 9 \/ 32 <= d mod 256 <= 126 \/ 128 <= d mod 256) by (unfold vchar, as_u8 in V; lia).
    destruct (qs s) as [| |v r]; cbn [qcons]; [exact I| |].
    + destruct IH as (e & v & x & r & -> & B & F). exists (92 :: d :: e), (d :: v), x, r. split; [reflexivity|]. split; [apply UB_pair; auto|exact F].
    + destruct IH as (e & -> & B). exists (92 :: d :: e). split; [reflexivity|]. apply UB_pair; auto.
  - specialize (IH s ltac:(lia)). destruct (as_u8 c =? 92) eqn:A92.
    + assert (W : 128 <= c /\ c mod 256 = 92) by (unfold as_u8 in A92; lia).
      destruct (qs s) as [| |v r]; [exact I| |].
      * destruct IH as (e & v & x & r & -> & B & F). exists (c :: e), v, x, r. split; [reflexivity|]. split; [apply UB_dropped; tauto|exact F].
      * destruct IH as (e & -> & B). exists (c :: e). split; [reflexivity|]. apply UB_dropped; tauto.
    + destruct (N.eqb_spec c 34) as [->|N34]; [exists []; split; [reflexivity|constructor]|].
      destruct (as_u8 c =? 34) eqn:A34.
      * exists [], [], c, s. split; [reflexivity|]. split; [constructor|]. unfold false_quote. unfold as_u8 in A34. lia.
      * destruct (qdtext (as_u8 c)) eqn:Q; [|exact I].
        assert (W : forall e v, ubody e v -> ubody (c :: e) (c :: v)).
        { intros e v B. destruct (N.ltb_spec c 128) as [S|S].
          - apply UB_ascii; [exact S| |exact B]. replace (as_u8 c) with c in * by (unfold as_u8; lia). unfold qdtext in Q. unfold lax_qdtext. lia.
          - apply UB_wide; [exact S| |exact B]. unfold qdtext, as_u8 in Q. unfold lax_qdtext. lia. }
        destruct (qs s) as [| |v r]; cbn [qcons]; [exact I| |].
        -- destruct IH as (e & v & x & r & -> & B & F). exists (c :: e), (c :: v), x, r. auto.
        -- destruct IH as (e & -> & B). exists (c :: e). auto.
Qed.

(** Any text: exactly when a value is read, exactly when the parser panics, and otherwise nothing is
    consumed. *)
Theorem C38_quoted_string_any_text : forall s,
  (forall v rest, parse_quoted_string s = Ok (Some v, rest) <-> exists e, s = 34 :: e ++ 34 :: rest /\ ubody e v) /\
  (parse_quoted_string s = Panic <-> exists e v c rest, s = 34 :: e ++ c :: rest /\ ubody e v /\ false_quote c) /\
  ((exists v rest, parse_quoted_string s = Ok (Some v, rest)) \/ parse_quoted_string s = Panic \/ parse_quoted_string s = Ok (None, s)).
Proof.
  intros s. destruct s as [|c s].
  { change (parse_quoted_string []) with (Ok (@None str, @nil N)). split; [|split]; [| |auto]; [intros v rest|]; (split; [discriminate|]); [intros (e & H & _)|intros (e & v & c & r & H & _)]; discriminate. }
  destruct (N.eqb_spec c 34) as [->|N].
  2:{ assert (E : parse_quoted_string (c :: s) = Ok (None, c :: s)).
      { rewrite parse_quoted_spec. destruct c as [|p]; [reflexivity|]. repeat (destruct p as [p|p|]; try reflexivity). destruct N. reflexivity. }
      rewrite E.
      split; [|split]; [| |auto].
      - intros v rest. split; [discriminate|]. intros (e & H & _). inv H. contradiction.
      - split; [discriminate|]. intros (e & v & d & r & H & _). inv H. contradiction. }
  rewrite parse_quoted_spec. assert (Q := qs_ubody (length s) s (le_n _)). split; [|split].
  - intros v rest. split.
    + intros H. destruct (qs s) as [| |v' r']; try discriminate. inv H. destruct Q as (e & -> & B). eauto.
    + intros (e & H & B). injection H as ->. rewrite (ubody_yes e v rest B). reflexivity.
  - split.
    + intros H. destruct (qs s) as [| |v' r']; try discriminate. destruct Q as (e & v & x & r & -> & B & F). exists e, v, x, r. auto.
    + intros (e & v & x & r & H & B & F). injection H as ->. rewrite (ubody_panics e v x r B F). reflexivity.
  - destruct (qs s) as [| |v' r']; eauto.
Qed.
Print Assumptions C38_offsets.
Print Assumptions C38_quoted_string_any_text.

Example C38_unicode_example :
  ubody [233; 8364; 348; 92; 34] [233; 8364; 34] /\ false_quote 290 /\
  parse_quoted_string ([34; 233; 8364; 348; 92; 34] ++ [34; 97]) = Ok (Some [233; 8364; 34], [97]) /\
  parse_quoted_string [34; 128; 34] = Ok (Some [128], []) /\ parse_quoted_string [34; 128; 290] = Panic /\
  split_at [233; 8364; 97] 5 = Ok ([233; 8364], [97]) /\ split_at [233; 8364; 97] 3 = Panic.
Proof.
  split; [|split; [unfold false_quote; lia|vm_compute; repeat split; reflexivity]].
  apply UB_wide; [lia|left; lia|]. apply UB_wide; [lia|left; lia|]. apply UB_dropped; [lia|reflexivity|].
  apply UB_pair; [right; left; lia|constructor].
Qed.
