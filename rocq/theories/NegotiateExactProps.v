(** C70, exactly: which Accept-Encoding and TE texts are understood, and as what. *)
From Coq Require Import ZifyBool ZifyNat ZifyN Lia.
From Verif Require Import Base BaseFacts Headers Mime MimeFacts MimeProps MimeExactProps Typed TypedFacts Float FloatFacts FloatProps Negotiate NegotiateFacts NegotiateProps.

(** ** Which numbers are weights *)
Lemma above_one : forall v, finite f32_format v -> 2 ^ 149 < v -> 2 ^ 149 + 2 ^ 126 <= v.
Proof.
  intros v ((m & e & -> & L) & _) G. cbn [prec f32_format] in L.
  destruct (N.lt_ge_cases e 126) as [E|E].
  - exfalso. assert (P : 2 ^ e <= 2 ^ 125) by (apply N.pow_le_mono_r; lia).
    assert (m * 2 ^ e <= (2 ^ 24 - 1) * 2 ^ 125) by (apply N.mul_le_mono; lia).
    assert ((2 ^ 24 - 1) * 2 ^ 125 < 2 ^ 149) by reflexivity. lia.
  - replace e with (e - 126 + 126) in * by lia. rewrite N.pow_add_r in *. set (k := 2 ^ (e - 126)) in *. clearbody k.
    change (2 ^ 149) with (2 ^ 23 * 2 ^ 126) in *. set (W := 2 ^ 126) in *.
    assert (WP : 0 < W) by (unfold W; reflexivity). clearbody W.
    rewrite N.mul_assoc in *. assert (2 ^ 23 < m * k) by (apply N.mul_lt_mono_pos_r in G; lia).
    assert ((2 ^ 23 + 1) * W <= m * k * W) by (apply N.mul_le_mono_r; lia). lia.
Qed.
(** A number [p / q] is rounded to a value of at most 1 exactly when it is at most 1 + 2^-24. *)
Lemma rounds_to_unit : forall p q x, 0 < q -> nearest f32_format false p q x ->
  ((exists v, x = Fin false v /\ v <= 2 ^ 149) <-> p * 2 ^ 24 <= q * (2 ^ 24 + 1)).
Proof.
  intros p q x Q H.
  assert (F1 : finite f32_format (2 ^ 149)) by (split; [exists 1, 149; split; [reflexivity|reflexivity]|reflexivity]).
  assert (F2 : finite f32_format (2 ^ 149 + 2 ^ 126)) by (split; [exists (2 ^ 23 + 1), 126; split; reflexivity|reflexivity]).
  assert (SC : p * 2 ^ 24 <= q * (2 ^ 24 + 1) <-> p * 2 ^ 149 <= q * (2 ^ 149 + 2 ^ 125)).
  { replace (p * 2 ^ 149) with (p * 2 ^ 24 * 2 ^ 125) by (rewrite <- N.mul_assoc; reflexivity).
    replace (q * (2 ^ 149 + 2 ^ 125)) with (q * (2 ^ 24 + 1) * 2 ^ 125) by (rewrite <- N.mul_assoc; reflexivity).
    apply N.mul_le_mono_pos_r. reflexivity. }
  rewrite SC. clear SC. unfold nearest, off in H. change (unit f32_format) with 149 in H.
  assert (TH : threshold2 f32_format > 2 * (2 ^ 149 + 2 ^ 125)) by reflexivity.
  assert (T' : q * (2 * (2 ^ 149 + 2 ^ 125)) < q * threshold2 f32_format) by (apply N.mul_lt_mono_pos_l; lia).
  assert (W3 : 2 ^ 126 = 2 * 2 ^ 125) by reflexivity. assert (W4 : 2 ^ 149 = 2 ^ 24 * 2 ^ 125) by reflexivity.
  assert (PW : 0 < 2 ^ 125) by reflexivity.
  destruct H as [(v & -> & Fv & _ & C)|(-> & B)].
  - split.
    + intros (v' & E & L). inv E. specialize (C _ F2). assert (D : 2 ^ 149 + 2 ^ 126 <> v') by lia. specialize (C D). clear F1 F2 D.
      assert (M : q * v' <= q * 2 ^ 149) by (apply N.mul_le_mono_l; exact L).
      rewrite W3 in *. set (h := 2 ^ 125) in *. set (o := 2 ^ 149) in *. clearbody h o. destruct C as [C|[C _]]; nia.
    + intros L. exists v. split; [reflexivity|]. destruct (N.le_gt_cases v (2 ^ 149)) as [|G]; [assumption|exfalso].
      assert (A := above_one v Fv G). specialize (C _ F1). assert (D : 2 ^ 149 <> v) by lia. specialize (C D).
      assert (M : q * (2 ^ 149 + 2 ^ 126) <= q * v) by (apply N.mul_le_mono_l; exact A).
      destruct C as [C|[C E]].
      * rewrite W3 in *. set (h := 2 ^ 125) in *. set (o := 2 ^ 149) in *. clearbody h o. nia.
      * assert (V : v = 2 ^ 149 + 2 ^ 126).
        { rewrite W3 in *. set (h := 2 ^ 125) in *. set (o := 2 ^ 149) in *. clearbody h o.
          assert (X : q * v <= q * (o + 2 * h)) by nia. apply N.mul_le_mono_pos_l in X; lia. }
        subst v. vm_compute in E. discriminate E.
  - split; [intros (v & E & _); discriminate|]. intros L. exfalso. rewrite W3 in *. clear F1 F2. nia.
Qed.

(** The texts read as a weight: decimal numbers, not negative, up to 1 + 2^-24 (which std rounds down to 1). *)
Definition weight_text (t : str) (v : N) : Prop := exists p q, decimal t false p q /\ p * 2 ^ 24 <= q * (2 ^ 24 + 1) /\ nearest f32_format false p q (Fin false v).
Lemma weight_text_iff : forall t v, (exists x, parse_float f32 t = Some x /\ weight_ok (Some x) = true /\ x = Fin false v) <-> weight_text t v.
Proof.
  intros t v. split.
  - intros (x & P & W & ->). apply weight_ok_spec in W. destruct (C81_only _ _ _ P) as [(sg & neg & w & _ & _ & [(_ & E)|(_ & E)])|(neg & p & q & D)]; try discriminate.
    destruct (C81_numbers f32_format t neg p q (proj1 formats_sensible) D) as (y & P' & Nr). rewrite P in P'. inv P'.
    assert (Q : 0 < q) by (destruct D as (? & ? & ? & ? & ? & ? & D); apply D).
    assert (neg = false) by (destruct Nr as [(v' & E & _)|(E & _)]; [now inv E|discriminate]). subst neg.
    exists p, q. split; [exact D|]. split; [|exact Nr]. apply (rounds_to_unit p q _ Q Nr). destruct W as (v' & E & L). inv E. now exists v'.
  - intros (p & q & D & L & Nr). destruct (C81_numbers f32_format t false p q (proj1 formats_sensible) D) as (y & P & Nr').
    assert (Q : 0 < q) by (destruct D as (? & ? & ? & ? & ? & ? & D'); apply D').
    assert (E := C81_unique _ _ _ _ _ _ Nr Nr'). subst y. exists (Fin false v). split; [exact P|]. split; [|reflexivity].
    apply weight_ok_spec. destruct (proj2 (rounds_to_unit p q _ Q Nr) L) as (v' & E & B). exists v'. auto.
Qed.

(** ** Pieces *)
(** What follows a weight is ignored from a semicolon or equals sign on. *)
Definition ignored (s : str) : Prop := s = [] \/ exists c r, s = c :: r /\ (c = 59 \/ c = 61).
(** How a piece between commas is understood: an unknown name is skipped whatever follows it, a known name stands alone
    or has ";q=" and a weight. *)
Inductive piece (k : family) : str -> option proposal -> Prop :=
| PieceUnknown name rest : ~ In 59 name -> ~ known k name -> (rest = [] \/ exists r, rest = 59 :: r) -> piece k (name ++ rest) None
| PiecePlain name c : ~ In 59 name -> in_family k c = true -> trim name = coding_show c -> piece k name (Some (Proposal c None))
| PieceWeighted name c w v rest : ~ In 59 name -> in_family k c = true -> trim name = coding_show c ->
    weight_text w v -> ignored rest -> piece k (name ++ lit ";q=" ++ w ++ rest) (Some (Proposal c (Some (Fin false v)))).

Lemma no_char_in : forall (c : N) (s : str), no_char c s = true <-> ~ In c s.
Proof.
  intros c s. unfold no_char. rewrite forallb_forall. split.
  - intros H I. specialize (H c I). rewrite N.eqb_refl in H. discriminate.
  - intros H x I. destruct (N.eqb_spec x c) as [->|]; [contradiction|reflexivity].
Qed.
Lemma unknown_iff : forall k s, ~ known k s <-> coding_from_str k s = None.
Proof.
  intros k s. split.
  - intros H. destruct (coding_from_str k s) as [c|] eqn:E; [|reflexivity]. apply coding_from_str_spec in E. elim H. now exists c.
  - intros E (c & H). apply coding_from_str_spec in H. congruence.
Qed.
Lemma cut_first : forall (d : N) (s : str), exists a r, s = a ++ r /\ ~ In d a /\ (r = [] \/ exists r', r = d :: r').
Proof.
  intros d s. destruct (split_once d s) as [[a b]|] eqn:E.
  - apply split_once_some in E as [-> N]. exists a, (d :: b). split; [reflexivity|]. split; [now apply no_char_in|]. right. now exists b.
  - apply split_once_none in E. exists s, []. split; [now rewrite app_nil_r|]. split; [now apply no_char_in|]. now left.
Qed.
Lemma split_cut : forall (d : N) (a r : str), ~ In d a -> (r = [] \/ exists r', r = d :: r') -> split d (a ++ r) = a :: match r with [] => [] | _ :: r' => split d r' end.
Proof.
  intros d a r N [->|(r' & ->)]; apply no_char_in in N.
  - rewrite app_nil_r. now apply split_no_char.
  - now apply split_app.
Qed.
Lemma weight_chars : forall t v, weight_text t v -> ~ In 59 t /\ ~ In 61 t.
Proof.
  intros t v (p & q & D & _). destruct (decimal_chars _ _ _ _ D) as [C _].
  split; apply no_char_in; apply (no_char_forallb _ num_char t); auto.
Qed.
(** Reading a piece gives what the piece means, and refuses what means nothing. *)
Lemma piece_read : forall k t o, proposal_from_str k t = Ok o <-> piece k t o.
Proof.
  intros k t o. split.
  - intros H. unfold proposal_from_str in H. destruct (cut_first 59 t) as (name & r & -> & N & R). change c_semi with 59 in H. rewrite split_cut in H by assumption.
    destruct (coding_from_str k name) as [c|] eqn:E.
    + apply coding_from_str_spec in E as [F T]. destruct R as [->|(r' & ->)].
      * cbn [bind proposal_new weight_ok] in H. inv H. rewrite app_nil_r. now constructor.
      * destruct (cut_first 59 r') as (pw & r2 & -> & N2 & R2). rewrite split_cut in H by assumption.
        unfold parse_weight in H. destruct (cut_first 61 pw) as (q & r3 & -> & N3 & R3). change c_eq with 61 in H. rewrite split_cut in H by assumption.
        destruct R3 as [->|(r4 & ->)]; [discriminate|].
        destruct (cut_first 61 r4) as (w & r5 & -> & N5 & R5). rewrite split_cut in H by assumption.
        destruct (seqb_spec q (lit "q")) as [->|]; [|discriminate].
        destruct (parse_float f32 w) as [x|] eqn:P; cbn [ok_or bind] in H; [|discriminate].
        unfold proposal_new in H. destruct (weight_ok (Some x)) eqn:W; cbn [bind] in H; [|discriminate]. inv H.
        assert (X : exists v, x = Fin false v) by (apply weight_ok_spec in W; destruct W as (v & E & _); eauto). destruct X as (v & ->).
        replace (name ++ 59 :: (lit "q" ++ 61 :: (w ++ r5)) ++ r2) with (name ++ lit ";q=" ++ w ++ (r5 ++ r2)) by (cbn [lit list_ascii_of_string map app]; rewrite <- !app_assoc; reflexivity).
        apply PieceWeighted; auto.
        -- apply weight_text_iff. now exists (Fin false v).
        -- destruct R5 as [->|(r6 & ->)]; [|right; eexists _, _; split; [reflexivity|auto]].
           destruct R2 as [->|(r7 & ->)]; [now left|right; eexists _, _; split; [reflexivity|auto]].
    + inv H. apply PieceUnknown; auto. now apply unknown_iff.
  - intros [name rest N U R|name c N F T|name c w v rest N F T W I]; unfold proposal_from_str; change c_semi with 59.
    + rewrite split_cut by assumption. apply unknown_iff in U. now rewrite U.
    + rewrite split_no_char by now apply no_char_in. rewrite (proj2 (coding_from_str_spec k name c)) by auto. reflexivity.
    + change (lit ";q=" ++ w ++ rest) with (59 :: lit "q=" ++ w ++ rest). rewrite split_app by now apply no_char_in.
      rewrite (proj2 (coding_from_str_spec k name c)) by auto. destruct (weight_chars _ _ W) as [W1 W2].
      assert (S : exists more, split 59 (lit "q=" ++ w ++ rest) = (lit "q=" ++ w ++ (match rest with c :: r => if c =? 59 then [] else fst (match split_once 59 rest with Some (a, b) => (a, b) | None => (rest, []) end) | [] => [] end)) :: more).
      { destruct I as [->|(d & r & -> & [-> | ->])].
        - exists []. rewrite split_no_char; [reflexivity|]. rewrite !no_char_app. apply no_char_in in W1. rewrite W1. reflexivity.
        - exists (split 59 r). change (59 =? 59) with true. cbv iota. rewrite app_nil_r, app_assoc. apply split_app. rewrite no_char_app. apply no_char_in in W1. rewrite W1. reflexivity.
        - change (61 =? 59) with false. cbv iota. destruct (split_once 59 (61 :: r)) as [[a b]|] eqn:E.
          + apply split_once_some in E as [E NA]. rewrite E. exists (split 59 b). cbn [fst]. rewrite !app_assoc. apply split_app. rewrite !no_char_app, NA.
            apply no_char_in in W1. rewrite W1. reflexivity.
          + apply split_once_none in E. exists []. cbn [fst]. rewrite split_no_char; [reflexivity|]. rewrite !no_char_app, E. apply no_char_in in W1. rewrite W1. reflexivity. }
      destruct S as (more & ->). unfold parse_weight. change c_eq with 61.
      match goal with |- context [split 61 (lit "q=" ++ w ++ ?e)] => set (ext := e); assert (X : ext = [] \/ exists r', ext = 61 :: r') end.
      { subst ext. destruct I as [->|(d & r & -> & [-> | ->])]; [now left|now left|]. change (61 =? 59) with false. cbv iota.
        destruct (split_once 59 (61 :: r)) as [[a b]|] eqn:E; [|right; now exists r]. apply split_once_some in E as [E _]. cbn [fst].
        destruct a as [|a0 a]; [discriminate E|]. injection E as <- _. right. now exists a. }
      change (lit "q=" ++ w ++ ext) with (lit "q" ++ 61 :: w ++ ext). rewrite split_app by reflexivity. rewrite split_cut by assumption.
      change (seqb (lit "q") (lit "q")) with true. cbv iota. apply weight_text_iff in W. destruct W as (x & P & O & ->). rewrite P. cbn [ok_or bind].
      unfold proposal_new. rewrite O. reflexivity.
Qed.

(** The whole header: one meaning per piece, known codings in order, the flag when some piece is the star. *)
Definition gather (os : list (option proposal)) : list proposal := flat_map (fun o => match o with Some p => [p] | None => [] end) os.
Lemma accept_read_iff : forall k h vs l (w : bool), h_get h (accept_name k) = Some vs ->
  (accept_from_headers k h = Ok (Some (l, w)) <->
   exists os, Forall2 (fun t o => piece k (trim t) o) (comma_parts vs) os /\ l = gather os /\
     (w = true <-> In (lit "*") (map trim (comma_parts vs)))).
Proof.
  intros k h vs l w G. unfold accept_from_headers, with_all. rewrite G.
  assert (K : forall ps l w, read_proposals k ps = Ok (l, w) <->
    exists os, Forall2 (fun t o => piece k (trim t) o) ps os /\ l = gather os /\ (w = true <-> In (lit "*") (map trim ps))).
  { clear. unfold read_proposals. induction ps as [|p ps IH]; intros l w; cbn [read_skipping].
    - split.
      + intros H. inv H. exists []. split; [constructor|]. split; [reflexivity|]. cbn [map In]. split; [discriminate|tauto].
      + intros (os & F & -> & W). inversion F; subst. cbn [gather flat_map]. cbn [map In] in W. destruct w; [elim (proj1 W eq_refl)|reflexivity].
    - assert (NIL : piece k [] None) by (apply (PieceUnknown k [] []); [auto|apply unknown_iff; destruct k; reflexivity|now left]).
      assert (STAR : piece k (lit "*") None).
      { change (lit "*") with (lit "*" ++ []). apply PieceUnknown; [intros [X|[]]; discriminate|apply unknown_iff; destruct k; reflexivity|now left]. }
      assert (DET : forall t o1 o2, piece k t o1 -> piece k t o2 -> o1 = o2).
      { intros t o1 o2 A B. apply piece_read in A, B. congruence. }
      destruct (seqb_spec (trim p) []) as [E|NE].
      + rewrite IH. split.
        * intros (os & F & -> & W). exists (None :: os). split; [constructor; [now rewrite E|exact F]|]. split; [reflexivity|].
          cbn [map In]. rewrite E. rewrite W. split; [auto|]. intros [X|X]; [discriminate|exact X].
        * intros (os & F & -> & W). inversion F as [|? o ? os' P F']; subst. rewrite E in P. rewrite (DET _ _ _ P NIL). exists os'. split; [exact F'|]. split; [reflexivity|].
          rewrite W. cbn [map In]. rewrite E. split; [intros [X|X]; [discriminate|exact X]|auto].
      + destruct (seqb_spec (trim p) (lit "*")) as [E|NS].
        * split.
          -- destruct (read_skipping (proposal_from_str k) ps) as [[es b]| |] eqn:R; try discriminate. cbn [bind]. intros H. inv H.
             destruct (proj1 (IH l b) eq_refl) as (os & F & -> & _). exists (None :: os). split; [constructor; [now rewrite E|exact F]|]. split; [reflexivity|].
             cbn [map In]. rewrite E. tauto.
          -- intros (os & F & -> & W). inversion F as [|? o ? os' P F']; subst. rewrite E in P. rewrite (DET _ _ _ P STAR).
             assert (b : exists b, read_skipping (proposal_from_str k) ps = Ok (gather os', b)).
             { destruct (in_dec (list_eq_dec N.eq_dec) (lit "*") (map trim ps)) as [I|I];
               [exists true|exists false]; apply IH; exists os'; (split; [exact F'|]; split; [reflexivity|]); split; auto; congruence. }
             destruct b as (b & ->). cbn [bind gather flat_map app].
             assert (X : w = true) by (apply W; cbn [map In]; left; exact E). now subst w.
        * split.
          -- destruct (proposal_from_str k (trim p)) as [o| |] eqn:P; try discriminate. cbn [bind].
             destruct (read_skipping (proposal_from_str k) ps) as [[es b]| |] eqn:R; try discriminate. cbn [bind]. intros H. inv H.
             destruct (proj1 (IH es w) eq_refl) as (os & F & -> & W). exists (o :: os). split; [constructor; [now apply piece_read|exact F]|].
             split; [destruct o; reflexivity|]. cbn [map In]. rewrite W. split; [auto|]. intros [X|X]; [congruence|exact X].
          -- intros (os & F & -> & W). inversion F as [|? o ? os' P F']; subst. apply piece_read in P. rewrite P. cbn [bind].
             assert (R : read_skipping (proposal_from_str k) ps = Ok (gather os', w)).
             { apply IH. exists os'. split; [exact F'|]. split; [reflexivity|]. rewrite W. cbn [map In]. split; [intros [X|X]; [congruence|exact X]|auto]. }
             rewrite R. cbn [bind]. destruct o; reflexivity. }
  specialize (K (comma_parts vs) l w). rewrite <- K. destruct (read_proposals k (comma_parts vs)) as [[l' w']| |]; cbn [bind]; split; intros X; try discriminate; inv X; reflexivity.
Qed.
(** The weights accepted: exactly these decimal texts; a number just above 1 counts as 1. *)
Theorem C70_weights : forall k c h t, in_family k c = true -> ~ In 44 t -> ~ In 59 t -> ~ In 61 t -> no_edge is_ws t = true -> t <> [] ->
  h_get h (accept_name k) = Some [coding_show c ++ lit ";q=" ++ t] ->
  ((exists a, accept_from_headers k h = Ok a) <-> exists p q, decimal t false p q /\ p * 2 ^ 24 <= q * (2 ^ 24 + 1)).
Proof.
  intros k c h t F N44 N59 N61 NE NN G.
  assert (CP : trim (coding_show c ++ lit ";q=" ++ t) = coding_show c ++ lit ";q=" ++ t).
  { apply trim_id. unfold no_edge in *. apply andb_true_iff in NE as [NE1 NE2]. apply andb_true_iff. split; [destruct c; reflexivity|].
    rewrite !rev_app_distr. destruct (rev t) as [|z r] eqn:R; [|exact NE2]. elim NN. rewrite <- (rev_involutive t), R. reflexivity. }
  assert (SP : comma_parts [coding_show c ++ lit ";q=" ++ t] = [coding_show c ++ lit ";q=" ++ t]).
  { unfold comma_parts. cbn [flat_map]. rewrite app_nil_r, CP. apply split_no_char. rewrite !no_char_app. apply no_char_in in N44. rewrite N44. destruct c; reflexivity. }
  assert (NC : ~ In 59 (coding_show c)) by (apply no_char_in; destruct c; reflexivity).
  split.
  - intros (a & A). assert (X : exists l w, a = Some (l, w)).
    { unfold accept_from_headers, with_all in A. rewrite G in A. destruct (read_proposals k _) as [[l w]| |]; try discriminate. inv A. eauto. }
    destruct X as (l & w & ->). apply (accept_read_iff k h _ l w G) in A as (os & P & _). rewrite SP in P. 
    assert (PQ : exists o, piece k (trim (coding_show c ++ lit ";q=" ++ t)) o).
    { revert P. generalize (coding_show c ++ lit ";q=" ++ t) as z. intros z P. inversion P as [|x o xs os' Q P' EX EO]. now exists o. }
    destruct PQ as (o & Q). rewrite CP in Q.
    apply piece_read in Q. unfold proposal_from_str in Q. change (lit ";q=" ++ t) with (59 :: lit "q=" ++ t) in Q. change c_semi with 59 in Q.
    rewrite split_app in Q by now apply no_char_in. rewrite coding_show_read in Q by exact F.
    rewrite split_no_char in Q by (rewrite no_char_app; apply no_char_in in N59; now rewrite N59).
    unfold parse_weight in Q. change c_eq with 61 in Q. change (lit "q=" ++ t) with (lit "q" ++ 61 :: t) in Q. rewrite split_app in Q by reflexivity.
    rewrite split_no_char in Q by now apply no_char_in. change (seqb (lit "q") (lit "q")) with true in Q. cbv iota in Q.
    destruct (parse_float f32 t) as [x|] eqn:PF; cbn [ok_or bind] in Q; [|discriminate]. unfold proposal_new in Q. destruct (weight_ok (Some x)) eqn:W; [|discriminate].
    assert (Y : exists v, x = Fin false v) by (apply weight_ok_spec in W; destruct W as (v & E & _); eauto). destruct Y as (v & ->).
    destruct (proj1 (weight_text_iff t v)) as (p & q & D & L & _); [now exists (Fin false v)|]. eauto.
  - intros (p & q & D & L). destruct (C81_numbers f32_format t false p q (proj1 formats_sensible) D) as (x & PF & Nr).
    assert (Q : 0 < q) by (destruct D as (? & ? & ? & ? & ? & ? & D'); apply D').
    destruct (proj2 (rounds_to_unit p q x Q Nr) L) as (v & -> & _).
    eexists. apply (accept_read_iff k h _ [Proposal c (Some (Fin false v))] false G). exists [Some (Proposal c (Some (Fin false v)))].
    split; [|split; [reflexivity|]].
    + rewrite SP. constructor; [|constructor]. rewrite CP. rewrite <- (app_nil_r t). apply PieceWeighted; auto.
      * apply trim_id. destruct c; reflexivity.
      * exists p, q. auto.
      * now left.
    + rewrite SP. cbn [map In]. rewrite CP. split; [discriminate|]. intros [X|[]]. destruct c; discriminate X.
Qed.
Print Assumptions C70_weights.
(** Texts outside the RFC that are accepted: exponents, signs, a number just above 1, anything after the weight, and anything
    after an unknown name. *)
Example C70_exact_example :
  accept_from_headers Content [(lit "accept-encoding", [lit "gzip;q=+5e-1=x;y, foo;;;, br;q=1.00000005, zstd;q=.5;q=9"])] =
    Ok (Some ([Proposal Gzip (milli 500); Proposal Brotli (milli 1000); Proposal Zstd (milli 500)], false)) /\
  accept_from_headers Content [(lit "accept-encoding", [lit "br;q=1.0000001"])] = Err 500 /\
  accept_from_headers Content [(lit "accept-encoding", [lit "br;q=-0"])] = Err 500 /\
  accept_from_headers Content [(lit "accept-encoding", [lit "br;"])] = Err 400.
Proof. vm_compute. auto. Qed.

(** ** Accept *)
(** What a piece of Accept means: a media type (C20_grammar says which texts those are) whose parameter "q", if there is one,
    is taken off and is the weight; without it the weight is 1. *)
Definition media_piece (t : str) (p : media_proposal) : Prop := exists m q, mime_parse t = Ok m /\
  remove_param m (lit "q") = Ok (q, mp_type p) /\
  match q with
  | None => mp_weight p = Some (Fin false (2 ^ 149))
  | Some w => exists v, weight_text w v /\ mp_weight p = Some (Fin false v)
  end.
Lemma media_piece_read : forall t p, media_from_str t = Ok p <-> media_piece t p.
Proof.
  intros t p. unfold media_from_str, media_piece. split.
  - intros H. destruct (mime_parse t) as [m| |]; cbn [bind] in H; try discriminate. destruct (remove_param m (lit "q")) as [[q m']| |] eqn:R; cbn [bind] in H; try discriminate.
    exists m, q. rewrite R. destruct q as [w|].
    + destruct (parse_float f32 w) as [x|] eqn:P; cbn [ok_or bind] in H; [|discriminate]. unfold media_new in H. destruct (weight_ok (Some x)) eqn:W; [|discriminate].
      assert (E : p = MediaProposal m' (Some x)) by congruence. subst p. cbn [mp_type mp_weight].
      split; [reflexivity|]. split; [reflexivity|].
      assert (X : exists v, x = Fin false v) by (apply weight_ok_spec in W; destruct W as (v & E & _); eauto). destruct X as (v & ->).
      exists v. split; [|reflexivity]. apply weight_text_iff. now exists (Fin false v).
    + cbn [bind] in H. unfold media_new in H. change (weight_ok None) with true in H. cbv iota in H.
      assert (E : p = MediaProposal m' (Some (Fin false (one f32)))) by congruence. subst p. auto.
  - intros (m & q & -> & R & W). cbn [bind]. rewrite R. cbn [bind]. destruct p as [ty we]. cbn [mp_type mp_weight] in *. destruct q as [w|].
    + destruct W as (v & W & ->). apply weight_text_iff in W as (x & P & O & ->). rewrite P. cbn [ok_or bind]. unfold media_new. now rewrite O.
    + subst we. reflexivity.
Qed.
(** The whole header: empty pieces and stars aside, every piece must be such a media type, in order. *)
Lemma media_read_iff : forall h vs l (w : bool), h_get h ACCEPT = Some vs ->
  (media_from_headers h = Ok (Some (l, w)) <->
   Forall2 media_piece (filter (fun t => negb (seqb t []) && negb (seqb t (lit "*"))) (map trim (comma_parts vs))) l /\
   (w = true <-> In (lit "*") (map trim (comma_parts vs)))).
Proof.
  intros h vs l w G. unfold media_from_headers, with_all. rewrite G.
  assert (K : forall ps l w, read_media ps = Ok (l, w) <->
    Forall2 media_piece (filter (fun t => negb (seqb t []) && negb (seqb t (lit "*"))) (map trim ps)) l /\ (w = true <-> In (lit "*") (map trim ps))).
  { clear. unfold read_media. induction ps as [|p ps IH]; intros l w; cbn [read_skipping map filter].
    - split.
      + intros H. inv H. split; [constructor|]. cbn [In]. split; [discriminate|tauto].
      + intros (F & W). inversion F. cbn [In] in W. destruct w; [elim (proj1 W eq_refl)|reflexivity].
    - destruct (seqb_spec (trim p) []) as [E|NE]; cbn [negb andb].
      + rewrite IH. cbn [In]. rewrite E. assert (Y : ([] : str) = lit "*" -> False) by discriminate. split; intros (F & W); (split; [exact F|]); rewrite W; tauto.
      + destruct (seqb_spec (trim p) (lit "*")) as [E|NS]; cbn [negb andb].
        * split.
          -- destruct (read_skipping _ ps) as [[es b]| |] eqn:R; try discriminate. cbn [bind]. intros H. inv H.
             destruct (proj1 (IH l b) eq_refl) as (F & _). split; [exact F|]. cbn [In]. tauto.
          -- intros (F & W). assert (b : exists b, read_skipping (fun t => let* m := media_from_str t in Ok (Some m)) ps = Ok (l, b)).
             { destruct (in_dec (list_eq_dec N.eq_dec) (lit "*") (map trim ps)) as [I|I];
               [exists true|exists false]; apply IH; (split; [exact F|]); split; auto; congruence. }
             destruct b as (b & ->). cbn [bind]. assert (X : w = true) by (apply W; cbn [In]; left; exact E). now subst w.
        * split.
          -- destruct (media_from_str (trim p)) as [o| |] eqn:P; try discriminate. cbn [bind].
             destruct (read_skipping _ ps) as [[es b]| |] eqn:R; try discriminate. cbn [bind]. intros H. inv H.
             destruct (proj1 (IH es w) eq_refl) as (F & W). split; [constructor; [now apply media_piece_read|exact F]|]. cbn [In]. rewrite W. split; [auto|]. intros [X|X]; [congruence|exact X].
          -- intros (F & W). inversion F as [|? o ? l' P F']; subst. apply media_piece_read in P. rewrite P. cbn [bind].
             assert (R : read_skipping (fun t => let* m := media_from_str t in Ok (Some m)) ps = Ok (l', w)).
             { apply IH. split; [exact F'|]. rewrite W. cbn [In]. split; [intros [X|X]; [congruence|exact X]|auto]. }
             rewrite R. reflexivity. }
  specialize (K (comma_parts vs) l w). rewrite <- K. destruct (read_media (comma_parts vs)) as [[l' w']| |]; cbn [bind]; split; intros X; try discriminate; inv X; reflexivity.
Qed.
(** The name of the weight may have any case, it may stand anywhere among the parameters, be quoted, and only the first one
    counts; one that is not a number is refused, and so is every text that is not a media type. *)
Example C71_accepted_example :
  media_from_headers [(ACCEPT, [lit "text/html ; Q=""5e-1"";level=1;q=9,, */*;q=.1 "; lit "*"])] =
    Ok (Some ([MediaProposal (mime_of (lit "text/html;level=1")) (milli 500); MediaProposal (mime_of (lit "*/*")) (milli 100)], true)) /\
  media_from_headers [(ACCEPT, [lit "text/html;q=high"])] = Err 500 /\ media_from_headers [(ACCEPT, [lit "text"])] = Err 500.
Proof. vm_compute. auto. Qed.

(** ** Exactly which Accept lists come back *)
Definition keep (t : str) : bool := negb (seqb t []) && negb (seqb t (lit "*")).
Definition kept (s : str) : nat := length (filter keep (map trim (split 44 s))).
Lemma split_app_any : forall (d : N) (a b : str), split d (a ++ d :: b) = split d a ++ split d b.
Proof.
  induction a as [|c a IH]; intros b; cbn [app split]; [now rewrite N.eqb_refl|]. destruct (c =? d); [now rewrite IH|].
  rewrite IH. destruct (split d a) as [|p ps] eqn:E; [now apply split_nonempty in E|reflexivity].
Qed.
Lemma kept_app : forall a b, kept (a ++ 44 :: b) = (kept a + kept b)%nat.
Proof. intros a b. unfold kept. now rewrite split_app_any, map_app, filter_app, app_length. Qed.
Lemma split_has : forall (d c : N) (s : str), c <> d -> In c s -> exists p, In p (split d s) /\ In c p.
Proof.
  induction s as [|x s IH]; intros D I; [destruct I|]. cbn [split]. destruct (N.eqb_spec x d) as [->|X].
  - destruct I as [I|I]; [congruence|]. destruct (IH D I) as (p & P & Q). exists p. split; [now right|exact Q].
  - destruct (split d s) as [|p0 ps] eqn:E; [now apply split_nonempty in E|]. destruct I as [->|I].
    + exists (c :: p0). split; now left.
    + destruct (IH D I) as (p & [<-|P] & Q); [exists (x :: p0); split; [now left|now right]|exists p; split; [now right|exact Q]].
Qed.
Lemma drop_has : forall (f : N -> bool) (c : N) (s : str), f c = false -> In c s -> In c (drop_while f s).
Proof.
  induction s as [|x s IH]; intros F I; [destruct I|]. cbn [drop_while]. destruct (f x) eqn:X; [|exact I].
  destruct I as [->|I]; [congruence|now apply IH].
Qed.
Lemma trim_has : forall (c : N) (s : str), is_ws c = false -> In c s -> In c (trim s).
Proof.
  intros c s W I. unfold trim, trim_matches, trim_end_matches, trim_start_matches. apply -> in_rev. apply drop_has; [exact W|]. apply -> in_rev. now apply drop_has.
Qed.
Lemma kept_pos : forall (c : N) (s : str), is_ws c = false -> c <> 42 -> c <> 44 -> In c s -> (1 <= kept s)%nat.
Proof.
  intros c s W S C I. destruct (split_has 44 c s C I) as (p & P & Q). unfold kept.
  assert (K : In (trim p) (filter keep (map trim (split 44 s)))).
  { apply filter_In. split; [now apply in_map|]. apply (trim_has c) in Q; [|exact W]. unfold keep. apply andb_true_iff. split; apply negb_true_iff.
    - destruct (seqb_spec (trim p) []) as [E|]; [rewrite E in Q; destruct Q|reflexivity].
    - destruct (seqb_spec (trim p) (lit "*")) as [E|]; [rewrite E in Q; destruct Q as [Q|[]]; elim S; symmetry; exact Q|reflexivity]. }
  destruct (filter keep (map trim (split 44 s))); [destruct K|cbn [length]; lia].
Qed.
Lemma kept_one : forall (pre : str) p, good_mime (mp_type p) -> (1 <= kept (pre ++ media_value p))%nat.
Proof.
  intros pre p (_ & _ & _ & _ & _ & _ & E & _). apply (kept_pos 47); [reflexivity|discriminate|discriminate|].
  unfold media_value, mime_format. rewrite E. rewrite !in_app_iff. cbn [In]. tauto.
Qed.
Lemma kept_two : forall (pre : str) p n v, good_mime (mp_type p) -> In (n, v) (params (mp_type p)) -> In 44 v -> (2 <= kept (pre ++ media_value p))%nat.
Proof.
  intros pre p n v (_ & _ & _ & _ & _ & _ & E & _) I C. destruct (in_split _ _ I) as (l1 & l2 & L). destruct (in_split _ _ C) as (v1 & v2 & V).
  assert (T : forallb is_token_cp v = false) by (subst v; rewrite forallb_app; cbn [forallb]; now rewrite andb_false_r).
  assert (F : exists a b, pre ++ media_value p = (pre ++ basetype (mp_type p) ++ [47] ++ a) ++ 44 :: b ++ [34] ++
    flat_map (fun q => format_param (fst q) (snd q)) l2 ++ match mp_weight p with Some w => lit ";q=" ++ show3 f32 w | None => [] end).
  { unfold media_value, mime_format. rewrite E, L, flat_map_app. cbn [flat_map fst snd]. unfold format_param at 2. rewrite T. cbn [andb].
    assert (X : escape_value v = escape_value v1 ++ 44 :: escape_value v2) by (rewrite V; unfold escape_value; rewrite flat_map_app; reflexivity). rewrite X.
    eexists (subtype (mp_type p) ++ (if is_utf8 (mp_type p) then _ else []) ++ flat_map (fun q => format_param (fst q) (snd q)) l1 ++ [59] ++ n ++ [61; 34] ++ escape_value v1), (escape_value v2).
    rewrite <- !app_assoc. cbn [app]. rewrite <- ?app_assoc. reflexivity. }
  destruct F as (a & b & ->). rewrite kept_app.
  assert (A : (1 <= kept (pre ++ basetype (mp_type p) ++ [47%N] ++ a))%nat) by (apply (kept_pos 47); [reflexivity|discriminate|discriminate|rewrite !in_app_iff; cbn [In]; tauto]).
  assert (B : forall r, (1 <= kept (b ++ [34%N] ++ r))%nat) by (intros r; apply (kept_pos 34); [reflexivity|discriminate|discriminate|rewrite !in_app_iff; cbn [In]; tauto]).
  specialize (B (flat_map (fun q => format_param (fst q) (snd q)) l2 ++ match mp_weight p with Some w => lit ";q=" ++ show3 f32 w | None => [] end)). lia.
Qed.
Lemma kept_join : forall l (pre : str), Forall (fun p => good_mime (mp_type p)) l ->
  (length l <= kept (pre ++ join (lit ", ") (map media_value l)))%nat /\
  (forall p n v, In p l -> In (n, v) (params (mp_type p)) -> In 44 v -> (length l < kept (pre ++ join (lit ", ") (map media_value l)))%nat).
Proof.
  induction l as [|p l IH]; intros pre F; [split; [cbn [length]; lia|intros ? ? ? []]|]. inversion F as [|? ? G F']; subst.
  destruct l as [|p2 l].
  - cbn [map join length]. split; [now apply kept_one|]. intros q n v [<-|[]] I C. pose proof (kept_two pre p n v G I C). lia.
  - change (join (lit ", ") (map media_value (p :: p2 :: l))) with (media_value p ++ 44 :: 32 :: join (lit ", ") (map media_value (p2 :: l))).
    rewrite app_assoc, kept_app. change (32 :: join (lit ", ") (map media_value (p2 :: l))) with ([32] ++ join (lit ", ") (map media_value (p2 :: l))).
    destruct (IH [32] F') as (K1 & K2). pose proof (kept_one pre p G). change (length (p :: p2 :: l)) with (S (length (p2 :: l))). split; [lia|].
    intros q n v [<-|I] J C; [pose proof (kept_two pre p n v G J C); lia|]. specialize (K2 q n v I J C). lia.
Qed.
Lemma join_ends : forall (s : str) l, l <> [] -> Forall ends_dark l -> ends_dark (join s l).
Proof.
  induction l as [|x l IH]; intros N F; [congruence|]. inversion F; subst. destruct l as [|y l]; [assumption|].
  change (join s (x :: y :: l)) with (x ++ s ++ join s (y :: l)). apply ends_dark_app, ends_dark_app, IH; [discriminate|assumption].
Qed.
Lemma media_value_ends : forall p, good_mime (mp_type p) -> good_weight (mp_weight p) -> ends_dark (media_value p).
Proof.
  intros [m w] G W. unfold media_value. cbn [mp_type mp_weight] in *. destruct w as [x|]; [|rewrite app_nil_r; now apply mime_format_ends].
  destruct W as (v & -> & L). apply ends_dark_app, ends_dark_app. cbn [show3 app]. apply thousandths_le in L.
  destruct (NegotiateProps.weight_text _ L) as (_ & _ & _ & _ & r0 & d & Er & Dd & _). rewrite Er. exists r0, (48 + d). split; [reflexivity|]. unfold is_ws. lia.
Qed.
Lemma list_value_trimmed : forall l w, l <> [] -> Forall (fun p => good_mime (mp_type p) /\ good_weight (mp_weight p)) l -> trim (media_list_value (l, w)) = media_list_value (l, w).
Proof.
  intros l w N F. apply trim_id. unfold no_edge. apply andb_true_iff.
  assert (S : exists c r, join (lit ", ") (map media_value l) = c :: r /\ is_ws c = false).
  { destruct l as [|p l]; [congruence|]. inversion F as [|? ? ((B1 & B2 & _ & _ & _ & _ & E & _) & _) _]; subst.
    destruct (basetype (mp_type p)) as [|c b] eqn:Bt; [discriminate B1|]. cbn [forallb] in B2. apply andb_true_iff in B2 as [Tc _]. apply token_cases in Tc.
    assert (H : exists r, media_value p = c :: r) by (unfold media_value, mime_format; rewrite E; eexists; reflexivity). destruct H as (r & H).
    destruct l as [|p2 l]; cbn [map join]; rewrite H; exists c; eexists; (split; [reflexivity|tauto]). }
  assert (D : ends_dark (join (lit ", ") (map media_value l))).
  { apply join_ends; [destruct l; [congruence|discriminate]|]. rewrite Forall_map. eapply Forall_impl; [|exact F]. intros p (G & W). now apply media_value_ends. }
  assert (D' : ends_dark (media_list_value (l, w))).
  { unfold media_list_value, list_value. cbn [fst snd]. destruct w; [|exact D]. destruct S as (c & r & -> & _). apply ends_dark_app, ends_dark_app. exists [], 42. auto. }
  split.
  - unfold media_list_value, list_value. cbn [fst snd]. destruct S as (c & r & -> & W). destruct w; cbn [app]; now rewrite W.
  - destruct D' as (r & c & -> & W). rewrite rev_app_distr. cbn [rev app]. now rewrite W.
Qed.
Lemma same_length : forall {A B} (R : A -> B -> Prop) la lb, Forall2 R la lb -> length la = length lb.
Proof. induction 1; cbn [length]; congruence. Qed.
Lemma piece_no_q : forall t p, media_piece t p -> ~ In (lit "q") (map fst (params (mp_type p))).
Proof.
  intros t p (m & q & P & R & _). destruct (mime_parse_good t) as [(m' & E & (_ & _ & _ & _ & _ & _ & _ & D & _))|E]; [|congruence].
  rewrite P in E. injection E as <-. unfold remove_param in R. change (param_name (lit "q")) with (Ok (lit "q")) in R. cbn [bind] in R.
  change (seqb (lit "q") (lit "charset")) with false in R. cbn [andb] in R. injection R as _ <-. cbn [params].
  revert D. generalize (params m) as ps. induction ps as [|[a b] ps IH]; intros D; cbn [remove_first]; [intros []|]. inversion D as [|? ? NI D']; subst.
  destruct (seqb_spec a (lit "q")) as [->|X]; [exact NI|]. cbn [map In fst] in *. intros [I|I]; [congruence|now apply IH].
Qed.

(** Proposals whose types came from the parser and whose weights are between 0 and 1 come back - the types in the same order,
    weights to three decimals, no weight as 1 - exactly if no parameter is called "q" and no parameter value has a comma. *)
Theorem C71_round_trip_iff : forall h l wildcard,
  Forall (fun p => (exists s, mime_parse s = Ok (mp_type p)) /\ good_weight (mp_weight p)) l ->
  (media_from_headers (media_apply h (l, wildcard))
     = Ok (Some (map (fun p => MediaProposal (mp_type p) (full_weight (mp_weight p))) l, wildcard)) <->
   forall p n v, In p l -> In (n, v) (params (mp_type p)) -> n <> lit "q" /\ ~ In 44 v).
Proof.
  intros h l wildcard F0.
  assert (F : Forall (fun p => good_mime (mp_type p) /\ good_weight (mp_weight p)) l).
  { eapply Forall_impl; [|exact F0]. intros p ((s & P) & W). split; [|exact W]. destruct (mime_parse_good s) as [(m & E & G)|E]; [|congruence]. congruence. }
  split.
  - intros H p n v Ip Iv. assert (NE : l <> []) by (intros ->; destruct Ip).
    assert (G : h_get (media_apply h (l, wildcard)) ACCEPT = Some [media_list_value (l, wildcard)]) by apply get_apply.
    apply (media_read_iff _ _ _ _ G) in H as (H & _). split.
    + intros ->. assert (Q : Forall (fun p => ~ In (lit "q") (map fst (params (mp_type p)))) (map (fun p => MediaProposal (mp_type p) (full_weight (mp_weight p))) l)).
      { revert H. generalize (map (fun p => MediaProposal (mp_type p) (full_weight (mp_weight p))) l) as es.
        generalize (filter (fun t => negb (seqb t []) && negb (seqb t (lit "*"))) (map trim (comma_parts [media_list_value (l, wildcard)]))) as ts.
        induction 1 as [|t e ts es P _ IH]; constructor; [now apply (piece_no_q t)|exact IH]. }
      rewrite Forall_map, Forall_forall in Q. apply (Q p Ip). cbn [mp_type]. change (lit "q") with (fst (lit "q", v)). now apply in_map.
    + intros C. assert (L := same_length _ _ _ H). rewrite map_length in L. unfold comma_parts in L. cbn [flat_map] in L. rewrite app_nil_r in L.
      rewrite list_value_trimmed in L by assumption. change (kept (media_list_value (l, wildcard)) = length l) in L.
      assert (Fg : Forall (fun p => good_mime (mp_type p)) l) by (eapply Forall_impl; [|exact F]; intros p0 (X & _); exact X).
      destruct (kept_join l [] Fg) as (_ & K). specialize (K p n v Ip Iv C). cbn [app] in K.
      unfold media_list_value, list_value in L. cbn [fst snd] in L. destruct wildcard; [|lia].
      destruct (join (lit ", ") (map media_value l)) as [|c r] eqn:J; [cbn in K; lia|]. rewrite <- J in *.
      change (lit ", " ++ lit "*") with (44 :: [32; 42]) in L. rewrite kept_app in L. lia.
  - intros H. apply C71_round_trip_partial. rewrite Forall_forall in *. intros p Ip. destruct (F p Ip) as (G & W). split; [|exact W].
    split; [exact G|]. split.
    + intros I. apply in_map_iff in I as ((n & v) & E & I). cbn [fst] in E. now apply (proj1 (H p n v Ip I)).
    + intros n v I. apply no_char_in. exact (proj2 (H p n v Ip I)).
Qed.
Print Assumptions C71_round_trip_iff.
Example C71_iff_example :
  let m := mime_of (lit "text/html;level=1") in let q := mime_of (lit "text/html;q=1") in let c := mime_of (lit "a/b;x=""c,d/e;f""") in
  media_from_headers (media_apply [] ([MediaProposal m None; MediaProposal m (milli 500)], true)) =
    Ok (Some ([MediaProposal m (milli 1000); MediaProposal m (milli 500)], true)) /\
  media_from_headers (media_apply [] ([MediaProposal q None], false)) = Ok (Some ([MediaProposal (mime_of (lit "text/html")) (milli 1000)], false)) /\
  media_from_headers (media_apply [] ([MediaProposal c None], false)) =
    Ok (Some ([MediaProposal (mime_of (lit "a/b;x=c")) (milli 1000); MediaProposal (mime_of (lit "d/e")) (milli 1000)], false)).
Proof. vm_compute. auto. Qed.
