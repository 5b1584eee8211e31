(** C20, exactly: which texts are media types, and what each of them means. *)
From Coq Require Import ZifyBool ZifyNat ZifyN Lia.
From Verif Require Import Base BaseFacts Mime MimeFacts MimeProps.

(** ** The grammar *)
(** Tab, line feed, carriage return and space. *)
Definition blank (c : N) : Prop := c = 9 \/ c = 10 \/ c = 13 \/ c = 32.
Definition starts_blank (s : str) : Prop := exists c r, s = c :: r /\ blank c.
Definition ends_blank (s : str) : Prop := exists r c, s = r ++ [c] /\ blank c.
(** The inside of a quoted string and what it stands for: a backslash stands for the character after it. *)
Inductive quoted : str -> str -> Prop :=
| QuotedEnd : quoted [] []
| QuotedPlain c b v : c <> 34 -> c <> 92 -> quoted b v -> quoted (c :: b) (c :: v)
| QuotedEscape c b v : quoted b v -> quoted (92 :: c :: b) (c :: v).
(** The text after the subtype and the names and values in it.  Something without "=" or without a value is passed over; so is
    whatever stands between a closing quote and the next ";"; a quoted string may lack its closing quote at the end. *)
Inductive tail : str -> list (str * str) -> Prop :=
| TailEnd : tail [] []
| TailBare name rest items : ~ In 59 name -> ~ In 61 name -> tail rest items -> tail (lit ";" ++ name ++ rest) items
| TailEmpty name w rest items : ~ In 59 name -> ~ In 61 name -> Forall blank w -> tail rest items ->
    tail (lit ";" ++ name ++ lit "=" ++ w ++ rest) items
| TailValue w name v w' rest items : Forall blank w -> ~ In 59 name -> ~ In 61 name -> ~ starts_blank name ->
    ~ In 59 v -> v <> [] -> (forall r, v <> 34 :: r) -> ~ ends_blank v -> Forall blank w' -> tail rest items ->
    tail (lit ";" ++ w ++ name ++ lit "=" ++ v ++ w' ++ rest) ((to_lower name, v) :: items)
| TailQuoted w name b v junk rest items : Forall blank w -> ~ In 59 name -> ~ In 61 name -> ~ starts_blank name ->
    quoted b v -> ~ In 59 junk -> tail rest items ->
    tail (lit ";" ++ w ++ name ++ lit "=""" ++ b ++ lit """" ++ junk ++ rest) ((to_lower name, v) :: items)
| TailOpen w name b v : Forall blank w -> ~ In 59 name -> ~ In 61 name -> ~ starts_blank name ->
    quoted b v -> tail (lit ";" ++ w ++ name ++ lit "=""" ++ b) [(to_lower name, v)]
| TailOpenEscape w name b v : Forall blank w -> ~ In 59 name -> ~ In 61 name -> ~ starts_blank name ->
    quoted b v -> tail (lit ";" ++ w ++ name ++ lit "=""" ++ b ++ lit "\") [(to_lower name, v ++ lit "\")].
(** The parameters that count: a token as name, quotable characters in the value; UTF-8 as charset is kept apart. *)
Definition counts (p : str * str) : Prop :=
  token (fst p) /\ Forall quotable (snd p) /\ p <> (lit "charset", lit "utf-8").
(** [firsts items ps]: [ps] has, in order, the first counting item of each name. *)
Inductive firsts : list (str * str) -> list (str * str) -> Prop :=
| FirstsEnd : firsts [] []
| FirstsSkip p items ps : ~ counts p -> firsts items ps -> firsts (p :: items) ps
| FirstsKeep p items ps : counts p -> firsts items ps -> firsts (p :: items) (p :: filter (fun x => negb (seqb (fst x) (fst p))) ps).

(** [media_text s base sub items]: the text has these two names and these names and values; blanks around it (and before the
    first ";") do not count. *)
Definition media_text (s base sub : str) (items : list (str * str)) : Prop := exists pre w t post,
  s = pre ++ base ++ lit "/" ++ sub ++ w ++ t ++ post /\ Forall blank pre /\ Forall blank w /\ Forall blank post /\
  token base /\ token sub /\ tail t items /\ ~ ends_blank (w ++ t).

(** ** Reading *)
Lemma blank_ws : forall c, blank c <-> is_http_ws c = true.
Proof. intros c. unfold blank, is_http_ws. lia. Qed.
Lemma blanks_ws : forall s, Forall blank s <-> forallb is_http_ws s = true.
Proof. intros s. rewrite Forall_forall, forallb_forall. split; intros H c I; apply blank_ws; auto. Qed.
Lemma starts_blank_head : forall s, ~ starts_blank s <-> (match s with [] => true | c :: _ => negb (is_http_ws c) end) = true.
Proof.
  intros [|c s]; (split; [intros H|intros H (d & r & E & B)]).
  - reflexivity.
  - discriminate.
  - destruct (is_http_ws c) eqn:E; [|reflexivity]. elim H. exists c, s. split; [reflexivity|now apply blank_ws].
  - inv E. apply blank_ws in B. rewrite B in H. discriminate.
Qed.
Lemma ends_blank_last : forall s, ~ ends_blank s <-> (match rev s with [] => true | c :: _ => negb (is_http_ws c) end) = true.
Proof.
  intros s. rewrite <- starts_blank_head. unfold ends_blank, starts_blank. split; intros H X; apply H.
  - destruct X as (c & r & E & B). exists (rev r), c. split; [|exact B]. rewrite <- (rev_involutive s), E. reflexivity.
  - destruct X as (r & c & -> & B). exists c, (rev r). split; [|exact B]. now rewrite rev_app_distr.
Qed.
Lemma name_stops : forall name, ~ In 59 name /\ ~ In 61 name <-> forallb (fun c => negb ((c =? 59) || (c =? 61))) name = true.
Proof.
  intros name. rewrite forallb_forall. split.
  - intros [A B] c I. assert (c <> 59) by (intros ->; auto). assert (c <> 61) by (intros ->; auto). lia.
  - intros H. split; intros I; specialize (H _ I); discriminate.
Qed.
Lemma value_stops : forall v, ~ In 59 v <-> forallb (fun c => negb (59 =? c)) v = true.
Proof.
  intros v. rewrite forallb_forall. split.
  - intros A c I. assert (c <> 59) by (intros ->; auto). lia.
  - intros H I. specialize (H _ I). discriminate.
Qed.
Lemma tail_stops : forall t items, tail t items -> stops (N.eqb 59) t = true.
Proof. intros t items []; reflexivity. Qed.
Lemma quoted_read : forall b v, quoted b v -> forall acc,
  (forall r, quoted_loop (b ++ 34 :: r) acc = (acc ++ v, r)) /\ quoted_loop b acc = (acc ++ v, []) /\
  quoted_loop (b ++ [92]) acc = (acc ++ v ++ [92], []).
Proof.
  induction 1 as [|c b v N1 N2 _ IH|c b v _ IH]; intros acc.
  - cbn [app quoted_loop]. change (34 =? 34) with true. change (92 =? 34) with false. change (92 =? 92) with true. cbv iota. rewrite app_nil_r. auto.
  - destruct (IH (acc ++ [c])) as (H1 & H2 & H3). cbn [app quoted_loop]. apply N.eqb_neq in N1, N2. rewrite N1, N2.
    change (acc ++ c :: v) with (acc ++ [c] ++ v). change (acc ++ c :: v ++ [92]) with (acc ++ [c] ++ v ++ [92]). rewrite !(app_assoc acc [c]). auto.
  - destruct (IH (acc ++ [c])) as (H1 & H2 & H3). cbn [app quoted_loop]. change (92 =? 34) with false. change (92 =? 92) with true. cbv iota.
    change (acc ++ c :: v) with (acc ++ [c] ++ v). change (acc ++ c :: v ++ [92]) with (acc ++ [c] ++ v ++ [92]). rewrite !(app_assoc acc [c]). auto.
Qed.
Lemma quoted_cover : forall n s, (length s <= n)%nat -> exists b v, quoted b v /\ ((exists r, s = b ++ 34 :: r) \/ s = b \/ s = b ++ [92]).
Proof.
  induction n as [|n IH]; intros s L.
  - destruct s; [|cbn in L; lia]. exists [], []. split; [constructor|auto].
  - destruct s as [|c s]; [exists [], []; split; [constructor|auto]|]. cbn [length] in L.
    destruct (N.eqb_spec c 34) as [->|N1]; [exists [], []; split; [constructor|left; now exists s]|].
    destruct (N.eqb_spec c 92) as [->|N2].
    + destruct s as [|d s]; [exists [], []; split; [constructor|auto]|]. cbn [length] in L. destruct (IH s) as (b & v & Q & H); [lia|].
      exists (92 :: d :: b), (d :: v). split; [now constructor|]. destruct H as [(r & ->)|[-> | ->]]; [left; now exists r|auto|auto].
    + destruct (IH s) as (b & v & Q & H); [lia|]. exists (c :: b), (c :: v). split; [now constructor|].
      destruct H as [(r & ->)|[-> | ->]]; [left; now exists r|auto|auto].
Qed.

Definition push (st : bool * list (str * str)) (p : str * str) := push_param (fst p) (snd p) st.
Lemma head_read : forall name r, ~ In 59 name -> ~ In 61 name -> stops (fun c => (c =? 59) || (c =? 61)) r = true ->
  exists name', collect_until (fun c => (c =? 59) || (c =? 61)) (trim_start_matches is_http_ws (name ++ r)) = (name', r) /\
    forall w n, name = w ++ n -> Forall blank w -> ~ starts_blank n -> name' = n.
Proof.
  intros name r N1 N2 R. destruct (drop_while_suffix is_http_ws name) as (w & E & W). exists (drop_while is_http_ws name).
  assert (H : forall n, ~ starts_blank n -> drop_while is_http_ws (n ++ r) = n ++ r).
  { intros n NB. apply drop_while_none. apply starts_blank_head in NB. destruct n as [|d n]; [|exact NB]. destruct r as [|c r]; [reflexivity|].
    cbn [stops app] in *. unfold is_http_ws. lia. }
  assert (NB : ~ starts_blank (drop_while is_http_ws name)).
  { apply starts_blank_head. destruct (drop_while is_http_ws name) as [|c n] eqn:D; [reflexivity|]. apply drop_while_head in D. now rewrite D. }
  split.
  - unfold trim_start_matches. rewrite E at 1. rewrite <- app_assoc, drop_while_app_all, H by assumption.
    apply collect_until_app; [|exact R]. apply name_stops. split; intros I; [apply N1|apply N2]; rewrite E; apply in_or_app; auto.
  - intros w' n -> W' NB'. apply blanks_ws in W'. rewrite drop_while_app_all by exact W'. apply drop_while_none. now apply starts_blank_head.
Qed.
Lemma name_read : forall w name r, Forall blank w -> ~ In 59 name -> ~ In 61 name -> ~ starts_blank name ->
  collect_until (fun c => (c =? 59) || (c =? 61)) (trim_start_matches is_http_ws (w ++ name ++ 61 :: r)) = (name, 61 :: r).
Proof.
  intros w name r W N1 N2 NB. rewrite app_assoc.
  assert (W' : forall c, In c w -> blank c) by now apply Forall_forall.
  destruct (head_read (w ++ name) (61 :: r)) as (n & E & H); [| |reflexivity|].
  - intros I. apply in_app_or in I as [I|I]; [|auto]. specialize (W' _ I). unfold blank in W'. lia.
  - intros I. apply in_app_or in I as [I|I]; [|auto]. specialize (W' _ I). unfold blank in W'. lia.
  - rewrite E. f_equal. apply (H w name); auto.
Qed.
Lemma starts_with_quote : forall v, (forall r, v <> 34 :: r) -> starts_with [34] v = false.
Proof.
  intros [|c v] H; [reflexivity|]. unfold starts_with. cbn [strip_prefix]. destruct (N.eqb_spec 34 c) as [<-|]; [elim (H v); reflexivity|reflexivity].
Qed.
Lemma tail_read : forall t items, tail t items -> forall fuel st, (length t < fuel)%nat ->
  parse_params fuel t st = Ok (fold_left push items st).
Proof.
  induction 1 as [|name rest items N1 N2 T IH|name w rest items N1 N2 W T IH|w name v w' rest items W N1 N2 NB V1 V2 V3 V4 W' T IH
    |w name b v junk rest items W N1 N2 NB Q J T IH|w name b v W N1 N2 NB Q|w name b v W N1 N2 NB Q];
    intros fuel st L; (destruct fuel as [|f]; [lia|]); cbn [parse_params].
  - reflexivity.
  - change (lit ";" ++ name ++ rest) with (59 :: name ++ rest) in *. rewrite slice1_semi. cbn [bind length] in *. rewrite app_length in L.
    assert (S := tail_stops _ _ T). destruct (head_read name rest N1 N2) as (n & -> & _).
    { destruct rest as [|c rest]; [reflexivity|]. cbn [stops] in *. lia. }
    destruct rest as [|c rest]; [now inversion T|]. cbn [stops] in S. apply N.eqb_eq in S. subst c. change (59 =? 59) with true. cbv iota.
    apply IH. lia.
  - change (lit ";" ++ name ++ lit "=" ++ w ++ rest) with (59 :: name ++ 61 :: w ++ rest) in *. rewrite slice1_semi. cbn [bind length] in *.
    rewrite app_length in L. cbn [length] in L. rewrite app_length in L. assert (S := tail_stops _ _ T).
    destruct (head_read name (61 :: w ++ rest) N1 N2 eq_refl) as (n & -> & _). change (61 =? 59) with false. cbn [slice1].
    change (61 <? 128) with true. cbv iota. cbn [bind].
    assert (W59 : ~ In 59 w) by (intros I; rewrite Forall_forall in W; specialize (W _ I); unfold blank in W; lia).
    rewrite starts_with_quote.
    + rewrite collect_until_app by (try apply value_stops; assumption). apply blanks_ws in W.
      assert (E : trim_end_matches is_http_ws w = []) by (apply (trim_end_app_all is_http_ws [] w W)). rewrite E. apply IH. lia.
    + intros r E. destruct w as [|c w]; cbn [app] in E.
      * subst rest. discriminate S.
      * inv E. inv W. unfold blank in *. lia.
  - change (lit ";" ++ w ++ name ++ lit "=" ++ v ++ w' ++ rest) with (59 :: w ++ name ++ 61 :: v ++ w' ++ rest) in *. rewrite slice1_semi. cbn [bind length] in *.
    rewrite name_read by assumption. change (61 =? 59) with false. cbn [slice1]. change (61 <? 128) with true. cbv iota. cbn [bind].
    rewrite starts_with_quote by (intros r E; destruct v as [|c v]; [auto|]; inv E; now apply (V3 v)).
    assert (W59 : ~ In 59 w') by (intros I; rewrite Forall_forall in W'; specialize (W' _ I); unfold blank in W'; lia).
    rewrite app_assoc. rewrite collect_until_app; [|apply value_stops; intros I; apply in_app_or in I as [I|I]; auto|now apply (tail_stops _ items)].
    apply blanks_ws in W'. rewrite trim_end_app_all by exact W'. rewrite trim_end_matches_id by now apply ends_blank_last.
    destruct v as [|c v]; [now elim V2|]. cbn [fold_left]. apply IH.
    rewrite !app_length in L. cbn [length] in L. rewrite !app_length in L. lia.
  - change (lit ";" ++ w ++ name ++ lit "=""" ++ b ++ lit """" ++ junk ++ rest) with (59 :: w ++ name ++ 61 :: 34 :: b ++ 34 :: junk ++ rest) in *. rewrite slice1_semi. cbn [bind length] in *.
    rewrite name_read by assumption. change (61 =? 59) with false. cbn [slice1]. change (61 <? 128) with true. cbv iota. cbn [bind].
    change (starts_with [34] (34 :: b ++ 34 :: junk ++ rest)) with true. cbv iota. unfold collect_quoted, slice1. change (34 <? 128) with true. cbv iota. cbn [bind].
    rewrite (proj1 (quoted_read b v Q [])). cbn [bind app]. rewrite collect_until_app; [|now apply value_stops|now apply (tail_stops _ items)].
    cbn [fold_left]. apply IH. rewrite !app_length in L. cbn [length] in L. rewrite !app_length in L. cbn [length] in L. rewrite !app_length in L. lia.
  - change (lit ";" ++ w ++ name ++ lit "=""" ++ b) with (59 :: w ++ name ++ 61 :: 34 :: b) in *. rewrite slice1_semi. cbn [bind length] in *.
    rewrite name_read by assumption. change (61 =? 59) with false. cbn [slice1]. change (61 <? 128) with true. cbv iota. cbn [bind].
    change (starts_with [34] (34 :: b)) with true. cbv iota. unfold collect_quoted, slice1. change (34 <? 128) with true. cbv iota. cbn [bind].
    rewrite (proj1 (proj2 (quoted_read b v Q []))). cbn [bind app]. cbn [collect_until take_while drop_while]. destruct f; [cbn [length] in L; rewrite app_length in L; lia|reflexivity].
  - change (lit ";" ++ w ++ name ++ lit "=""" ++ b ++ lit "\") with (59 :: w ++ name ++ 61 :: 34 :: b ++ [92]) in *. rewrite slice1_semi. cbn [bind length] in *.
    rewrite name_read by assumption. change (61 =? 59) with false. cbn [slice1]. change (61 <? 128) with true. cbv iota. cbn [bind].
    change (starts_with [34] (34 :: b ++ [92])) with true. cbv iota. unfold collect_quoted, slice1. change (34 <? 128) with true. cbv iota. cbn [bind].
    rewrite (proj2 (proj2 (quoted_read b v Q []))). cbn [bind app]. cbn [collect_until take_while drop_while]. destruct f; [cbn [length] in L; rewrite app_length in L; lia|reflexivity].
Qed.
(** Every text that starts with ";" is a tail: nothing is refused there. *)
Lemma tail_cover : forall n t, (length t < n)%nat -> stops (N.eqb 59) t = true -> exists items, tail t items.
Proof.
  induction n as [|n IH]; intros t L S; [lia|]. destruct t as [|c t]; [exists []; constructor|]. cbn [stops length] in *. apply N.eqb_eq in S. subst c.
  destruct (drop_while_suffix is_http_ws t) as (w & E & W). set (t1 := drop_while is_http_ws t) in *.
  assert (NB : ~ starts_blank t1). { apply starts_blank_head. destruct t1 as [|c t1'] eqn:D; [reflexivity|]. apply drop_while_head in D. now rewrite D. }
  clearbody t1. subst t. apply blanks_ws in W.
  assert (W59 : forall w, Forall blank w -> ~ In 59 w /\ ~ In 61 w).
  { clear. intros w W. rewrite Forall_forall in W. split; intros I; specialize (W _ I); unfold blank in W; lia. }
  destruct (collect_until (fun c => (c =? 59) || (c =? 61)) t1) as [name r] eqn:C. apply collect_until_rest in C as (R & -> & F). apply name_stops in F as [N1 N2].
  assert (NN : ~ starts_blank name). { intros (c & x & -> & B). apply NB. exists c, (x ++ r). auto. }
  destruct (W59 _ W) as [W1 W2]. rewrite !app_length in L.
  assert (WN : ~ In 59 (w ++ name) /\ ~ In 61 (w ++ name)). { split; intros I; apply in_app_or in I as [I|I]; auto. }
  destruct r as [|c r].
  { exists []. rewrite app_nil_r. rewrite <- (app_nil_r (w ++ name)). change (tail (lit ";" ++ (w ++ name) ++ []) []). apply TailBare; try apply WN. constructor. }
  cbn [stops length] in *. destruct (N.eqb_spec c 59) as [->|C59].
  { destruct (IH (59 :: r)) as (items & T); [cbn [length]; lia|reflexivity|]. exists items. rewrite app_assoc. change (tail (lit ";" ++ (w ++ name) ++ 59 :: r) items).
    apply TailBare; try apply WN. exact T. }
  assert (c = 61) by lia. subst c. clear R C59.
  destruct (starts_with [34] r) eqn:SW.
  - destruct r as [|q r]; [discriminate SW|]. unfold starts_with in SW. cbn [strip_prefix] in SW. destruct (N.eqb_spec 34 q) as [<-|]; [|discriminate]. cbn [length] in L. clear SW.
    destruct (quoted_cover (length r) r (le_n _)) as (b & v & Q & [(r' & ->)|[-> | ->]]).
    + destruct (collect_until (N.eqb 59) r') as [junk rest] eqn:C. apply collect_until_rest in C as (R & -> & J). apply value_stops in J.
      destruct (IH rest) as (items & T); [|exact R|].
      { rewrite !app_length in L. cbn [length] in L. rewrite app_length in L. lia. }
      exists ((to_lower name, v) :: items). exact (TailQuoted w name b v junk rest items W N1 N2 NN Q J T).
    + exists [(to_lower name, v)]. exact (TailOpen w name b v W N1 N2 NN Q).
    + exists [(to_lower name, v ++ lit "\")]. exact (TailOpenEscape w name b v W N1 N2 NN Q).
  - destruct (collect_until (N.eqb 59) r) as [vw rest] eqn:C. apply collect_until_rest in C as (R & -> & V). apply value_stops in V.
    rewrite app_length in L. destruct (IH rest) as (items & T); [lia|exact R|].
    destruct (trim_end_prefix is_http_ws vw) as (w' & E & W'). apply blanks_ws in W'.
    destruct (trim_end_matches is_http_ws vw) as [|d v] eqn:TE.
    + cbn [app] in E. subst vw. exists items. rewrite app_assoc. change (tail (lit ";" ++ (w ++ name) ++ lit "=" ++ w' ++ rest) items).
      apply TailEmpty; try apply WN; assumption.
    + exists ((to_lower name, d :: v) :: items). rewrite E, <- app_assoc.
      apply (TailValue w name (d :: v) w' rest items); auto.
      * intros I. apply V. rewrite E. apply in_or_app. auto.
      * discriminate.
      * intros x X. injection X as -> ->. rewrite E in SW. discriminate SW.
      * intros X. apply ends_blank_last in X; [exact X|]. clear X. rewrite <- TE. unfold trim_end_matches. rewrite rev_involutive.
        destruct (drop_while is_http_ws (rev vw)) as [|z zs] eqn:D; [reflexivity|]. apply drop_while_head in D. now rewrite D.
Qed.

(** ** What the names and values mean *)
Definition utf8_item (p : str * str) : bool := seqb (fst p) (lit "charset") && seqb (snd p) (lit "utf-8").
Definition countsb (p : str * str) : bool := negb (utf8_item p) && nonempty (fst p) && forallb is_token_cp (fst p) && forallb is_qs_cp (snd p).
Lemma utf8_item_iff : forall p, utf8_item p = true <-> p = (lit "charset", lit "utf-8").
Proof. intros [n v]. unfold utf8_item. cbn [fst snd]. rewrite andb_true_iff, !seqb_eq. split; [intros [-> ->]; reflexivity|intros E; inv E; auto]. Qed.
Lemma quotable_iff : forall v, Forall quotable v <-> forallb is_qs_cp v = true.
Proof. intros v. rewrite Forall_forall, forallb_forall. split; intros H c I; specialize (H c I); unfold quotable, is_qs_cp in *; lia. Qed.
Lemma countsb_iff : forall p, countsb p = true <-> counts p.
Proof.
  intros p. unfold countsb, counts. rewrite !andb_true_iff, negb_true_iff. rewrite <- quotable_iff. split.
  - intros (((A & B) & C) & D). split; [now apply tokens_token|]. split; [exact D|]. intros E. apply utf8_item_iff in E. congruence.
  - intros (T & Q & N). apply token_tokens in T as [T1 T2]. repeat split; auto. destruct (utf8_item p) eqn:E; [|reflexivity]. apply utf8_item_iff in E. contradiction.
Qed.
Lemma push_cases : forall u acc p, push (u, acc) p =
  (u || utf8_item p, if countsb p && negb (existsb (fun x => seqb (fst x) (fst p)) acc) then acc ++ [p] else acc).
Proof.
  intros u acc [n v]. unfold push, push_param, countsb, utf8_item. cbn [fst snd].
  destruct (seqb n (lit "charset") && seqb v (lit "utf-8")); cbn [negb andb]; [now rewrite orb_true_r|]. rewrite orb_false_r.
  replace (negb match n with [] => true | _ :: _ => false end) with (nonempty n) by (destruct n; reflexivity).
  destruct (nonempty n && forallb is_token_cp n && forallb is_qs_cp v); cbn [andb]; [|reflexivity]. destruct (existsb _ acc); reflexivity.
Qed.
Definition drop_names (acc ps : list (str * str)) := filter (fun p => negb (existsb (fun x => seqb (fst x) (fst p)) acc)) ps.
Lemma fold_push : forall items ps, firsts items ps -> forall u acc,
  fold_left push items (u, acc) = (u || existsb utf8_item items, acc ++ drop_names acc ps).
Proof.
  induction 1 as [|p items ps NC F IH|p items ps C F IH]; intros u acc; cbn [fold_left existsb].
  - rewrite orb_false_r. cbn [drop_names filter]. now rewrite app_nil_r.
  - rewrite push_cases. assert (countsb p = false) as -> by (destruct (countsb p) eqn:E; [apply countsb_iff in E; contradiction|reflexivity]). cbn [andb].
    rewrite IH. now rewrite orb_assoc.
  - rewrite push_cases. apply countsb_iff in C. rewrite C. cbn [andb]. unfold drop_names. cbn [filter].
    assert (S : forall a b : str, seqb a b = seqb b a).
    { intros a b. destruct (seqb_spec a b) as [->|N]; [now rewrite seqb_refl|]. symmetry. apply seqb_neq. auto. }
    destruct (existsb (fun x => seqb (fst x) (fst p)) acc) eqn:EX; cbn [negb]; rewrite IH, orb_assoc; f_equal.
    + f_equal. unfold drop_names. clear - EX S. induction ps as [|x ps IH]; [reflexivity|]. cbn [filter].
      destruct (seqb_spec (fst x) (fst p)) as [E|N]; cbn [negb].
      * rewrite E, EX. cbn [negb]. exact IH.
      * cbn [filter]. destruct (negb _); [f_equal|]; exact IH.
    + rewrite <- app_assoc. cbn [app]. do 2 f_equal. unfold drop_names. clear - S. induction ps as [|x ps IH]; [reflexivity|]. cbn [filter].
      rewrite existsb_app. cbn [existsb]. rewrite orb_false_r, (S (fst p) (fst x)).
      destruct (seqb (fst x) (fst p)); cbn [negb]; [rewrite orb_true_r; cbn [negb]; exact IH|]. rewrite orb_false_r. cbn [filter].
      destruct (negb _); [f_equal|]; exact IH.
Qed.
Lemma firsts_exist : forall items, exists ps, firsts items ps.
Proof.
  induction items as [|p items (ps & IH)]; [exists []; constructor|].
  destruct (countsb p) eqn:C.
  - eexists. apply FirstsKeep; [now apply countsb_iff|exact IH].
  - exists ps. apply FirstsSkip; [|exact IH]. intros X. apply countsb_iff in X. congruence.
Qed.
Lemma meaning : forall items ps, firsts items ps -> fold_left push items (false, []) = (existsb utf8_item items, ps).
Proof.
  intros items ps F. rewrite (fold_push items ps F). cbn [orb app]. f_equal. unfold drop_names. cbn [existsb negb].
  clear. induction ps as [|p ps IH]; [reflexivity|]. cbn [filter]. now f_equal.
Qed.

(** The texts that are media types, and what each of them is: both names are in lower case, UTF-8 is remembered when it appears
    anywhere as charset, the parameters are the first counting ones of each name. *)
Theorem C20_grammar : forall s m, mime_parse s = Ok m <->
  exists base sub items, media_text s base sub items /\
    basetype m = to_lower base /\ subtype m = to_lower sub /\ essence m = to_lower base ++ lit "/" ++ to_lower sub /\
    (is_utf8 m = true <-> In (lit "charset", lit "utf-8") items) /\ firsts items (params m).
Proof.
  assert (U : forall items, existsb utf8_item items = true <-> In (lit "charset", lit "utf-8") items).
  { intros items. rewrite existsb_exists. split; [intros (p & I & E); apply utf8_item_iff in E; now subst p|intros I; eexists; split; [exact I|reflexivity]]. }
  intros s m. split.
  - intros H. unfold mime_parse in H. destruct (trim_matches_decomp is_http_ws s) as (pre & post & ES & Pre & Post).
    assert (NE := trim_matches_no_edge is_http_ws s). set (body := trim_matches is_http_ws s) in *. clearbody body.
    destruct (collect_until (N.eqb 47) body) as [base input] eqn:C. apply collect_until_rest in C as (R & EB & _).
    change (match base with [] => false | _ => true end) with (nonempty base) in H.
    destruct (nonempty base) eqn:NB; cbn [negb] in H; [|discriminate]. destruct (forallb is_token_cp base) eqn:TB; cbn [negb] in H; [|discriminate].
    destruct input as [|c input]; [discriminate|]. cbn [stops] in R. apply N.eqb_eq in R. subst c.
    unfold slice1 in H. change (47 <? 128) with true in H. cbv iota in H. cbn [bind] in H.
    destruct (collect_until (N.eqb 59) input) as [sw t] eqn:C. apply collect_until_rest in C as (R & EI & _).
    destruct (trim_end_prefix is_http_ws sw) as (w & ESW & W). set (sub := trim_end_matches is_http_ws sw) in *. clearbody sub.
    change (match sub with [] => false | _ => true end) with (nonempty sub) in H.
    destruct (nonempty sub) eqn:NS; cbn [negb] in H; [|discriminate]. destruct (forallb is_token_cp sub) eqn:TS; cbn [negb] in H; [|discriminate].
    destruct (tail_cover (S (length t)) t (Nat.lt_succ_diag_r _) R) as (items & T). rewrite (tail_read t items T) in H by lia. cbn [bind] in H.
    destruct (firsts_exist items) as (ps & F). rewrite (meaning items ps F) in H. inv H.
    exists base, sub, items. cbn [basetype subtype essence is_utf8 params fst snd].
    assert (E : (base ++ 47 :: (sub ++ w) ++ t) ++ post = base ++ lit "/" ++ sub ++ w ++ t ++ post) by (change (lit "/") with [47]; rewrite <- !app_assoc; cbn [app]; rewrite <- !app_assoc; reflexivity).
    split; [|split; [reflexivity|split; [reflexivity|split; [reflexivity|split; [apply U|exact F]]]]]. exists pre, w, t, post.
    split; [now rewrite <- E|]. split; [now apply blanks_ws|]. split; [now apply blanks_ws|]. split; [now apply blanks_ws|].
    split; [now apply tokens_token|]. split; [now apply tokens_token|]. split; [exact T|].
    intros (r & c & ER & B). apply andb_true_iff in NE as [_ NE]. apply blank_ws in B.
    assert (EE : base ++ 47 :: (sub ++ w) ++ t = (base ++ 47 :: sub ++ r) ++ [c]) by (rewrite <- !app_assoc; cbn [app]; rewrite <- !app_assoc, ER; reflexivity).
    rewrite EE, rev_app_distr in NE. cbn [rev app] in NE. rewrite B in NE. discriminate NE.
  - intros (base & sub & items & (pre & w & t & post & -> & Pre & W & Post & TB & TS & T & NE) & E1 & E2 & E3 & E4 & E5).
    apply token_tokens in TB as [NB TB], TS as [NS TS]. apply blanks_ws in Pre, Post.
    assert (NEB : no_edge is_http_ws (base ++ lit "/" ++ sub ++ w ++ t) = true).
    { unfold no_edge. apply andb_true_iff. split.
      - destruct base as [|c base]; [discriminate NB|]. cbn [app forallb] in *. apply andb_true_iff in TB as [TB _]. apply token_cases in TB. destruct TB as (_ & _ & _ & _ & _ & _ & TB & _). now rewrite TB.
      - apply ends_blank_last in NE. rewrite app_assoc, app_assoc. rewrite rev_app_distr.
        destruct (rev (w ++ t)) as [|c r] eqn:R; [|exact NE]. rewrite rev_app_distr. cbn [app].
        destruct (rev sub) as [|c r'] eqn:RS; [apply (f_equal (@rev N)) in RS; rewrite rev_involutive in RS; subst sub; discriminate NS|]. cbn [app].
        assert (I : In c sub) by (apply in_rev; rewrite RS; left; reflexivity). rewrite forallb_forall in TS. apply TS in I. apply token_cases in I.
        destruct I as (_ & _ & _ & _ & _ & _ & I & _). now rewrite I. }
    replace (pre ++ base ++ lit "/" ++ sub ++ w ++ t ++ post) with (pre ++ (base ++ lit "/" ++ sub ++ w ++ t) ++ post) by (rewrite <- !app_assoc; reflexivity).
    unfold mime_parse. rewrite trim_matches_pad by assumption. rewrite trim_matches_id by exact NEB.
    change (lit "/" ++ sub ++ w ++ t) with (47 :: sub ++ w ++ t). rewrite collect_until_app; [|apply (tokens_impl _ base); [|exact TB]; intros c X; apply token_cases in X; lia|reflexivity].
    change (match base with [] => false | _ => true end) with (nonempty base). rewrite NB, TB. cbn [negb]. unfold slice1. change (47 <? 128) with true. cbv iota. cbn [bind].
    rewrite app_assoc. rewrite collect_until_app; [| |now apply (tail_stops _ items)].
    + apply blanks_ws in W. rewrite trim_end_app_all by exact W. rewrite tokens_trim_end by exact TS.
      change (match sub with [] => false | _ => true end) with (nonempty sub). rewrite NS, TS. cbn [negb].
      rewrite (tail_read t items T) by lia. cbn [bind]. rewrite (meaning items (params m) E5). cbn [fst snd].
      rewrite <- U in E4. destruct m as [es b sb u ps]. cbn [basetype subtype essence is_utf8 params] in *. subst.
      assert (u = existsb utf8_item items) as -> by (destruct u, (existsb utf8_item items); destruct E4 as [X Y]; auto; (symmetry; exact (X eq_refl)) || exact (Y eq_refl)). reflexivity.
    + rewrite forallb_app. apply andb_true_iff. split; [apply (tokens_impl _ sub); [|exact TS]; intros c X; apply token_cases in X; lia|].
      apply value_stops. intros I. rewrite Forall_forall in W. specialize (W _ I). unfold blank in W. lia.
Qed.
Print Assumptions C20_grammar.

(** Junk that is accepted, and what it means. *)
Example C20_grammar_example :
  exists m, mime_parse (lit " Text/HTML ; Charset=utf-8;;x;=1;b=2 ;B=3; c=""q\""x\y""junk;charset=gbk;d=""open\") = Ok m /\
    basetype m = lit "text" /\ is_utf8 m = true /\
    params m = [(lit "b", lit "2"); (lit "c", lit "q""xy"); (lit "charset", lit "gbk"); (lit "d", lit "open\")].
Proof. eexists. vm_compute. repeat split. Qed.

(** Every such text is accepted. *)
Corollary C20_grammar_accepted : forall s base sub items, media_text s base sub items -> exists m, mime_parse s = Ok m /\
  basetype m = to_lower base /\ subtype m = to_lower sub /\ (is_utf8 m = true <-> In (lit "charset", lit "utf-8") items) /\ firsts items (params m).
Proof.
  intros s base sub items T. destruct (firsts_exist items) as (ps & F).
  exists (mkMime (to_lower base ++ lit "/" ++ to_lower sub) (to_lower base) (to_lower sub) (existsb utf8_item items) ps).
  assert (U : existsb utf8_item items = true <-> In (lit "charset", lit "utf-8") items).
  { rewrite existsb_exists. split; [intros (p & I & E); apply utf8_item_iff in E; now subst p|intros I; eexists; split; [exact I|reflexivity]]. }
  split; [|auto]. apply C20_grammar. exists base, sub, items. auto 10.
Qed.
Print Assumptions C20_grammar_accepted.

(** ** Looking a parameter up, whatever the text *)
Lemma firsts_find : forall items ps, firsts items ps -> forall n v,
  find_param ps n = Some v <-> exists pre post, items = pre ++ (n, v) :: post /\ counts (n, v) /\ forall v', In (n, v') pre -> ~ counts (n, v').
Proof.
  assert (FF : forall ps (m n : str), n <> m -> find_param (filter (fun x => negb (seqb (fst x) m)) ps) n = find_param ps n).
  { intros ps m n N. induction ps as [|[k w] ps IH]; [reflexivity|]. cbn [filter fst]. destruct (seqb_spec k m) as [->|K]; cbn [negb find_param].
    - apply not_eq_sym in N. apply seqb_neq in N. rewrite N. exact IH.
    - destruct (seqb k n); auto. }
  induction 1 as [|[k w] items ps NC F IH|[k w] items ps C F IH]; intros n v.
  - cbn [find_param]. split; [discriminate|]. intros (pre & post & E & _). destruct pre; discriminate.
  - rewrite IH. split.
    + intros (pre & post & -> & C & B). exists ((k, w) :: pre), post. split; [reflexivity|]. split; [exact C|].
      intros v' [E|I]; [inv E; exact NC|auto].
    + intros (pre & post & E & C & B). destruct pre as [|p pre]; cbn [app] in E; inv E; [contradiction|]. exists pre, post. split; [reflexivity|]. split; [exact C|].
      intros v' I. apply B. now right.
  - cbn [find_param fst]. destruct (seqb_spec k n) as [->|K].
    + split.
      * intros E. inv E. exists [], items. split; [reflexivity|]. split; [exact C|]. intros v' [].
      * intros (pre & post & E & C' & B). destruct pre as [|p pre]; cbn [app] in E; inv E; [reflexivity|]. elim (B w); [now left|exact C].
    + rewrite FF by auto. rewrite IH. split.
      * intros (pre & post & -> & C' & B). exists ((k, w) :: pre), post. split; [reflexivity|]. split; [exact C'|].
        intros v' [E|I]; [inv E; now elim K|auto].
      * intros (pre & post & E & C' & B). destruct pre as [|p pre]; cbn [app] in E; inv E; [now elim K|]. exists pre, post. split; [reflexivity|]. split; [exact C'|].
        intros v' I. apply B. now right.
Qed.
(** Of all the names and values in the text, a lookup finds UTF-8 as charset wherever it stands, otherwise the first counting
    value of the name. *)
Theorem C21_lookup : forall s base sub items n, media_text s base sub items -> is_ascii n = true ->
  exists m r, mime_parse s = Ok m /\ param m n = Ok r /\
    (to_lower n = lit "charset" -> In (lit "charset", lit "utf-8") items -> r = Some (lit "utf-8")) /\
    (to_lower n <> lit "charset" \/ ~ In (lit "charset", lit "utf-8") items -> forall v,
      r = Some v <-> exists pre post, items = pre ++ (to_lower n, v) :: post /\ counts (to_lower n, v) /\
        forall v', In (to_lower n, v') pre -> ~ counts (to_lower n, v')).
Proof.
  intros s base sub items n T A. destruct (C20_grammar_accepted s base sub items T) as (m & P & _ & _ & U & F).
  exists m, (get_param m (to_lower n)). split; [exact P|]. split; [unfold param, param_name; now rewrite A|]. unfold get_param. split.
  - intros -> I. apply U in I. rewrite I. reflexivity.
  - intros H v. replace (seqb (to_lower n) (lit "charset") && is_utf8 m) with false; [now apply firsts_find|]. symmetry. apply andb_false_iff.
    destruct H as [H|H]; [left; now apply seqb_neq|right]. destruct (is_utf8 m); [|reflexivity]. elim H. now apply U.
Qed.
Print Assumptions C21_lookup.
(** The first value has a control character and does not count. *)
Example C21_lookup_example : media_text (lit "a/b;x=" ++ [127] ++ lit ";X=2 ;x=3") (lit "a") (lit "b") [(lit "x", [127]); (lit "x", lit "2"); (lit "x", lit "3")] /\
  (let* m := mime_parse (lit "a/b;x=" ++ [127] ++ lit ";X=2 ;x=3") in param m (lit "x")) = Ok (Some (lit "2")).
Proof.
  split; [|vm_compute; reflexivity]. exists [], [], (lit ";x=" ++ [127] ++ lit ";X=2 ;x=3"), [].
  split; [reflexivity|]. split; [constructor|]. split; [constructor|]. split; [constructor|].
  split; [apply tokens_token; reflexivity|]. split; [apply tokens_token; reflexivity|].
  split; [|apply ends_blank_last; reflexivity].
  assert (V : forall n v w rest items, ~ In 59 n /\ ~ In 61 n -> ~ starts_blank n -> ~ In 59 v -> nonempty v = true ->
    match v with c :: _ => c <> 34 | [] => True end -> ~ ends_blank v -> Forall blank w -> tail rest items ->
    tail (lit ";" ++ [] ++ n ++ lit "=" ++ v ++ w ++ rest) ((to_lower n, v) :: items)).
  { intros n v w rest items [N1 N2] N3 V1 V2 V3 V4 W T. apply TailValue; auto.
    - destruct v; [discriminate V2|discriminate].
    - intros r ->. now apply V3. }
  apply (V (lit "x") [127] [] (lit ";X=2 ;x=3") [(lit "x", lit "2"); (lit "x", lit "3")]);
    [now apply name_stops|now apply starts_blank_head|now apply value_stops|reflexivity|cbn; lia|now apply ends_blank_last|constructor|].
  apply (V (lit "X") (lit "2") (lit " ") (lit ";x=3") [(lit "x", lit "3")]);
    [now apply name_stops|now apply starts_blank_head|now apply value_stops|reflexivity|cbn; lia|now apply ends_blank_last|now apply blanks_ws|].
  apply (V (lit "x") (lit "3") [] [] []);
    [now apply name_stops|now apply starts_blank_head|now apply value_stops|reflexivity|cbn; lia|now apply ends_blank_last|constructor|constructor].
Qed.
