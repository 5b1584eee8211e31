(** Lemmas about slicing, tokens and quoted strings. *)
From Verif Require Import Base BaseFacts ParseUtils.
From Coq Require Import ZifyBool ZifyNat ZifyN.

Lemma clen_pos c : 1 <= clen c.
Proof. unfold clen. destruct (c <? 128), (c <? 2048), (c <? 65536); lia. Qed.
Lemma clen_ascii c : (c <? 128) = true -> clen c = 1.
Proof. unfold clen. intros ->. reflexivity. Qed.
Lemma blen_app a b : blen (a ++ b) = blen a + blen b.
Proof. induction a as [|c a IH]; cbn [app blen]; [lia|]. rewrite IH. lia. Qed.
Lemma blen_ascii s : is_ascii s = true -> blen s = N.of_nat (length s).
Proof.
  induction s as [|c s IH]; [reflexivity|]. unfold is_ascii in *. cbn [forallb blen length]. intros H. apply andb_true_iff in H as [H1 H2].
  rewrite clen_ascii by exact H1. rewrite IH by exact H2. lia.
Qed.

Lemma split_at_app a b : split_at (a ++ b) (blen a) = Ok (a, b).
Proof.
  induction a as [|c a IH]; cbn [app blen].
  - destruct b; reflexivity.
  - cbn [split_at]. assert (P := clen_pos c). replace (clen c + blen a =? 0) with false by lia.
    replace (clen c <=? clen c + blen a) with true by lia. replace (clen c + blen a - clen c) with (blen a) by lia.
    rewrite IH. reflexivity.
Qed.
Lemma split_at_at a b n : n = blen a -> split_at (a ++ b) n = Ok (a, b).
Proof. intros ->. apply split_at_app. Qed.
Lemma split_at_ok s n a b : split_at s n = Ok (a, b) -> s = a ++ b /\ n = blen a.
Proof.
  revert n a b. induction s as [|c s IH]; intros n a b H; cbn [split_at] in H; destruct (n =? 0) eqn:Z.
  - inv H. cbn. split; [reflexivity|lia].
  - discriminate.
  - inv H. cbn. split; [reflexivity|lia].
  - destruct (clen c <=? n) eqn:L; [|discriminate]. destruct (split_at s (n - clen c)) as [[a' b']| |] eqn:E; try discriminate.
    cbn in H. inv H. apply IH in E as [-> E]. cbn [app blen]. split; [reflexivity|lia].
Qed.
Lemma split_at_no_err s n e : split_at s n <> Err e.
Proof.
  revert n. induction s as [|c s IH]; intros n; cbn [split_at]; destruct (n =? 0); try discriminate.
  destruct (clen c <=? n); [|discriminate]. specialize (IH (n - clen c)). destruct (split_at s (n - clen c)) as [[? ?]| |]; cbn; congruence.
Qed.
(** Inside a character. *)
Lemma split_at_inside a c b n : blen a < n < blen a + clen c -> split_at (a ++ c :: b) n = Panic.
Proof.
  revert n. induction a as [|x a IH]; intros n H; cbn [app blen] in *; cbn [split_at].
  - replace (n =? 0) with false by lia. replace (clen c <=? n) with false by lia. reflexivity.
  - replace (n =? 0) with false by lia. replace (clen x <=? n) with true by lia. rewrite IH by lia. reflexivity.
Qed.
Lemma split_at_ascii s n : is_ascii s = true -> (n <= length s)%nat ->
  split_at s (N.of_nat n) = Ok (firstn n s, skipn n s).
Proof.
  intros A L. rewrite <- (firstn_skipn n s) at 1. apply split_at_at. rewrite blen_ascii.
  - rewrite firstn_length_le by exact L. reflexivity.
  - rewrite <- (firstn_skipn n s) in A. rewrite is_ascii_app in A. apply andb_true_iff in A. tauto.
Qed.
Lemma split_at_short s n : blen s < n -> split_at s n = Panic.
Proof.
  revert n. induction s as [|c s IH]; intros n H; cbn [blen] in H; cbn [split_at]; replace (n =? 0) with false by lia; [reflexivity|].
  destruct (clen c <=? n) eqn:L; [|reflexivity]. rewrite IH by lia. reflexivity.
Qed.

Lemma tchar_ascii c : tchar c = true -> (c <? 128) = true.
Proof.
  unfold tchar, is_lower, is_upper, is_digit. destruct (existsb (N.eqb c) (lit "!#$%&'*+-.^_`|~")) eqn:E; [|lia].
  intros _. apply existsb_exists in E as [x [I E]]. apply N.eqb_eq in E. subst x. cbn in I.
  repeat (destruct I as [<-|I]; [reflexivity|]). destruct I.
Qed.

Lemma take_drop_while p s : take_while p s ++ drop_while p s = s.
Proof. induction s as [|c s IH]; cbn; [reflexivity|]. destruct (p c); cbn; congruence. Qed.
Lemma take_while_all p s : forallb p (take_while p s) = true.
Proof. induction s as [|c s IH]; cbn; [reflexivity|]. destruct (p c) eqn:E; cbn; [rewrite E; exact IH|reflexivity]. Qed.
Lemma take_while_app p a b : forallb p a = true -> take_while p (a ++ b) = a ++ take_while p b.
Proof. induction a as [|c a IH]; [reflexivity|]. cbn. intros H. apply andb_true_iff in H as [-> H]. rewrite IH by exact H. reflexivity. Qed.
Lemma take_while_none p s : (match s with [] => true | c :: _ => negb (p c) end) = true -> take_while p s = [].
Proof. destruct s as [|c s]; [reflexivity|]. cbn. destruct (p c); [discriminate|reflexivity]. Qed.

Lemma token_end_spec s i e : token_end (char_indices i s) e =
  match take_while tchar s with [] => e | t => i + blen t end.
Proof.
  revert i e. induction s as [|c s IH]; intros i e; cbn [char_indices token_end take_while]; [reflexivity|].
  destruct (tchar c) eqn:T; [|reflexivity]. rewrite IH. cbn [blen]. rewrite (clen_ascii c) by (apply tchar_ascii, T).
  destruct (take_while tchar s); cbn [blen]; lia.
Qed.

(** [parse_token] without offsets. *)
Definition some_unless_empty (s : str) : option str := match s with [] => None | _ => Some s end.
Lemma parse_token_spec s : parse_token s = Ok (some_unless_empty (take_while tchar s), drop_while tchar s).
Proof.
  unfold parse_token. rewrite token_end_spec. destruct (take_while tchar s) as [|c t] eqn:T.
  - cbn. rewrite <- (take_drop_while tchar s) at 1. rewrite T. reflexivity.
  - cbn [some_unless_empty]. assert (P := clen_pos c). replace (0 + blen (c :: t) =? 0) with false by (cbn [blen]; lia).
    rewrite <- (take_drop_while tchar s) at 1. rewrite T. rewrite split_at_at by lia. reflexivity.
Qed.
Lemma parse_token_app t r : forallb tchar t = true -> t <> [] ->
  (match r with [] => true | c :: _ => negb (tchar c) end) = true -> parse_token (t ++ r) = Ok (Some t, r).
Proof.
  intros T N R. rewrite parse_token_spec, take_while_app, drop_while_app_all, take_while_none, drop_while_none, app_nil_r by assumption.
  destruct t; [congruence|reflexivity].
Qed.
Lemma parse_token_none r : (match r with [] => true | c :: _ => negb (tchar c) end) = true -> parse_token r = Ok (None, r).
Proof. intros R. rewrite parse_token_spec, take_while_none, drop_while_none by assumption. reflexivity. Qed.

(** [parse_quoted_string] without offsets: what follows the opening quote. *)
Inductive quoted := QNo | QPanics | QYes (v r : str).
Definition qcons (c : N) (q : quoted) : quoted := match q with QYes v r => QYes (c :: v) r | _ => q end.
Fixpoint qs (s : str) : quoted :=
  match s with
  | [] => QNo
  | c :: s' =>
      if c =? 92 then
        match s' with
        | [] => QNo
        | d :: s'' => if vchar d then qcons d (qs s'') else QNo
        end
      else if as_u8 c =? 92 then qs s'
      else if c =? 34 then QYes [] s'
      else if as_u8 c =? 34 then QPanics
      else if qdtext (as_u8 c) then qcons c (qs s')
      else QNo
  end.

Definition fresh_pos (i : N) (bs : list N) : Prop := Forall (fun k => k + 2 < i) bs.

Lemma fresh_head i bs : fresh_pos i bs -> match bs with k :: _ => k =? i - 2 | [] => false end = false.
Proof. intros F. destruct bs as [|k bs]; [reflexivity|]. inv F. lia. Qed.
Lemma fresh_mono i j bs : i <= j -> fresh_pos i bs -> fresh_pos j bs.
Proof. intros L. apply Forall_impl. intros k. lia. Qed.

Definition scan_post (s : str) (i : N) (bs : list N) (q : quoted) (r : option (option N * list N)) : Prop :=
  match q with
  | QNo => r = None \/ exists bs', r = Some (None, bs')
  | QYes v rest => exists e new, s = e ++ 34 :: rest /\ r = Some (Some (i + blen e + 1), rev new ++ bs) /\
      Forall (fun k => i - 1 <= k) new /\ qs_filter (char_indices (i - 1) e) new = v
  | QPanics => exists e c rest new, s = e ++ c :: rest /\ 2 <= clen c /\ r = Some (Some (i + blen e + 1), rev new ++ bs)
  end.

Lemma filter_skip i c e new : Forall (fun k => i + 1 <= k) new ->
  qs_filter ((i, c) :: e) new = c :: qs_filter e new.
Proof. intros F. cbn [qs_filter]. destruct new as [|k new]; [reflexivity|]. inv F. replace (k =? i) with false by lia. reflexivity. Qed.

Lemma low_byte_wide c b : as_u8 c = b -> c <> b -> 2 <= clen c.
Proof. unfold as_u8, clen. intros H N. destruct (c <? 128) eqn:E; [|destruct (c <? 2048), (c <? 65536); lia]. exfalso. apply N. lia. Qed.
Lemma low_byte_small c : (c <? 128) = true -> as_u8 c = c.
Proof. unfold as_u8. intros H. lia. Qed.

Lemma qs_scan_spec : forall n s i bs, (length s <= n)%nat -> 1 <= i -> fresh_pos i bs ->
  scan_post s i bs (qs s) (qs_scan (char_indices i s) bs).
Proof.
  induction n as [|n IH]; intros s i bs L I F.
  { destruct s; [|cbn in L; lia]. cbn. eauto. }
  destruct s as [|c s]; [cbn; eauto|]. cbn [length] in L. cbn [qs char_indices qs_scan].
  rewrite (fresh_head i bs F), andb_false_r. assert (CP := clen_pos c).
  (* one more plain character in front *)
  assert (K : forall q r bs' new0, scan_post s (i + clen c) bs' q r -> (new0 = [i - 1] /\ bs' = i - 1 :: bs \/ new0 = [] /\ bs' = bs) ->
     scan_post (c :: s) i bs (if match new0 with [] => true | _ => false end then qcons c q else q) r).
  { intros q r bs' new0 P Q. destruct q as [| |v rest]; cbn [scan_post qcons] in *.
    - destruct new0; exact P.
    - destruct P as (e & d & rest & new & -> & W & ->). replace (if match new0 with [] => true | _ => false end then QPanics else QPanics) with QPanics by (destruct new0; reflexivity).
      exists (c :: e), d, rest, (new0 ++ new). split; [reflexivity|]. split; [exact W|]. cbn [blen]. f_equal. f_equal; [f_equal; lia|].
      rewrite rev_app_distr, <- app_assoc. f_equal. destruct Q as [[-> ->]|[-> ->]]; reflexivity.
    - destruct P as (e & new & -> & -> & G & <-).
      assert (X : scan_post (c :: e ++ 34 :: rest) i bs (QYes (if match new0 with [] => true | _ => false end then c :: qs_filter (char_indices (i + clen c - 1) e) new else qs_filter (char_indices (i + clen c - 1) e) new) rest)
                    (Some (Some (i + clen c + blen e + 1), rev new ++ bs'))).
      { exists (c :: e), (new0 ++ new). split; [reflexivity|]. split; [cbn [blen]; f_equal; f_equal; [f_equal; lia|]; rewrite rev_app_distr, <- app_assoc; f_equal; destruct Q as [[-> ->]|[-> ->]]; reflexivity|].
        split; [apply Forall_app; split; [destruct Q as [[-> _]|[-> _]]; repeat constructor; lia|eapply Forall_impl; [|exact G]; intros k; cbn; lia]|].
        cbn [char_indices]. replace (i + clen c - 1) with (i - 1 + clen c) by lia.
        destruct Q as [[-> _]|[-> _]]; cbn [app].
        - cbn [qs_filter]. rewrite N.eqb_refl. reflexivity.
        - rewrite filter_skip; [reflexivity|]. eapply Forall_impl; [|exact G]. intros k. cbn. lia. }
      destruct new0; exact X. }
  destruct (N.eqb_spec c 92) as [C92|C92].
  - subst c. change (as_u8 92 =? 92) with true. cbn iota.
    destruct s as [|d s]; [cbn; eauto|]. cbn [length] in L. cbn [char_indices qs_scan]. change (clen 92) with 1 in *.
    replace ((1 <? i + 1) && (i - 1 =? i + 1 - 2)) with true by lia.
    destruct (vchar d) eqn:VD; [|cbn; auto]. assert (DP := clen_pos d).
    assert (P := IH s (i + 1 + clen d) (i - 1 :: bs) ltac:(lia) ltac:(lia)).
    assert (F' : fresh_pos (i + 1 + clen d) (i - 1 :: bs)) by (constructor; [lia|eapply fresh_mono; [|exact F]; lia]).
    specialize (P F'). clear K. destruct (qs s) as [| |v rest]; cbn [scan_post qcons] in *; [exact P| |].
    + destruct P as (e & x & rest & new & -> & W & ->). exists (92 :: d :: e), x, rest, (i - 1 :: new). cbn [app rev blen]. rewrite <- app_assoc.
      split; [reflexivity|]. split; [exact W|]. f_equal. f_equal. f_equal. change (clen 92) with 1. lia.
    + destruct P as (e & new & -> & -> & G & <-). exists (92 :: d :: e), (i - 1 :: new). cbn [app rev blen]. rewrite <- app_assoc.
      split; [reflexivity|]. change (clen 92) with 1. split; [f_equal; f_equal; f_equal; lia|].
      split; [constructor; [lia|eapply Forall_impl; [|exact G]; intros k; cbn; lia]|].
      cbn [char_indices qs_filter]. rewrite N.eqb_refl. change (clen 92) with 1.
      replace (i - 1 + 1 + clen d) with (i + 1 + clen d - 1) by lia.
      destruct new as [|k new]; [reflexivity|]. inv G. replace (k =? i - 1 + 1) with false by lia. reflexivity.
  - destruct (as_u8 c =? 92) eqn:A92.
    { assert (W : 2 <= clen c) by (apply (low_byte_wide c 92); lia).
      apply (K (qs s) _ (i - 1 :: bs) [i - 1]); [|auto]. apply IH; [lia|lia|]. constructor; [lia|eapply fresh_mono; [|exact F]; lia]. }
    destruct (N.eqb_spec c 34) as [->|C34].
    { change (as_u8 34 =? 34) with true. cbn iota. exists [], []. cbn [app rev blen char_indices qs_filter]. rewrite N.add_0_r. auto. }
    destruct (as_u8 c =? 34) eqn:A34.
    { exists [], c, s, []. cbn [app rev blen]. rewrite N.add_0_r. split; [reflexivity|]. split; [apply (low_byte_wide c 34); lia|reflexivity]. }
    destruct (qdtext (as_u8 c)); [|cbn; auto].
    apply (K (qs s) _ bs []); [|auto]. apply IH; [lia|lia|]. eapply fresh_mono; [|exact F]. lia.
Qed.

Lemma filter_none l : qs_filter l [] = map snd l.
Proof. induction l as [|[i c] l IH]; cbn; congruence. Qed.
Lemma char_indices_snd i s : map snd (char_indices i s) = s.
Proof. revert i. induction s as [|c s IH]; intros i; cbn; congruence. Qed.

Lemma parse_quoted_spec s : parse_quoted_string s =
  match s with
  | 34 :: s' => match qs s' with
                | QNo => Ok (None, s)
                | QPanics => Panic
                | QYes v r => Ok (Some v, r)
                end
  | _ => Ok (None, s)
  end.
Proof.
  destruct s as [|c s]; [reflexivity|]. destruct (N.eqb_spec c 34) as [->|N].
  2:{ unfold parse_quoted_string, starts_with. cbn [lit list_ascii_of_string map strip_prefix].
      replace (N_of_ascii """" =? c) with false by (cbn; lia).
      destruct c as [|p]; [reflexivity|]. repeat (destruct p as [p|p|]; try reflexivity). destruct N. reflexivity. }
  unfold parse_quoted_string. change (starts_with (lit """") (34 :: s)) with true. cbn iota.
  change (tl (char_indices 0 (34 :: s))) with (char_indices 1 s).
  assert (P := qs_scan_spec (length s) s 1 [] (le_n _) ltac:(lia) ltac:(constructor)).
  destruct (qs s) as [| |v r]; cbn [scan_post] in P.
  - destruct P as [->|[bs' ->]]; reflexivity.
  - destruct P as (e & c & rest & new & -> & W & ->). rewrite app_nil_r.
    replace (1 + blen e + 1 - 1) with (blen (34 :: e)) by (cbn [blen]; change (clen 34) with 1; lia).
    change (34 :: e ++ c :: rest) with ((34 :: e) ++ c :: rest). rewrite split_at_app. cbn [bind].
    change (34 :: e) with ([34] ++ e) at 1. rewrite (split_at_at [34] e 1 eq_refl). cbn [bind].
    rewrite split_at_inside; [reflexivity|]. cbn [blen]. change (clen 34) with 1. lia.
  - destruct P as (e & new & -> & -> & G & <-). rewrite app_nil_r.
    replace (1 + blen e + 1 - 1) with (blen (34 :: e)) by (cbn [blen]; change (clen 34) with 1; lia).
    change (34 :: e ++ 34 :: r) with ((34 :: e) ++ 34 :: r). rewrite split_at_app. cbn [bind].
    change (34 :: e) with ([34] ++ e) at 1. rewrite (split_at_at [34] e 1 eq_refl). cbn [bind].
    replace ((34 :: e) ++ 34 :: r) with ((34 :: e ++ [34]) ++ r) by (cbn; rewrite <- app_assoc; reflexivity).
    rewrite split_at_at by (cbn [blen]; rewrite blen_app; cbn [blen]; change (clen 34) with 1; lia). cbn [bind].
    rewrite rev_involutive. change (1 - 1) with 0. f_equal. f_equal. f_equal.
    destruct new as [|k new]; [cbn [rev]; rewrite filter_none, char_indices_snd; reflexivity|].
    destruct (rev (k :: new)) as [|y ys] eqn:Rv; [|reflexivity]. apply (f_equal (@length N)) in Rv. rewrite rev_length in Rv. discriminate.
Qed.
