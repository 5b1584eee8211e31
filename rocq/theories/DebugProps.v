(** C100: the [Debug] output of the types of the crate is on one line, cannot be forged by the text it shows, and says which value was printed -
    except for what it leaves out: the content of bodies and the wildcard of list headers. *)
From Coq Require Import ZifyBool ZifyNat ZifyN Lia.
From Verif Require Import Base BaseFacts Headers Typed Mime MimeFacts Method StatusCode Body Conditional Cache Auth Forwarded Trace Negotiate Timing AlikeProps TraceProps Debug HeaderIter.

(** What can follow a value inside a larger [Debug] text: nothing, or one of , ] ) } blank colon. *)
Definition stop (r : str) : Prop := match r with [] => True | c :: _ => In c [44; 93; 41; 125; 32; 58] end.
(** A printer whose text can be told from what follows it. *)
Definition delim {A} (f : A -> str) : Prop := forall x y r r', stop r -> stop r' -> f x ++ r = f y ++ r' -> x = y /\ r = r'.
(** The same for some values only. *)
Definition delim_on {A} (P : A -> Prop) (f : A -> str) : Prop := forall x y r r', P x -> P y -> stop r -> stop r' -> f x ++ r = f y ++ r' -> x = y /\ r = r'.
(** One line of text: no control characters. *)
Definition one_line (s : str) : bool := forallb (fun c => (32 <=? c) && negb (c =? 127)) s.

Lemma delim_inj : forall A (f : A -> str), delim f -> forall x y, f x = f y -> x = y.
Proof. intros A f D x y E. apply (D x y [] []); cbn; auto. now rewrite !app_nil_r. Qed.
Lemma one_line_app : forall a b, one_line (a ++ b) = one_line a && one_line b.
Proof. intros. apply forallb_app. Qed.

Lemma word_delim : forall A (f : A -> str), (forall x, forallb (fun c => is_lower c || is_upper c || is_digit c) (f x) = true) -> (forall x y, f x = f y -> x = y) -> delim f.
Proof.
  intros A f W I x y r r' S S' E.
  assert (K : forall q, stop q -> q = [] \/ exists c t, q = c :: t /\ is_lower c || is_upper c || is_digit c = false).
  { intros [|c t] Q; [auto|]. right. exists c, t. split; [reflexivity|]. cbn in Q. repeat (destruct Q as [<-|Q]; [reflexivity|]). destruct Q. }
  destruct (app_class _ _ _ _ _ (W x) (W y) (K _ S) (K _ S') E) as [F ->]. auto.
Qed.
Lemma dec_delim : delim show_dec.
Proof.
  apply word_delim; [|exact show_dec_inj]. intros n. apply forallb_forall. intros c I. assert (D := show_dec_digits n). rewrite forallb_forall in D.
  specialize (D c I). now rewrite D, orb_true_r.
Qed.
Lemma bool_delim : delim dbg_bool.
Proof. apply word_delim; [intros []; reflexivity|]. intros [] [] E; try reflexivity; discriminate E. Qed.
Lemma hex_word : forall n, forallb (fun c => is_lower c || is_upper c || is_digit c) (show_radix 16 n) = true.
Proof.
  intros n. unfold show_radix. destruct (digits_spec 16 n ltac:(lia)) as [_ F]. apply forallb_forall. intros c I. apply in_map_iff in I as (d & <- & I).
  rewrite Forall_forall in F. specialize (F d I). unfold digit_char, is_lower, is_upper, is_digit. destruct (d <? 10) eqn:E; lia.
Qed.
Lemma hex_inj : forall a b, show_radix 16 a = show_radix 16 b -> a = b.
Proof.
  intros a b E. assert (A := parse_show 16 (N.max a b) a ltac:(lia) ltac:(lia)). assert (B := parse_show 16 (N.max a b) b ltac:(lia) ltac:(lia)). rewrite E in A. congruence.
Qed.
Lemma hex_plain : forall n, one_line (92 :: 117 :: 123 :: show_radix 16 n ++ [125]) = true /\ forallb (fun c => c <? 128) (92 :: 117 :: 123 :: show_radix 16 n ++ [125]) = true.
Proof.
  intros n. assert (K : forall P, (forall c, is_lower c || is_upper c || is_digit c = true -> P c = true) -> P 92 = true -> P 117 = true -> P 123 = true -> P 125 = true ->
    forallb P (92 :: 117 :: 123 :: show_radix 16 n ++ [125]) = true).
  { intros P H A B C D. cbn [forallb]. rewrite A, B, C, forallb_app. cbn [forallb andb]. rewrite D. cbn [andb]. rewrite ?andb_true_r.
    apply forallb_forall. intros d I. apply H. assert (W := hex_word n). rewrite forallb_forall in W. exact (W d I). }
  split; apply K; try reflexivity; unfold is_lower, is_upper, is_digit; intros; lia.
Qed.
Definition all_some {A} (P : A -> Prop) (o : option A) : Prop := match o with Some x => P x | None => True end.
Lemma option_delim_on : forall A P (f : A -> str), delim_on P f -> delim_on (all_some P) (dbg_option f).
Proof.
  intros A P f D [x|] [y|] r r' Px Py S S' E; unfold dbg_option in E; rewrite <- ?app_assoc in E.
  - apply app_inv_head in E. apply D in E as [-> E]; [|exact Px|exact Py|cbn; auto 10|cbn; auto 10]. apply app_inv_head in E. auto.
  - discriminate E.
  - discriminate E.
  - apply app_inv_head in E. auto.
Qed.
Lemma option_delim : forall A (f : A -> str), delim f -> delim (dbg_option f).
Proof. intros A f D x y r r'. apply (option_delim_on A (fun _ => True)); [intros ? ? ? ? _ _; apply D|destruct x; exact I|destruct y; exact I]. Qed.
(** A text that does not begin like the end of a list. *)
Definition begins (s : str) : Prop := match s with c :: _ => c <> 93 | [] => False end.
Lemma list_delim_on : forall A P (f : A -> str), delim_on P f -> (forall x, begins (f x)) -> delim_on (Forall P) (dbg_list f).
Proof.
  intros A P f D NB l l' r r' Pl Pl' S S' E. unfold dbg_list in E. rewrite <- !app_assoc in E. apply app_inv_head in E.
  set (g := flat_map (fun y => lit ", " ++ y)).
  assert (ST : forall (l : list A) q, stop (g (map f l) ++ 93 :: q)) by (intros [|x l0] q; cbn; auto 10).
  assert (K : forall l l' : list A, Forall P l -> Forall P l' -> g (map f l) ++ 93 :: r = g (map f l') ++ 93 :: r' -> l = l' /\ r = r').
  { induction l0 as [|x l0 IH]; intros [|y l1] Q Q'; cbn [map g flat_map].
    - cbn. intros F. injection F as ->. auto.
    - cbn. discriminate.
    - cbn. discriminate.
    - fold g. rewrite <- !app_assoc. intros F. apply app_inv_head in F. inv Q. inv Q'. apply D in F as [-> F]; [|assumption|assumption|apply ST|apply ST].
      destruct (IH l1) as [-> ->]; auto. }
  assert (X : forall y (l : list A) q q', 93 :: q <> join (lit ", ") (map f (y :: l)) ++ lit "]" ++ q').
  { intros y l0 q q'. cbn [map]. rewrite join_cons. specialize (NB y). destruct (f y) as [|c t]; [destruct NB|]. cbn. intros F. injection F as F _. cbn in NB. congruence. }
  destruct l as [|x l]; destruct l' as [|y l'].
  - cbn in E. injection E as ->. auto.
  - destruct (X _ _ _ _ E).
  - symmetry in E. destruct (X _ _ _ _ E).
  - cbn [map] in E. rewrite !join_cons, <- !app_assoc in E. inv Pl. inv Pl'. apply D in E as [-> E]; [|assumption|assumption|apply ST|apply ST].
    destruct (K l l') as [-> ->]; auto.
Qed.
Lemma list_delim : forall A (f : A -> str), delim f -> (forall x, begins (f x)) -> delim (dbg_list f).
Proof.
  intros A f D NB x y r r'. apply (list_delim_on A (fun _ => True)); [intros ? ? ? ? _ _; apply D|exact NB|apply Forall_forall; auto|apply Forall_forall; auto].
Qed.

(** ** Texts *)
Section Text.
  Context (shown : N -> bool).
  Lemma char_cases : forall c,
    (exists k, dbg_char shown c = [92; k] /\ In (c, k) [(0, 48); (9, 116); (13, 114); (10, 110); (34, 34); (92, 92)]) \/
    (dbg_char shown c = [c] /\ c <> 92 /\ c <> 34 /\ 32 <= c /\ c <> 127) \/ dbg_char shown c = 92 :: 117 :: 123 :: show_radix 16 c ++ [125].
  Proof.
    intros c. unfold dbg_char.
    destruct (N.eqb_spec c 0) as [->|]; [left; exists 48; cbn; auto|]. destruct (N.eqb_spec c 9) as [->|]; [left; exists 116; cbn; auto|].
    destruct (N.eqb_spec c 13) as [->|]; [left; exists 114; cbn; auto|]. destruct (N.eqb_spec c 10) as [->|]; [left; exists 110; cbn; auto 10|].
    destruct (N.eqb_spec c 34) as [->|]; [left; exists 34; cbn; auto 10|]. destruct (N.eqb_spec c 92) as [->|]; [left; exists 92; cbn; auto 10|]. right.
    destruct (c <? 128) eqn:L; [destruct ((32 <=? c) && (c <=? 126)) eqn:P|destruct (shown c)]; [left| |left|]; auto; repeat split; auto; lia.
  Qed.
  Lemma char_prefix : forall c d x y, dbg_char shown c ++ x = dbg_char shown d ++ y -> c = d /\ x = y.
  Proof.
    intros c d x y E.
    destruct (char_cases c) as [(k & Ec & I)|[(Ec & C1 & C2 & _)|Ec]]; rewrite Ec in E; destruct (char_cases d) as [(k' & Ed & I')|[(Ed & D1 & D2 & _)|Ed]]; rewrite Ed in E; cbn [app] in E.
    - injection E as -> ->. split; [|reflexivity]. cbn in I, I'. intuition congruence.
    - injection E as E _. congruence.
    - injection E as -> E. cbn in I. intuition congruence.
    - injection E as E _. congruence.
    - injection E as -> ->. auto.
    - injection E as E _. congruence.
    - injection E as E _. cbn in I'. intuition congruence.
    - injection E as E _. congruence.
    - injection E as E. rewrite <- !app_assoc in E.
      assert (K : forall q : str, [125] ++ q = [] \/ exists c t, [125] ++ q = c :: t /\ is_lower c || is_upper c || is_digit c = false) by (intros q; right; exists 125, q; auto).
      destruct (app_class _ _ _ _ _ (hex_word c) (hex_word d) (K x) (K y) E) as [F G]. apply hex_inj in F. injection G as ->. auto.
  Qed.
  Lemma text_prefix : forall s t r r', flat_map (dbg_char shown) s ++ 34 :: r = flat_map (dbg_char shown) t ++ 34 :: r' -> s = t /\ r = r'.
  Proof.
    assert (Q : forall c x r, 34 :: r <> dbg_char shown c ++ x).
    { intros c x r E. destruct (char_cases c) as [(k & Ec & I)|[(Ec & C1 & C2 & _)|Ec]]; rewrite Ec in E; injection E as E _; congruence. }
    induction s as [|c s IH]; intros [|d t] r r'; cbn [flat_map]; rewrite <- ?app_assoc; intros E.
    - injection E as ->. auto.
    - destruct (Q _ _ _ E).
    - symmetry in E. destruct (Q _ _ _ E).
    - apply char_prefix in E as [-> E]. apply IH in E as [-> ->]. auto.
  Qed.
  (** The text of a string ends where it ends, whatever follows and whatever the string contains, and says which string it was; it is on one line,
      and plain ASCII if the string is. *)
  Theorem C100_text : forall s t r r',
    (dbg_str shown s ++ r = dbg_str shown t ++ r' <-> s = t /\ r = r') /\ one_line (dbg_str shown s) = true /\ (is_ascii s = true -> is_ascii (dbg_str shown s) = true).
  Proof.
    intros s t r r'. split; [|split].
    - split; [|intros [-> ->]; reflexivity]. unfold dbg_str. rewrite <- !app_assoc. cbn [app]. intros E. injection E as E. now apply text_prefix.
    - unfold dbg_str. rewrite !one_line_app. change (one_line [34]) with true. rewrite andb_true_r. cbn [andb]. induction s as [|c s IH]; [reflexivity|]. cbn [flat_map]. rewrite one_line_app, IH, andb_true_r.
      destruct (char_cases c) as [(k & Ec & I)|[(Ec & C1 & C2 & C3 & C4)|Ec]]; rewrite Ec.
      + cbn in I. intuition (match goal with X : (_, _) = _ |- _ => injection X as <- <- end; reflexivity).
      + cbn. lia.
      + apply hex_plain.
    - intros A. unfold dbg_str, is_ascii in *. rewrite !forallb_app. cbn [forallb]. change (34 <? 128) with true. cbn [andb]. rewrite andb_true_r.
      induction s as [|c s IH]; [reflexivity|]. cbn [forallb flat_map] in *. apply andb_prop in A as [A1 A2]. rewrite forallb_app, (IH A2), andb_true_r.
      destruct (char_cases c) as [(k & Ec & I)|[(Ec & _)|Ec]]; rewrite Ec.
      + cbn in I. intuition (match goal with X : (_, _) = _ |- _ => injection X as <- <- end; reflexivity).
      + cbn. now rewrite A1.
      + apply hex_plain.
  Qed.
  Lemma str_delim : delim (dbg_str shown).
  Proof. intros x y r r' _ _ E. exact (proj1 (proj1 (C100_text x y r r')) E). Qed.
  Lemma str_line : forall s, one_line (dbg_str shown s) = true.
  Proof. intros s. exact (proj1 (proj2 (C100_text s [] [] []))). Qed.
  Lemma str_begins : forall s, begins (dbg_str shown s).
  Proof. intros s. cbn. discriminate. Qed.
End Text.

(** ** Durations *)
(** The nanoseconds of a [Duration] are less than a second. *)
Definition real_duration (d : duration) : Prop := nanos d < 1000000000.
Lemma dec_digits : forall n, forallb (fun c => is_digit c || (c =? 46)) (show_dec n) = true.
Proof.
  intros n. apply forallb_forall. intros c I. assert (D := show_dec_digits n). rewrite forallb_forall in D. specialize (D c I). unfold is_digit in *. lia.
Qed.
Lemma pad_value : forall w m n, n <= m -> parse_uint 10 m (pad_left w 48 (show_dec n)) = Some n.
Proof.
  intros w m n L. replace (pad_left w 48 (show_dec n)) with (map digit_char (repeat 0 (w - length (show_dec n)) ++ digits 10 n)).
  - rewrite parse_uint_digits.
    + rewrite horner_zeros. destruct (digits_spec 10 n ltac:(lia)) as [-> _]. replace (n <=? m) with true by lia. reflexivity.
    + lia.
    + intros X. apply app_eq_nil in X as [_ X]. now apply digits_nonempty in X.
    + apply Forall_app. split; [|apply digits_spec; lia]. apply Forall_forall. intros x I. apply repeat_spec in I. lia.
  - unfold pad_left. rewrite map_app. f_equal. generalize (w - length (show_dec n))%nat. induction n0 as [|k IH]; [reflexivity|]. cbn [repeat map]. now rewrite IH.
Qed.
Lemma pad_length : forall w n, n < 10 ^ N.of_nat (S w) -> length (pad_left (S w) 48 (show_dec n)) = S w.
Proof.
  intros w n L. unfold pad_left, show_dec, show_radix. rewrite app_length, repeat_length, map_length.
  assert (X := digits_fuel_len 10 ltac:(lia) (S (N.size_nat n)) w n L). fold (digits 10 n) in X. lia.
Qed.
Lemma pad_inj : forall w a b, pad_left w 48 (show_dec a) = pad_left w 48 (show_dec b) -> a = b.
Proof.
  intros w a b E. assert (A := pad_value w (N.max a b) a ltac:(lia)). assert (B := pad_value w (N.max a b) b ltac:(lia)). rewrite E in A. congruence.
Qed.
Lemma trim_zeros_inj : forall s t, length s = length t -> trim_end_matches (N.eqb 48) s = trim_end_matches (N.eqb 48) t -> s = t.
Proof.
  intros s t L E. destruct (trim_end_prefix (N.eqb 48) s) as (a & Ea & Fa). destruct (trim_end_prefix (N.eqb 48) t) as (b & Eb & Fb). rewrite E in Ea. clear E.
  revert Ea Eb. generalize (trim_end_matches (N.eqb 48) t). intros z Ea Eb. subst s t. f_equal. rewrite !app_length in L. assert (K : length a = length b) by lia. clear - K Fa Fb. revert b K Fb.
  induction a as [|x a IH]; intros [|y b] K Fb; try discriminate K; [reflexivity|]. cbn [forallb length] in *. apply andb_prop in Fa as [A1 A2]. apply andb_prop in Fb as [B1 B2].
  f_equal; [lia|]. apply IH; auto.
Qed.
Lemma decimal_inj : forall w i j a b, a < 10 ^ N.of_nat (S w) -> b < 10 ^ N.of_nat (S w) -> dbg_decimal i a (S w) = dbg_decimal j b (S w) -> i = j /\ a = b.
Proof.
  intros w i j a b A B E. unfold dbg_decimal in E.
  assert (K : forall c, (if c =? 0 then [] else [46] ++ trim_end_matches (N.eqb 48) (pad_left (S w) 48 (show_dec c))) = [] \/
     exists d t, (if c =? 0 then [] else [46] ++ trim_end_matches (N.eqb 48) (pad_left (S w) 48 (show_dec c))) = d :: t /\ is_digit d = false).
  { intros c. destruct (c =? 0); [auto|]. right. exists 46. eexists. split; reflexivity. }
  destruct (app_class is_digit _ _ _ _ (show_dec_digits i) (show_dec_digits j) (K a) (K b) E) as [I F]. apply show_dec_inj in I. split; [exact I|].
  destruct (N.eqb_spec a 0) as [->|Za]; destruct (N.eqb_spec b 0) as [->|Zb]; try reflexivity; try discriminate F.
  apply app_inv_head in F. apply trim_zeros_inj in F; [|now rewrite !pad_length]. exact (pad_inj _ _ _ F).
Qed.
Lemma decimal_digits : forall i a w, forallb (fun c => is_digit c || (c =? 46)) (dbg_decimal i a w) = true.
Proof.
  intros i a w. unfold dbg_decimal. rewrite forallb_app, dec_digits. cbn [andb]. destruct (a =? 0); [reflexivity|]. cbn [app forallb]. change (is_digit 46 || (46 =? 46)) with true. cbn [andb].
  destruct (trim_end_prefix (N.eqb 48) (pad_left w 48 (show_dec a))) as (b & E & _).
  assert (F : forallb (fun c => is_digit c || (c =? 46)) (pad_left w 48 (show_dec a)) = true).
  { unfold pad_left. rewrite forallb_app, dec_digits, andb_true_r. apply forallb_forall. intros c I. apply repeat_spec in I. subst c. reflexivity. }
  rewrite E, forallb_app in F. now apply andb_prop in F as [F _].
Qed.
Lemma duration_delim : delim_on real_duration dbg_duration.
Proof.
  intros [s n] [s' n'] r r' R R' S S' E. unfold real_duration in *. cbn [nanos] in *. unfold dbg_duration in E. cbn [secs nanos] in E.
  (* the number, the unit, how the duration is computed from them *)
  assert (C : forall s n, n < 1000000000 -> exists b u, dbg_duration (Dur s n) = b ++ u /\ forallb (fun c => is_digit c || (c =? 46)) b = true /\
    ((u = lit "s" /\ 0 < s /\ b = dbg_decimal s n 9) \/ (u = lit "ms" /\ s = 0 /\ b = dbg_decimal (n / 1000000) (n mod 1000000) 6) \/
     (u = [181; 115] /\ s = 0 /\ b = dbg_decimal (n / 1000) (n mod 1000) 3) \/ (u = lit "ns" /\ s = 0 /\ b = show_dec n))).
  { clear. intros s n R. unfold dbg_duration. cbn [secs nanos]. destruct (0 <? s) eqn:P; [|destruct (1000000 <=? n); [|destruct (1000 <=? n)]].
    - eexists _, _. split; [reflexivity|]. split; [apply decimal_digits|]. left. repeat split; lia.
    - eexists _, _. split; [reflexivity|]. split; [apply decimal_digits|]. right; left. repeat split; lia.
    - eexists _, _. split; [reflexivity|]. split; [apply decimal_digits|]. right; right; left. repeat split; lia.
    - eexists _, _. split; [reflexivity|]. split; [apply dec_digits|]. right; right; right. repeat split; lia. }
  change (dbg_duration (Dur s n) ++ r = dbg_duration (Dur s' n') ++ r') in E.
  destruct (C s n R) as (b & u & Eb & Fb & Cb). destruct (C s' n' R') as (b' & u' & Eb' & Fb' & Cb'). rewrite Eb, Eb', <- !app_assoc in E.
  assert (K : forall u q, u = lit "s" \/ u = lit "ms" \/ u = [181; 115] \/ u = lit "ns" -> u ++ q = [] \/ exists c t, u ++ q = c :: t /\ is_digit c || (c =? 46) = false).
  { intros v q [-> | [-> | [-> | ->]]]; right; eexists _, _; split; reflexivity. }
  destruct (app_class _ _ _ _ _ Fb Fb' (K u r ltac:(tauto)) (K u' r' ltac:(tauto)) E) as [B U].
  destruct Cb as [(-> & P & ->)|[(-> & P & ->)|[(-> & P & ->)|(-> & P & ->)]]]; destruct Cb' as [(-> & P' & ->)|[(-> & P' & ->)|[(-> & P' & ->)|(-> & P' & ->)]]]; try discriminate U; apply app_inv_head in U; (split; [|exact U]).
  - apply decimal_inj in B as [-> ->]; [reflexivity|exact R|exact R'].
  - subst. apply decimal_inj in B as [B1 B2]; [|apply N.mod_upper_bound; lia|apply N.mod_upper_bound; lia]. f_equal. rewrite (N.div_mod' n 1000000), (N.div_mod' n' 1000000). congruence.
  - subst. apply decimal_inj in B as [B1 B2]; [|apply N.mod_upper_bound; lia|apply N.mod_upper_bound; lia]. f_equal. rewrite (N.div_mod' n 1000), (N.div_mod' n' 1000). congruence.
  - apply show_dec_inj in B. congruence.
Qed.
Lemma decimal_line : forall i a w, one_line (dbg_decimal i a w) = true.
Proof.
  intros i a w. apply forallb_forall. intros c I. assert (D := decimal_digits i a w). rewrite forallb_forall in D. specialize (D c I). unfold is_digit in D. lia.
Qed.
Lemma dec_line : forall n, one_line (show_dec n) = true.
Proof. intros n. apply forallb_forall. intros c I. assert (D := dec_digits n). rewrite forallb_forall in D. specialize (D c I). unfold is_digit in D. lia. Qed.
Lemma duration_line : forall d, one_line (dbg_duration d) = true.
Proof.
  intros d. unfold dbg_duration. destruct (0 <? secs d); [|destruct (1000000 <=? nanos d); [|destruct (1000 <=? nanos d)]]; rewrite one_line_app, ?decimal_line, ?dec_line; reflexivity.
Qed.
Lemma option_line : forall A (f : A -> str), (forall x, one_line (f x) = true) -> forall o, one_line (dbg_option f o) = true.
Proof. intros A f L [x|]; [|reflexivity]. unfold dbg_option. rewrite !one_line_app, L. reflexivity. Qed.
Lemma join_line : forall A (f : A -> str), (forall x, one_line (f x) = true) -> forall l, one_line (join (lit ", ") (map f l)) = true.
Proof.
  intros A f L [|x l]; [reflexivity|]. cbn [map]. rewrite join_cons, one_line_app, L. cbn [andb]. induction l as [|y l IH]; [reflexivity|].
  cbn [map flat_map]. rewrite !one_line_app, L, IH. reflexivity.
Qed.
Lemma list_line : forall A (f : A -> str), (forall x, one_line (f x) = true) -> forall l, one_line (dbg_list f l) = true.
Proof. intros A f L l. unfold dbg_list. rewrite !one_line_app, (join_line _ f L). reflexivity. Qed.
(** Durations are told apart. *)
Theorem C100_duration : forall d e, real_duration d -> real_duration e -> (dbg_duration d = dbg_duration e <-> d = e) /\ one_line (dbg_duration d) = true.
Proof.
  intros d e D E. split; [|apply duration_line]. split; [|now intros ->]. intros X. apply (duration_delim d e [] []); cbn; auto. now rewrite !app_nil_r.
Qed.
Example C100_duration_example :
  dbg_duration (Dur 60 0) = lit "60s" /\ dbg_duration (Dur 2 500000000) = lit "2.5s" /\ dbg_duration (Dur 0 1050000) = lit "1.05ms" /\ dbg_duration (Dur 0 7) = lit "7ns" /\
  dbg_duration (Dur 0 0) = lit "0ns" /\ dbg_duration (Dur 1 1) = lit "1.000000001s".
Proof. vm_compute. auto 10. Qed.

(** Steps through two equal texts of the same shape. *)
Ltac stops := first [exact I | cbn; auto 10].
Ltac field E D := rewrite <- ?app_assoc in E; apply app_inv_head in E; apply D in E as [? E]; [|stops|stops].

(** ** Headers *)
Section Headers.
  Context (shown : N -> bool).
  (** One value and a list of values are told apart, whatever the values contain. *)
  Lemma values_delim : delim (dbg_values shown).
  Proof.
    intros a b r r' S S' E.
    assert (L := list_delim _ _ (str_delim shown) (str_begins shown)).
    assert (F : forall vs, (exists v, vs = [v] /\ dbg_values shown vs = dbg_str shown v) \/ (length vs <> 1%nat /\ dbg_values shown vs = dbg_list (dbg_value shown) vs)).
    { intros [|v [|w vs]]; [right; split; [discriminate|reflexivity]|left; exists v; auto|right; split; [discriminate|reflexivity]]. }
    destruct (F a) as [(v & -> & Ea)|[Na Ea]]; destruct (F b) as [(w & -> & Eb)|[Nb Eb]]; rewrite Ea, Eb in E.
    - apply (str_delim shown) in E as [-> ->]; auto.
    - discriminate E.
    - discriminate E.
    - apply L in E; auto.
  Qed.
  Lemma values_line : forall vs, one_line (dbg_values shown vs) = true.
  Proof. intros [|v [|w vs]]; [reflexivity|apply str_line|apply (list_line _ (dbg_value shown)), str_line]. Qed.
  Theorem C100_header_values : forall vs ws, (dbg_values shown vs = dbg_values shown ws <-> vs = ws) /\ (show_values shown vs = show_values shown ws <-> vs = ws) /\
    one_line (dbg_values shown vs) = true /\ one_line (show_values shown vs) = true.
  Proof.
    intros vs ws. split; [|split; [|split]].
    - split; [|now intros ->]. apply (delim_inj _ _ values_delim).
    - split; [|now intros ->]. apply (delim_inj _ _ (list_delim _ _ (str_delim shown) (str_begins shown))).
    - apply values_line.
    - apply (list_line _ (dbg_value shown)), str_line.
  Qed.
  Let entry (e : str * header_values) : str := dbg_name shown (fst e) ++ lit ": " ++ dbg_values shown (snd e).
  Lemma entry_delim : delim entry.
  Proof.
    intros [n vs] [m ws] r r' S S' E. unfold entry in E. cbn [fst snd] in E. rewrite <- !app_assoc in E. apply (str_delim shown) in E as [-> E]; [|stops|stops].
    apply app_inv_head in E. apply values_delim in E as [-> ->]; auto.
  Qed.
  (** The text of a header map says which headers it has, with all their values; no header can add an entry or a line to it. *)
  Theorem C100_headers : forall h g, (dbg_headers shown h = dbg_headers shown g <-> h = g) /\ (dbg_trailers shown h = dbg_trailers shown g <-> h = g) /\
    one_line (dbg_headers shown h) = true /\ one_line (dbg_trailers shown h) = true.
  Proof.
    assert (D : forall h g, dbg_headers shown h = dbg_headers shown g -> h = g).
    { intros h g E. unfold dbg_headers in E. apply app_inv_head, app_inv_tail in E. change (join (lit ", ") (map entry h) = join (lit ", ") (map entry g)) in E.
      apply (delim_inj _ _ (list_delim _ entry entry_delim ltac:(intros [n vs]; cbn; discriminate))). unfold dbg_list. now rewrite E. }
    assert (L : forall h, one_line (dbg_headers shown h) = true).
    { intros h. unfold dbg_headers. rewrite !one_line_app. rewrite (join_line _ entry); [reflexivity|]. intros [n vs]. unfold entry. rewrite !one_line_app. cbn [fst snd]. now rewrite values_line, str_line. }
    intros h g. split; [|split; [|split]].
    - split; [apply D|now intros ->].
    - split; [|now intros ->]. intros E. apply D. unfold dbg_trailers in E. now apply app_inv_head, app_inv_tail in E.
    - apply L.
    - unfold dbg_trailers. rewrite !one_line_app, L. reflexivity.
  Qed.

  (** ** Conditions and caching: the entries are shown, the wildcard is not *)
  Lemma etag_delim : delim (dbg_etag shown).
  Proof.
    intros [a|a] [b|b] r r' S S' E; unfold dbg_etag in E; try discriminate E; field E (str_delim shown); subst; apply app_inv_head in E; auto.
  Qed.
  Lemma etag_line : forall e, one_line (dbg_etag shown e) = true.
  Proof. intros [s|s]; unfold dbg_etag; rewrite !one_line_app, str_line; reflexivity. Qed.
  Theorem C100_conditions : forall c d, (dbg_cond shown c = dbg_cond shown d <-> fst c = fst d) /\ one_line (dbg_cond shown c) = true.
  Proof.
    intros c d. split; [|apply list_line, etag_line]. unfold dbg_cond. split; [|now intros ->].
    apply (delim_inj _ _ (list_delim _ _ etag_delim ltac:(intros [s|s]; cbn; discriminate))).
  Qed.
  Theorem C100_vary : forall c d, (dbg_vary shown c = dbg_vary shown d <-> fst c = fst d) /\ one_line (dbg_vary shown c) = true.
  Proof.
    intros c d. split; [|apply (list_line _ (dbg_name shown)), str_line]. unfold dbg_vary. split; [|now intros ->].
    apply (delim_inj _ _ (list_delim _ _ (str_delim shown) (str_begins shown))).
  Qed.
End Headers.
Lemma clear_delim : delim dbg_clear.
Proof. apply word_delim; [intros []; reflexivity|]. intros [] [] E; try reflexivity; discriminate E. Qed.
Theorem C100_clear_site_data : forall c d, (dbg_clear_list c = dbg_clear_list d <-> fst c = fst d) /\ one_line (dbg_clear_list c) = true.
Proof.
  intros c d. split; [|apply list_line; intros []; reflexivity]. unfold dbg_clear_list. split; [|now intros ->].
  apply (delim_inj _ _ (list_delim _ _ clear_delim ltac:(intros []; cbn; discriminate))).
Qed.
Lemma method_delim : delim dbg_method.
Proof. apply word_delim; [intros []; reflexivity|]. intros [] [] E; try reflexivity; discriminate E. Qed.
Theorem C100_allow : forall a b, (dbg_allow a = dbg_allow b <-> a = b) /\ one_line (dbg_allow a) = true.
Proof.
  intros a b. split; [|apply list_line; intros []; reflexivity]. unfold dbg_allow. split; [|now intros ->].
  apply (delim_inj _ _ (list_delim _ _ method_delim ltac:(intros []; cbn; discriminate))).
Qed.
(** The durations of a directive are ones a [Duration] can hold. *)
Definition real_directive (d : directive) : Prop :=
  match d with MaxAge d | MinFresh d | SMaxAge d | StaleIfError d | StaleWhileRevalidate d => real_duration d | MaxStale o => all_some real_duration o | _ => True end.
Lemma directive_delim : delim_on real_directive dbg_directive.
Proof.
  assert (T : forall n d e r r', real_duration d -> real_duration e -> (lit n ++ lit "(" ++ dbg_duration d ++ lit ")") ++ r = (lit n ++ lit "(" ++ dbg_duration e ++ lit ")") ++ r' -> d = e /\ r = r').
  { intros n d e r r' D D' E. rewrite <- !app_assoc in E. apply app_inv_head, app_inv_head in E. apply duration_delim in E as [-> E]; [|assumption|assumption|stops|stops]. apply app_inv_head in E. auto. }
  intros a b r r' P P' S S' E. destruct a; destruct b; try discriminate E; cbn [real_directive] in P, P'.
  all: try (apply app_inv_head in E; split; [reflexivity|exact E]).
  all: try (unfold dbg_directive in E; apply T in E as [-> ->]; auto).
  unfold dbg_directive in E. rewrite <- !app_assoc in E. apply app_inv_head in E. apply (option_delim_on _ _ _ duration_delim) in E as [-> E]; [|assumption|assumption|stops|stops]. apply app_inv_head in E. auto.
Qed.
Lemma directive_line : forall d, one_line (dbg_directive d) = true.
Proof.
  intros d. destruct d; try reflexivity; unfold dbg_directive; rewrite !one_line_app, ?duration_line, ?(option_line _ _ duration_line); reflexivity.
Qed.
Theorem C100_cache_control : forall a b, Forall real_directive a -> Forall real_directive b -> (dbg_cache a = dbg_cache b <-> a = b) /\ one_line (dbg_cache a) = true.
Proof.
  intros a b A B. split; [|apply list_line, directive_line]. split; [|now intros ->]. intros E.
  apply (list_delim_on _ _ _ directive_delim ltac:(intros []; cbn; discriminate) a b [] []); cbn; auto. now rewrite !app_nil_r.
Qed.

(** ** Bodies and status codes *)
(** The text of a body says how long it is declared to be and how much was read - and nothing of its content or type. *)
Theorem C100_body : forall a b, (dbg_body a = dbg_body b <-> body_len a = body_len b /\ body_read a = body_read b) /\ one_line (dbg_body a) = true.
Proof.
  intros a b. split.
  - unfold dbg_body. split; [|intros [-> ->]; reflexivity]. intros E. field E (option_delim _ _ dec_delim). field E dec_delim. auto.
  - unfold dbg_body. rewrite !one_line_app, dec_line, (option_line _ _ dec_line). reflexivity.
Qed.
Theorem C100_status : forall a b, (dbg_status a = dbg_status b <-> a = b) /\ dbg_status a = status_display a /\ one_line (dbg_status a) = true.
Proof.
  intros a b. split; [|split; [reflexivity|]].
  - split; [|now intros ->]. unfold dbg_status. intros E. apply dec_delim in E as [E _]; [|stops|stops]. revert E. destruct a; destruct b; try reflexivity; discriminate.
  - unfold dbg_status. rewrite !one_line_app, dec_line. destruct a; reflexivity.
Qed.

(** ** Credentials: shown in full *)
Section Rest.
  Context (shown : N -> bool).
  Lemma scheme_delim : delim dbg_scheme.
  Proof. apply word_delim; [intros []; reflexivity|]. intros [] [] E; try reflexivity; discriminate E. Qed.
  Lemma scheme_line : forall s, one_line (dbg_scheme s) = true.
  Proof. intros []; reflexivity. Qed.
  Theorem C100_credentials : forall a b u v,
    (dbg_authorization shown a = dbg_authorization shown b <-> a = b) /\ (dbg_www shown a = dbg_www shown b <-> a = b) /\ (dbg_basic shown u = dbg_basic shown v <-> u = v) /\
    (exists pre post, dbg_authorization shown a = pre ++ dbg_str shown (snd a) ++ post) /\ (exists pre post, dbg_basic shown u = pre ++ dbg_str shown (snd u) ++ post) /\
    one_line (dbg_authorization shown a) = true /\ one_line (dbg_www shown a) = true /\ one_line (dbg_basic shown u) = true.
  Proof.
    intros [sa a] [sb b] [u p] [v q]. cbn [snd]. repeat match goal with |- (_ <-> _) /\ _ => split end; repeat split; try congruence.
    - unfold dbg_authorization. cbn [fst snd]. intros E. field E scheme_delim. field E (str_delim shown). congruence.
    - unfold dbg_www. cbn [fst snd]. intros E. field E scheme_delim. field E (str_delim shown). congruence.
    - unfold dbg_basic. cbn [fst snd]. intros E. field E (str_delim shown). field E (str_delim shown). congruence.
    - exists (lit "Authorization { scheme: " ++ dbg_scheme sa ++ lit ", credentials: "), (lit " }"). unfold dbg_authorization. cbn [fst snd]. now rewrite <- !app_assoc.
    - exists (lit "BasicAuth { username: " ++ dbg_str shown u ++ lit ", password: "), (lit " }"). unfold dbg_basic. cbn [fst snd]. now rewrite <- !app_assoc.
    - unfold dbg_authorization. rewrite !one_line_app, scheme_line, str_line. reflexivity.
    - unfold dbg_www. rewrite !one_line_app, scheme_line, str_line. reflexivity.
    - unfold dbg_basic. rewrite !one_line_app, !str_line. reflexivity.
  Qed.

  (** ** Media types, Forwarded, tracing *)
  Lemma mime_param_delim : delim (dbg_mime_param shown).
  Proof.
    intros [a b] [c d] r r' S S' E. unfold dbg_mime_param in E. cbn [fst snd] in E. field E (str_delim shown). field E (str_delim shown). apply app_inv_head in E. subst. auto.
  Qed.
  Lemma mime_param_line : forall p, one_line (dbg_mime_param shown p) = true.
  Proof. intros p. unfold dbg_mime_param. rewrite !one_line_app, !str_line. reflexivity. Qed.
  Theorem C100_media_type : forall a b, (dbg_mime shown a = dbg_mime shown b <-> a = b) /\ one_line (dbg_mime shown a) = true.
  Proof.
    intros a b. split.
    - split; [|now intros ->]. unfold dbg_mime. intros E. do 3 (field E (str_delim shown)). field E bool_delim.
      field E (list_delim _ _ mime_param_delim ltac:(intros p; cbn; discriminate)). destruct a, b. cbn in *. congruence.
    - unfold dbg_mime. rewrite !one_line_app, !str_line, (list_line _ _ mime_param_line). destruct (is_utf8 a); reflexivity.
  Qed.
  Theorem C100_coding : forall a b, (dbg_coding a = dbg_coding b <-> a = b) /\ one_line (dbg_coding a) = true.
  Proof. intros a b. split; [|destruct a; reflexivity]. split; [|now intros ->]. destruct a; destruct b; try reflexivity; discriminate. Qed.
  Theorem C100_forwarded : forall a b, (dbg_forwarded shown a = dbg_forwarded shown b <-> a = b) /\ one_line (dbg_forwarded shown a) = true.
  Proof.
    intros a b. assert (O := option_delim _ _ (str_delim shown)). split.
    - split; [|now intros ->]. unfold dbg_forwarded. intros E. field E O. field E (list_delim _ _ (str_delim shown) (str_begins shown)). field E O. field E O. destruct a, b. cbn in *. congruence.
    - unfold dbg_forwarded. rewrite !one_line_app, !(option_line _ _ (str_line shown)), (list_line _ _ (str_line shown)). reflexivity.
  Qed.
  Theorem C100_trace_context : forall a b, (dbg_context a = dbg_context b <-> a = b) /\ one_line (dbg_context a) = true.
  Proof.
    intros a b. split.
    - split; [|now intros ->]. unfold dbg_context. intros E. do 3 (field E dec_delim). field E (option_delim _ _ dec_delim). field E dec_delim. destruct a, b. cbn in *. congruence.
    - unfold dbg_context. rewrite !one_line_app, !dec_line, (option_line _ _ dec_line). reflexivity.
  Qed.
  Definition real_metric (m : metric) : Prop := all_some real_duration (m_dur m).
  Lemma metric_delim : delim_on real_metric (dbg_metric shown).
  Proof.
    intros a b r r' P P' S S' E. unfold dbg_metric in E. field E (str_delim shown). rewrite <- ?app_assoc in E. apply app_inv_head in E.
    apply (option_delim_on _ _ _ duration_delim) in E as [? E]; [|exact P|exact P'|stops|stops]. field E (option_delim _ _ (str_delim shown)). apply app_inv_head in E.
    destruct a, b. cbn in *. split; congruence.
  Qed.
  Theorem C100_server_timing : forall a b, Forall real_metric a -> Forall real_metric b -> (dbg_timing shown a = dbg_timing shown b <-> a = b) /\ one_line (dbg_timing shown a) = true.
  Proof.
    intros a b A B. split.
    - split; [|now intros ->]. unfold dbg_timing. intros E. apply app_inv_head in E.
      apply (list_delim_on _ _ _ metric_delim ltac:(intros m; cbn; discriminate)) in E as [E _]; auto; cbn; auto 10.
    - unfold dbg_timing. rewrite !one_line_app, (list_line _ (dbg_metric shown)); [reflexivity|]. intros m. unfold dbg_metric.
      rewrite !one_line_app, str_line, (option_line _ _ duration_line), (option_line _ _ (str_line shown)). reflexivity.
  Qed.
End Rest.

(** The names of the variants are those written in headers, up to letter case and hyphens; [br] is spelt out and Clear-Site-Data has quotes. *)
Theorem C100_names : forall m sc c cl, let plain s := filter (fun c => negb ((c =? 45) || (c =? 34))) (to_lower s) in
  plain (dbg_method m) = plain (method_str m) /\ plain (dbg_scheme sc) = plain (scheme_show sc) /\ plain (dbg_clear cl) = plain (clear_str cl) /\
  plain (dbg_coding c) = (match c with Brotli => lit "brotli" | _ => plain (coding_show c) end).
Proof.
  intros m sc c cl. cbn zeta. split; [destruct m; vm_compute; reflexivity|]. split; [destruct sc; vm_compute; reflexivity|].
  split; [destruct cl; vm_compute; reflexivity|]. destruct c; vm_compute; reflexivity.
Qed.
Print Assumptions C100_names.
(** A directive of Cache-Control likewise: before the parenthesis, the name that stands before the equals sign in the header. *)
Theorem C100_directive_names : forall d, let plain s := filter (fun c => negb (c =? 45)) (to_lower s) in
  plain (fst (splitn2 40 (dbg_directive d))) = plain (fst (splitn2 61 (directive_value d))).
Proof. intros d. cbn zeta. destruct d as [|d|[d|]|d| | | | | | | | |d|d|d]; lazy; reflexivity. Qed.
Print Assumptions C100_directive_names.
(** Structs are printed as std's [debug_struct] does: the name, and between braces each field with its name, in this order. *)
Definition struct_text (name : string) (fields : list (string * str)) : str :=
  lit name ++ lit " { " ++ join (lit ", ") (map (fun f => lit (fst f) ++ lit ": " ++ snd f) fields) ++ lit " }".
Theorem C100_structs : forall shown h b a u w m f c t ts, let text := dbg_str shown in let optional := dbg_option text in
  (dbg_trailers shown h = struct_text "Trailers"%string [("headers"%string, dbg_headers shown h)] /\
   dbg_body b = struct_text "Body"%string [("reader"%string, text (lit "<hidden>")); ("length"%string, dbg_option show_dec (body_len b)); ("bytes_read"%string, show_dec (body_read b))] /\
   dbg_authorization shown a = struct_text "Authorization"%string [("scheme"%string, dbg_scheme (fst a)); ("credentials"%string, text (snd a))] /\
   dbg_basic shown u = struct_text "BasicAuth"%string [("username"%string, text (fst u)); ("password"%string, text (snd u))] /\
   dbg_www shown w = struct_text "WwwAuthenticate"%string [("scheme"%string, dbg_scheme (fst w)); ("realm"%string, text (snd w))] /\
   dbg_mime shown m = struct_text "Mime"%string [("essence"%string, text (essence m)); ("basetype"%string, text (basetype m)); ("subtype"%string, text (subtype m)); ("is_utf8"%string, if is_utf8 m then lit "true" else lit "false");
     ("params"%string, lit "[" ++ join (lit ", ") (map (fun p => lit "(ParamName(" ++ text (fst p) ++ lit "), ParamValue(" ++ text (snd p) ++ lit "))") (params m)) ++ lit "]")] /\
   dbg_forwarded shown f = struct_text "Forwarded"%string [("by"%string, optional (fw_by f)); ("forwarded_for"%string, dbg_list text (fw_for f)); ("host"%string, optional (fw_host f)); ("proto"%string, optional (fw_proto f))] /\
   dbg_context c = struct_text "TraceContext"%string [("id"%string, show_dec (ctx_id c)); ("version"%string, show_dec (ctx_version c)); ("trace_id"%string, show_dec (ctx_trace c));
     ("parent_id"%string, dbg_option show_dec (ctx_parent c)); ("flags"%string, show_dec (ctx_flags c))] /\
   dbg_metric shown t = struct_text "Metric"%string [("name"%string, text (m_name t)); ("dur"%string, dbg_option dbg_duration (m_dur t)); ("desc"%string, optional (m_desc t))] /\
   dbg_timing shown ts = struct_text "ServerTiming"%string [("timings"%string, dbg_list (dbg_metric shown) ts)]).
Proof.
  intros. cbn zeta. unfold struct_text. cbn [map join fst snd].
  repeat match goal with |- _ /\ _ => split end; rewrite <- ?app_assoc; try reflexivity.
  unfold dbg_mime, dbg_list. rewrite <- !app_assoc. reflexivity.
Qed.
Print Assumptions C100_structs.
(** Likewise for the tuple form, of which only entity tags and directives have more than a name. *)
Definition tuple_text (name : string) (field : str) : str := lit name ++ [40] ++ field ++ [41].
Theorem C100_tuples : forall shown e d o,
  dbg_etag shown e = tuple_text (if is_weak e then "Weak" else "Strong")%string (dbg_str shown (match e with Strong s | Weak s => s end)) /\
  dbg_directive (MaxStale o) = tuple_text "MaxStale"%string (dbg_option dbg_duration o) /\
  Forall (fun p => dbg_directive (fst p) = tuple_text (snd p) (dbg_duration d)) [(MaxAge d, "MaxAge"); (MinFresh d, "MinFresh"); (SMaxAge d, "SMaxAge");
    (StaleIfError d, "StaleIfError"); (StaleWhileRevalidate d, "StaleWhileRevalidate")]%string.
Proof. intros shown e d o. split; [destruct e; reflexivity|]. split; [reflexivity|]. repeat constructor. Qed.
Print Assumptions C100_tuples.
(** The wildcard cannot be seen: "every tag" and "no tag" look alike. *)
Theorem C100_wildcard_hidden : forall shown l names cs, dbg_cond shown (l, true) = dbg_cond shown (l, false) /\ dbg_vary shown (names, true) = dbg_vary shown (names, false) /\
  dbg_clear_list (cs, true) = dbg_clear_list (cs, false).
Proof. intros. repeat split. Qed.
(** The printers of headers in HeaderIter.v, written down separately, print the same. *)
Theorem C100_two_models : forall shown h, dbg_headers shown h = headers_debug (dbg_char shown) h.
Proof.
  intros shown h.
  assert (C : forall c, escape_char (dbg_char shown) c = dbg_char shown c).
  { intros c. destruct (c <? 128) eqn:A; [|unfold escape_char; repeat match goal with |- context [?x =? ?y] => destruct (N.eqb_spec x y); [subst; discriminate A|] end; destruct (c <? 32) eqn:B; [lia|]; rewrite A; reflexivity].
    assert (F : forallb (fun n => seqb (escape_char (dbg_char (fun _ => false)) n) (dbg_char (fun _ => false) n)) (map N.of_nat (seq 0 128)) = true) by (vm_compute; reflexivity).
    rewrite forallb_forall in F. specialize (F c). replace (dbg_char shown c) with (dbg_char (fun _ => false) c) by (unfold dbg_char; now rewrite A).
    replace (escape_char (dbg_char shown) c) with (escape_char (dbg_char (fun _ => false)) c) by (unfold escape_char; now rewrite A).
    apply seqb_eq, F. apply in_map_iff. exists (N.to_nat c). split; [lia|]. apply in_seq. lia. }
  assert (V : forall v, value_debug (dbg_char shown) v = dbg_str shown v).
  { intros v. unfold value_debug, dbg_str. cbn [app]. do 2 f_equal. apply flat_map_ext. intros c. apply C. }
  unfold dbg_headers, headers_debug. change (lit "{") with [123]. change (lit "}") with [125]. cbn [app]. do 3 f_equal. apply map_ext. intros [n vs]. cbn [fst snd].
  unfold dbg_name. rewrite V. do 2 f_equal. unfold dbg_values, values_debug, values_display, dbg_list, dbg_value. change (lit "[") with [91]. change (lit "]") with [93].
  rewrite (map_ext _ _ V). destruct vs as [|v [|w vs]]; [reflexivity|symmetry; apply V|reflexivity].
Qed.
Print Assumptions C100_two_models.
Example C100_example :
  let ascii_only := fun _ : N => false in
  dbg_headers ascii_only [(lit "host", [lit "a""b"]); (lit "x", [[10; 127]; lit "y, z"])] = lit "{""host"": ""a\""b"", ""x"": [""\n\u{7f}"", ""y, z""]}" /\
  dbg_values ascii_only [] = lit "[]" /\ show_values ascii_only [lit "a"] = lit "[""a""]" /\
  dbg_body (from_bytes [1; 2; 3]) = lit "Body { reader: ""<hidden>"", length: Some(3), bytes_read: 0 }" /\
  dbg_cond ascii_only ([Weak (lit "x"); Strong []], true) = lit "[Weak(""x""), Strong("""")]" /\
  dbg_cache [NoCache; MaxAge (Dur 60 0); MaxStale None; MaxStale (Some (Dur 1 500000000))] = lit "[NoCache, MaxAge(60s), MaxStale(None), MaxStale(Some(1.5s))]" /\
  dbg_basic ascii_only (lit "u", lit "secret") = lit "BasicAuth { username: ""u"", password: ""secret"" }" /\
  dbg_str ascii_only [233] = lit """\u{e9}""" /\
  dbg_allow [M_Get; M_BaselineControl] = lit "[Get, BaselineControl]" /\ dbg_status S_NotFound = lit "404: Not Found" /\
  dbg_timing ascii_only [Metric (lit "a") (Some (Dur 0 5)) None] = lit "ServerTiming { timings: [Metric { name: ""a"", dur: Some(5ns), desc: None }] }".
Proof. vm_compute. repeat split. Qed.
Print Assumptions C100_text.
Print Assumptions C100_duration.
Print Assumptions C100_header_values.
Print Assumptions C100_headers.
Print Assumptions C100_conditions.
Print Assumptions C100_vary.
Print Assumptions C100_clear_site_data.
Print Assumptions C100_allow.
Print Assumptions C100_cache_control.
Print Assumptions C100_body.
Print Assumptions C100_status.
Print Assumptions C100_credentials.
Print Assumptions C100_media_type.
Print Assumptions C100_coding.
Print Assumptions C100_forwarded.
Print Assumptions C100_trace_context.
Print Assumptions C100_server_timing.
Print Assumptions C100_wildcard_hidden.
