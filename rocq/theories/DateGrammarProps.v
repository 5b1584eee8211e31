(** C05, continued: exactly which texts are read as dates, and which instant each of them is. *)
From Coq Require Import ZifyBool ZifyNat ZifyN Lia.
From Verif Require Import Base BaseFacts Headers HeadersFacts Typed TypedFacts HttpDate HttpDateFacts DateSpec HttpDateText Other OtherProps GrammarProps.
Open Scope N_scope.

(** A number written in [w] characters: digits, of which the first may be a plus sign instead. *)
Definition numeral (w : nat) (t : str) (n : N) : Prop := length t = w /\ dec_text t n.
(** A date text without the blanks around it.  The weekday may be any; nothing but the length is asked of the character between year and time of
    the second form; the day of the third form may start with a blank. *)
Inductive date_core : str -> N -> nat -> N -> N -> N -> N -> Prop :=
| ImfCore wd mo i dt yt ht mt st d y h m s : In wd day_names -> nth_error month_names i = Some mo ->
    numeral 2 dt d -> numeral 4 yt y -> numeral 2 ht h -> numeral 2 mt m -> numeral 2 st s ->
    date_core (wd ++ lit ", " ++ dt ++ lit " " ++ mo ++ lit " " ++ yt ++ lit " " ++ ht ++ lit ":" ++ mt ++ lit ":" ++ st ++ lit " GMT") y i d h m s
| Rfc850Core wd mo i dt yt x ht mt st d y h m s : In wd long_day_names -> nth_error month_names i = Some mo ->
    numeral 2 dt d -> numeral 2 yt y -> numeral 2 ht h -> numeral 2 mt m -> numeral 2 st s ->
    date_core (wd ++ lit ", " ++ dt ++ lit "-" ++ mo ++ lit "-" ++ yt ++ [x] ++ ht ++ lit ":" ++ mt ++ lit ":" ++ st ++ lit " GMT")
      (if y <? 70 then y + 2000 else y + 1900) i d h m s
| AsctimeCore wd mo i dt yt ht mt st d y h m s : In wd day_names -> nth_error month_names i = Some mo ->
    (numeral 2 dt d \/ exists c, dt = [32; c] /\ numeral 1 [c] d) -> numeral 4 yt y -> numeral 2 ht h -> numeral 2 mt m -> numeral 2 st s ->
    date_core (wd ++ lit " " ++ mo ++ lit " " ++ dt ++ lit " " ++ ht ++ lit ":" ++ mt ++ lit ":" ++ st ++ lit " " ++ yt) y i d h m s.

Lemma dec_value_bound : forall ds, Forall (fun c => 48 <= c <= 57) ds -> dec_value ds < 10 ^ N.of_nat (length ds).
Proof.
  intros ds. unfold dec_value.
  assert (K : forall a, Forall (fun c => 48 <= c <= 57) ds -> fold_left (fun a c => a * 10 + (c - 48)) ds a < (a + 1) * 10 ^ N.of_nat (length ds)).
  { induction ds as [|c ds IH]; intros a F; [cbn; lia|]. inversion F as [|? ? C F']; subst. cbn [fold_left length]. eapply N.lt_le_trans; [apply IH, F'|].
    rewrite Nat2N.inj_succ, N.pow_succ_r'. set (p := 10 ^ _). nia. }
  intros F. specialize (K 0 F). lia.
Qed.
Lemma numeral_bound : forall w t n, numeral w t n -> n < 10 ^ N.of_nat w.
Proof.
  intros w t n (<- & ds & E & _ & F & ->). eapply N.lt_le_trans; [apply dec_value_bound, F|]. apply N.pow_le_mono_r; [lia|]. destruct E as [->| ->]; cbn [length]; lia.
Qed.
Lemma numeral_read : forall w max t n, numeral w t n -> 10 ^ N.of_nat w <= max + 1 -> parse_uint 10 max t = Some n.
Proof. intros w max t n H B. apply parse_dec_spec. assert (K := numeral_bound _ _ _ H). destruct H as (_ & H). split; [exact H|lia]. Qed.
Lemma read_numeral : forall max t n, parse_uint 10 max t = Some n -> numeral (length t) t n.
Proof. intros max t n H. apply parse_dec_spec in H as (H & _). split; [reflexivity|exact H]. Qed.

Lemma lookup_in : forall t k v, lookup_str t k = Some v -> In (k, v) t.
Proof.
  induction t as [|[k' v'] t IH]; intros k v; cbn [lookup_str]; [discriminate|]. destruct (seqb_spec k k') as [->|_]; intros H; [inv H; now left|right; auto].
Qed.
Lemma imf_day : forall k w, lookup_str imf_days k = Some w -> exists wd, In wd day_names /\ k = wd ++ lit ", ".
Proof. intros k w H. apply lookup_in in H. cbn [In imf_days] in H. decompose [or] H; try contradiction; match goal with E : (_, _) = (_, _) |- _ => injection E as <- <- end; first [now exists (lit "Mon"); split; [cbn; tauto|]|now exists (lit "Tue"); split; [cbn; tauto|]|now exists (lit "Wed"); split; [cbn; tauto|]|now exists (lit "Thu"); split; [cbn; tauto|]|now exists (lit "Fri"); split; [cbn; tauto|]|now exists (lit "Sat"); split; [cbn; tauto|]|now exists (lit "Sun"); split; [cbn; tauto|]]. Qed.
Lemma asc_day : forall k w, lookup_str asctime_days k = Some w -> exists wd, In wd day_names /\ k = wd ++ lit " ".
Proof. intros k w H. apply lookup_in in H. cbn [In asctime_days] in H. decompose [or] H; try contradiction; match goal with E : (_, _) = (_, _) |- _ => injection E as <- <- end; first [now exists (lit "Mon"); split; [cbn; tauto|]|now exists (lit "Tue"); split; [cbn; tauto|]|now exists (lit "Wed"); split; [cbn; tauto|]|now exists (lit "Thu"); split; [cbn; tauto|]|now exists (lit "Fri"); split; [cbn; tauto|]|now exists (lit "Sat"); split; [cbn; tauto|]|now exists (lit "Sun"); split; [cbn; tauto|]]. Qed.
Ltac month i := exists i; eexists; split; [reflexivity|split; reflexivity].
Lemma imf_month : forall k m, lookup_str imf_months k = Some m -> exists i mo, nth_error month_names i = Some mo /\ k = lit " " ++ mo ++ lit " " /\ m = N.of_nat i + 1.
Proof.
  intros k m H. apply lookup_in in H. cbn [In imf_months] in H. decompose [or] H; try contradiction; match goal with E : (_, _) = (_, _) |- _ => injection E as <- <- end;
    [month 0%nat|month 1%nat|month 2%nat|month 3%nat|month 4%nat|month 5%nat|month 6%nat|month 7%nat|month 8%nat|month 9%nat|month 10%nat|month 11%nat].
Qed.
Lemma rfc_month : forall k m, lookup_str rfc850_months k = Some m -> exists i mo, nth_error month_names i = Some mo /\ k = lit "-" ++ mo ++ lit "-" /\ m = N.of_nat i + 1.
Proof.
  intros k m H. apply lookup_in in H. cbn [In rfc850_months] in H. decompose [or] H; try contradiction; match goal with E : (_, _) = (_, _) |- _ => injection E as <- <- end;
    [month 0%nat|month 1%nat|month 2%nat|month 3%nat|month 4%nat|month 5%nat|month 6%nat|month 7%nat|month 8%nat|month 9%nat|month 10%nat|month 11%nat].
Qed.
Lemma asc_month : forall k m, lookup_str asctime_months k = Some m -> exists i mo, nth_error month_names i = Some mo /\ k = mo ++ lit " " /\ m = N.of_nat i + 1.
Proof.
  intros k m H. apply lookup_in in H. cbn [In asctime_months] in H. decompose [or] H; try contradiction; match goal with E : (_, _) = (_, _) |- _ => injection E as <- <- end;
    [month 0%nat|month 1%nat|month 2%nat|month 3%nat|month 4%nat|month 5%nat|month 6%nat|month 7%nat|month 8%nat|month 9%nat|month 10%nat|month 11%nat].
Qed.
(** The other way round, all tables at once. *)
Lemma month_entry : forall i mo, nth_error month_names i = Some mo ->
  lookup_str imf_months (lit " " ++ mo ++ lit " ") = Some (N.of_nat i + 1) /\ lookup_str rfc850_months (lit "-" ++ mo ++ lit "-") = Some (N.of_nat i + 1) /\
  lookup_str asctime_months (mo ++ lit " ") = Some (N.of_nat i + 1) /\ (i < 12)%nat /\ exists a b c, mo = [a; b; c].
Proof.
  intros i mo H. do 12 (destruct i as [|i]; [injection H as <-; vm_compute; repeat split; try lia; eauto|]). destruct i; discriminate H.
Qed.
Lemma day_entry : forall wd, In wd day_names -> exists w a b c, lookup_str imf_days (wd ++ lit ", ") = Some w /\ lookup_str asctime_days (wd ++ lit " ") = Some w /\
  1 <= w <= 7 /\ wd = [a; b; c].
Proof. intros wd H. cbn [In day_names] in H. decompose [or] H; try contradiction; subst wd; eexists _, _, _, _; vm_compute; repeat split; try reflexivity; discriminate. Qed.

Ltac two L := match type of L with numeral _ ?t _ => let Q := fresh in assert (Q := proj1 L); repeat (destruct t as [|? t]; [discriminate Q|]); destruct t as [|? t]; [clear Q|try discriminate Q] end.
(** Cut a text of known length into its characters. *)
Ltac chars s L := repeat (destruct s as [|? s]; [discriminate L|]); destruct s as [|? s]; [clear L|discriminate L].

(** What one form is read as: the fields, with some weekday number from 1 to 7. *)
Ltac fields H := repeat match type of H with bind (ok_or _ ?o) _ = _ => let E := fresh "E" in destruct o eqn:E; cbn [ok_or bind] in H; [|discriminate H] end; injection H as <-; cbn [second minute hour day month year week_day].
Ltac nums := repeat match goal with E : parse_uint _ _ _ = Some _ |- _ => apply read_numeral in E; cbn [length] in E end.
Lemma imf_shape : forall x D, parse_imf_fixdate x = Ok D ->
  exists i, month D = N.of_nat i + 1 /\ 1 <= week_day D <= 7 /\ date_core x (year D) i (day D) (hour D) (minute D) (second D).
Proof.
  intros x D H. destruct (Nat.eq_dec (length x) 29) as [L|L]; [|rewrite (imf_wrong_length _ L) in H; discriminate].
  chars x L. unfold parse_imf_fixdate, num_at, neq_slice, neq_byte, byte_at, slice, or_else_cond, IMF_FIXDATE_LENGTH in H.
  cbn -[parse_uint lookup_str seqb lit N.eqb imf_days imf_months u8_max u16_max] in H.
  repeat match type of H with context [seqb ?a ?b] => destruct (seqb_spec a b) as [G|]; [|discriminate H] end.
  repeat match type of H with context [?a =? ?b] => destruct (N.eqb_spec a b) as [->|]; [|discriminate H]; cbn -[parse_uint lookup_str lit imf_days imf_months u8_max u16_max] in H end.
  fields H. nums.
  match goal with E : lookup_str imf_months _ = _ |- _ => destruct (imf_month _ _ E) as (i & mo & Mi & Mt & ->) end.
  match goal with E : lookup_str imf_days _ = _ |- _ => destruct (imf_day _ _ E) as (wd & Wi & Wt); rewrite Wt in E end.
  destruct (month_entry _ _ Mi) as (_ & _ & _ & _ & a & b & c & ->). destruct (day_entry _ Wi) as (w & a' & b' & c' & Wl & _ & Wb & ->).
  exists i. split; [reflexivity|]. split; [congruence|]. injection Mt as -> -> -> -> ->. injection Wt as -> -> -> -> ->. injection G as -> -> -> ->.
  eapply (ImfCore [a'; b'; c'] [a; b; c] i [_; _] [_; _; _; _] [_; _] [_; _] [_; _]); eassumption.
Qed.
Lemma imf_reads : forall wd mo i dt yt ht mt st d y h m s, In wd day_names -> nth_error month_names i = Some mo ->
  numeral 2 dt d -> numeral 4 yt y -> numeral 2 ht h -> numeral 2 mt m -> numeral 2 st s ->
  exists w, 1 <= w <= 7 /\ parse_imf_fixdate (wd ++ lit ", " ++ dt ++ lit " " ++ mo ++ lit " " ++ yt ++ lit " " ++ ht ++ lit ":" ++ mt ++ lit ":" ++ st ++ lit " GMT")
    = Ok (mkDate s m h d (N.of_nat i + 1) y w).
Proof.
  intros wd mo i dt yt ht mt st d y h m s W M Hd Hy Hh Hm Hs.
  destruct (month_entry _ _ M) as (Ml & _ & _ & _ & a & b & c & ->). destruct (day_entry _ W) as (w & a' & b' & c' & Wl & _ & Wb & ->).
  exists w. split; [exact Wb|]. assert (Rd := numeral_read _ u8_max _ _ Hd ltac:(vm_compute; discriminate)). assert (Ry := numeral_read _ u16_max _ _ Hy ltac:(vm_compute; discriminate)).
  assert (Rh := numeral_read _ u8_max _ _ Hh ltac:(vm_compute; discriminate)). assert (Rm := numeral_read _ u8_max _ _ Hm ltac:(vm_compute; discriminate)).
  assert (Rs := numeral_read _ u8_max _ _ Hs ltac:(vm_compute; discriminate)).
  two Hd. two Hy. two Hh. two Hm. two Hs. cbn [app] in Ml, Wl |- *. change (lit " GMT") with [32; 71; 77; 84]. change (lit ", ") with [44; 32] in *. change (lit " ") with [32] in *. change (lit ":") with [58] in *. cbn [app] in Ml, Wl |- *.
  unfold parse_imf_fixdate, num_at, neq_slice, neq_byte, byte_at, slice, or_else_cond, IMF_FIXDATE_LENGTH.
  cbn -[parse_uint lookup_str imf_days imf_months u8_max u16_max]. rewrite Rd, Ry, Rh, Rm, Rs, Ml, Wl. reflexivity.
Qed.
Lemma asc_wrong_length : forall x, length x <> 24%nat -> parse_asctime x = Err 500.
Proof. intros x L. unfold parse_asctime, ASCTIME_LENGTH. apply Nat.eqb_neq in L. rewrite L. reflexivity. Qed.
Lemma asc_shape : forall x D, parse_asctime x = Ok D ->
  exists i, month D = N.of_nat i + 1 /\ 1 <= week_day D <= 7 /\ date_core x (year D) i (day D) (hour D) (minute D) (second D).
Proof.
  intros x D H. destruct (Nat.eq_dec (length x) 24) as [L|L]; [|rewrite (asc_wrong_length _ L) in H; discriminate].
  chars x L. unfold parse_asctime, num_at, neq_slice, neq_byte, byte_at, slice, or_else_cond, ASCTIME_LENGTH in H.
  cbn -[parse_uint lookup_str seqb lit N.eqb asctime_days asctime_months u8_max u16_max negb] in H.
  repeat (match type of H with context [negb (?a =? ?b)] => destruct (N.eqb_spec a b) as [->|]; [|discriminate H] end; cbn [negb bind] in H).
  do 3 (match type of H with bind (ok_or _ ?o) _ = _ => let E := fresh "E" in destruct o eqn:E; cbn [ok_or bind] in H; [|discriminate H] end).
  match type of H with bind ?X _ = _ => match X with if ?a =? 32 then Ok ?b else Ok ?c => assert (K : X = Ok (if a =? 32 then b else c)) by (destruct (a =? 32); reflexivity); rewrite K in H; clear K; set (dx := if a =? 32 then b else c) in *; set (dt := c) end end.
  cbn [bind] in H. fields H.
  match goal with E : parse_uint 10 u8_max dx = Some ?d |- _ => assert (Kd : numeral 2 dt d \/ exists c, dt = [32; c] /\ numeral 1 [c] d) end.
  { match goal with E : parse_uint 10 u8_max dx = Some ?d |- _ => apply read_numeral in E; subst dx; revert E end. subst dt. clear.
    match goal with |- context [?a =? 32] => destruct (N.eqb_spec a 32) as [->|] end; cbn [length]; intros E; [right; eauto|now left]. }
  match goal with E : parse_uint 10 u8_max dx = _ |- _ => clear E end. clear dx. nums.
  match goal with E : lookup_str asctime_months _ = _ |- _ => destruct (asc_month _ _ E) as (i & mo & Mi & Mt & ->) end.
  match goal with E : lookup_str asctime_days _ = _ |- _ => destruct (asc_day _ _ E) as (wd & Wi & Wt); rewrite Wt in E end.
  destruct (month_entry _ _ Mi) as (_ & _ & _ & _ & a & b & c & ->). destruct (day_entry _ Wi) as (w & a' & b' & c' & _ & Wl & Wb & ->).
  exists i. split; [reflexivity|]. split; [congruence|]. injection Mt as -> -> -> ->. injection Wt as -> -> -> ->.
  eapply (AsctimeCore [a'; b'; c'] [a; b; c] i [_; _] [_; _; _; _] [_; _] [_; _] [_; _]); eassumption.
Qed.
Lemma asc_reads : forall wd mo i dt yt ht mt st d y h m s, In wd day_names -> nth_error month_names i = Some mo ->
  (numeral 2 dt d \/ exists c, dt = [32; c] /\ numeral 1 [c] d) -> numeral 4 yt y -> numeral 2 ht h -> numeral 2 mt m -> numeral 2 st s ->
  exists w, 1 <= w <= 7 /\ parse_asctime (wd ++ lit " " ++ mo ++ lit " " ++ dt ++ lit " " ++ ht ++ lit ":" ++ mt ++ lit ":" ++ st ++ lit " " ++ yt)
    = Ok (mkDate s m h d (N.of_nat i + 1) y w).
Proof.
  intros wd mo i dt yt ht mt st d y h m s W M Hd Hy Hh Hm Hs.
  destruct (month_entry _ _ M) as (_ & _ & Ml & _ & a & b & c & ->). destruct (day_entry _ W) as (w & a' & b' & c' & _ & Wl & Wb & ->).
  exists w. split; [exact Wb|]. assert (Ry := numeral_read _ u16_max _ _ Hy ltac:(vm_compute; discriminate)).
  assert (Rh := numeral_read _ u8_max _ _ Hh ltac:(vm_compute; discriminate)). assert (Rm := numeral_read _ u8_max _ _ Hm ltac:(vm_compute; discriminate)).
  assert (Rs := numeral_read _ u8_max _ _ Hs ltac:(vm_compute; discriminate)).
  assert (Rd : exists e f, dt = [e; f] /\ parse_uint 10 u8_max (if e =? 32 then [f] else [e; f]) = Some d).
  { destruct Hd as [Hd|(f & -> & Hd)].
    - assert (R := numeral_read _ u8_max _ _ Hd ltac:(vm_compute; discriminate)). two Hd. do 2 eexists. split; [reflexivity|].
      match goal with |- context [?e =? 32] => destruct (N.eqb_spec e 32) as [->|] end; [|exact R]. exfalso. clear - R.
      apply parse_dec_spec in R as ((ds & [E|E] & _ & F & _) & _); [subst ds; inversion F; subst; lia|discriminate E].
    - exists 32, f. split; [reflexivity|]. apply (numeral_read 1); [exact Hd|vm_compute; discriminate]. }
  destruct Rd as (e & f & -> & Rd). clear Hd.
  two Hy. two Hh. two Hm. two Hs. cbn [app] in Ml, Wl |- *. change (lit " ") with [32] in *. change (lit ":") with [58] in *. cbn [app] in Ml, Wl |- *.
  unfold parse_asctime, num_at, neq_slice, neq_byte, byte_at, slice, or_else_cond, ASCTIME_LENGTH.
  cbn -[parse_uint lookup_str asctime_days asctime_months u8_max u16_max N.eqb]. change (negb (32 =? 32)) with false. change (negb (58 =? 58)) with false. cbn [bind].
  rewrite Rh, Rm, Rs. cbn [ok_or bind].
  destruct (e =? 32); cbn [bind]; rewrite Rd, Ml, Ry, Wl; reflexivity.
Qed.
(** The second form: first the weekday. *)
Lemma chain_shape : forall x w r, rfc850_chain x rfc850_days = Ok (w, r) -> 1 <= w <= 7 /\ exists wd, In wd long_day_names /\ x = wd ++ lit ", " ++ r.
Proof.
  assert (G : forall t x w r, rfc850_chain x t = Ok (w, r) -> exists nm, In (nm, w) t /\ x = nm ++ r).
  { induction t as [|[nm w'] t IH]; intros x w r; cbn [rfc850_chain]; [discriminate|]. unfold rfc850_week_day, slice_from, slice. cbn [Nat.leb andb].
    destruct (Nat.leb_spec (length nm) (length x)) as [L|L]; cbn [bind]; [|discriminate]. rewrite Nat.sub_0_r. cbn [skipn].
    destruct (seqb_spec (firstn (length nm) x) nm) as [E|_]; cbn [bind].
    - rewrite Nat.leb_refl. cbn [andb bind]. intros H. injection H as <- <-. exists nm. split; [now left|].
      rewrite firstn_all2 by (rewrite skipn_length; lia). rewrite <- E at 1. symmetry. apply firstn_skipn.
    - intros H. destruct (IH _ _ _ H) as (n' & I & ->). exists n'. split; [now right|reflexivity]. }
  intros x w r H. destruct (G _ _ _ _ H) as (nm & I & ->). cbn [In rfc850_days] in I.
  decompose [or] I; try contradiction; match goal with E : (_, _) = (_, _) |- _ => injection E as <- <- end; (split; [lia|]);
    first [now exists (lit "Monday"); split; [cbn; tauto|]|now exists (lit "Tuesday"); split; [cbn; tauto|]|now exists (lit "Wednesday"); split; [cbn; tauto|]
          |now exists (lit "Thursday"); split; [cbn; tauto|]|now exists (lit "Friday"); split; [cbn; tauto|]|now exists (lit "Saturday"); split; [cbn; tauto|]|now exists (lit "Sunday"); split; [cbn; tauto|]].
Qed.
Lemma chain_reads : forall wd r, In wd long_day_names -> length r = 22%nat -> exists w, 1 <= w <= 7 /\ rfc850_chain (wd ++ lit ", " ++ r) rfc850_days = Ok (w, r) /\
  (30 <= length (wd ++ lit ", " ++ r))%nat.
Proof.
  intros wd r I L. rewrite !app_length, L. chars r L. cbn [In long_day_names] in I.
  decompose [or] I; try contradiction; subst wd; eexists; (split; [|split; [reflexivity|cbn; lia]]); lia.
Qed.
Lemma rfc_shape : forall x D, parse_rfc850_date x = Ok D ->
  (30 <= length x)%nat /\ exists i, month D = N.of_nat i + 1 /\ 1 <= week_day D <= 7 /\ date_core x (year D) i (day D) (hour D) (minute D) (second D).
Proof.
  intros x D H. unfold parse_rfc850_date in H. destruct (negb _); [discriminate|].
  destruct (rfc850_chain x rfc850_days) as [[w r]| |] eqn:C; cbn [bind] in H; try discriminate H.
  destruct (chain_shape _ _ _ C) as (Wb & wd & Wi & ->). destruct (Nat.eq_dec (length r) 22) as [L|L]; [|apply Nat.eqb_neq in L; rewrite L in H; discriminate H].
  split. { destruct (chain_reads _ _ Wi L) as (_ & _ & _ & B). exact B. }
  clear C. chars r L. unfold num_at, neq_slice, neq_byte, byte_at, slice, or_else_cond in H.
  cbn -[parse_uint lookup_str seqb lit N.eqb rfc850_months u8_max u16_max negb N.ltb N.add] in H. cbn [negb bind] in H.
  repeat (match type of H with context [negb (?a =? ?b)] => destruct (N.eqb_spec a b) as [->|]; [|discriminate H] end; cbn [negb bind] in H).
  match type of H with context [seqb ?a ?b] => destruct (seqb_spec a b) as [G|]; [|discriminate H] end. cbn [negb bind] in H.
  fields H. nums.
  match goal with E : lookup_str rfc850_months _ = _ |- _ => destruct (rfc_month _ _ E) as (i & mo & Mi & Mt & ->) end.
  destruct (month_entry _ _ Mi) as (_ & _ & _ & _ & a & b & c & ->).
  exists i. split; [reflexivity|]. split; [exact Wb|]. injection Mt as -> -> -> -> ->. injection G as -> -> -> ->.
  eapply (Rfc850Core wd [a; b; c] i [_; _] [_; _] _ [_; _] [_; _] [_; _]); eassumption.
Qed.
Lemma rfc_reads : forall wd mo i dt yt x ht mt st d y h m s, In wd long_day_names -> nth_error month_names i = Some mo ->
  numeral 2 dt d -> numeral 2 yt y -> numeral 2 ht h -> numeral 2 mt m -> numeral 2 st s ->
  let t := wd ++ lit ", " ++ dt ++ lit "-" ++ mo ++ lit "-" ++ yt ++ [x] ++ ht ++ lit ":" ++ mt ++ lit ":" ++ st ++ lit " GMT" in
  (30 <= length t)%nat /\ exists w, 1 <= w <= 7 /\ parse_rfc850_date t = Ok (mkDate s m h d (N.of_nat i + 1) (if y <? 70 then y + 2000 else y + 1900) w).
Proof.
  intros wd mo i dt yt x ht mt st d y h m s W M Hd Hy Hh Hm Hs.
  destruct (month_entry _ _ M) as (_ & Ml & _ & _ & a & b & c & ->).
  assert (Ry := numeral_read _ u16_max _ _ Hy ltac:(vm_compute; discriminate)). assert (Rd := numeral_read _ u8_max _ _ Hd ltac:(vm_compute; discriminate)).
  assert (Rh := numeral_read _ u8_max _ _ Hh ltac:(vm_compute; discriminate)). assert (Rm := numeral_read _ u8_max _ _ Hm ltac:(vm_compute; discriminate)).
  assert (Rs := numeral_read _ u8_max _ _ Hs ltac:(vm_compute; discriminate)).
  two Hd. two Hy. two Hh. two Hm. two Hs. change (lit "-") with [45] in *. cbn [app] in Ml.
  intros t.
  match goal with t := wd ++ lit ", " ++ ?r |- _ => destruct (chain_reads wd r W eq_refl) as (w & Wb & C & B); change (wd ++ lit ", " ++ r) with t in C, B end.
  split; [exact B|]. exists w. split; [exact Wb|]. unfold parse_rfc850_date, RFC850_MAX_LENGTH.
  replace (23 <=? length t)%nat with true by (symmetry; apply Nat.leb_le; lia). cbn [negb]. rewrite C. cbn [bind]. clear C B.
  change (lit ":") with [58] in *. change (lit " GMT") with [32; 71; 77; 84]. cbn [app].
  unfold num_at, neq_slice, neq_byte, byte_at, slice, or_else_cond.
  cbn -[parse_uint lookup_str rfc850_months u8_max u16_max N.ltb N.add]. rewrite Ry, Rh, Rm, Rs, Rd, Ml. reflexivity.
Qed.

Lemma any_form : forall x D, or_else (or_else (parse_imf_fixdate x) (parse_rfc850_date x)) (parse_asctime x) = Ok D ->
  exists i, month D = N.of_nat i + 1 /\ 1 <= week_day D <= 7 /\ date_core x (year D) i (day D) (hour D) (minute D) (second D).
Proof.
  intros x D H. destruct (parse_imf_fixdate x) eqn:E1; cbn [or_else] in H; [inv H; now apply imf_shape| |discriminate].
  destruct (parse_rfc850_date x) eqn:E2; cbn [or_else] in H; [inv H; now apply rfc_shape| |discriminate]. now apply asc_shape.
Qed.
Lemma form_any : forall x y i d h m s, date_core x y i d h m s ->
  exists w, 1 <= w <= 7 /\ or_else (or_else (parse_imf_fixdate x) (parse_rfc850_date x)) (parse_asctime x) = Ok (mkDate s m h d (N.of_nat i + 1) y w).
Proof.
  intros x y i d h m s [wd mo i' dt yt ht mt st d' y' h' m' s' W M Hd Hy Hh Hm Hs|wd mo i' dt yt c ht mt st d' y' h' m' s' W M Hd Hy Hh Hm Hs|wd mo i' dt yt ht mt st d' y' h' m' s' W M Hd Hy Hh Hm Hs].
  - destruct (imf_reads _ _ _ _ _ _ _ _ _ _ _ _ _ W M Hd Hy Hh Hm Hs) as (w & B & ->). exists w. split; [exact B|reflexivity].
  - destruct (rfc_reads _ _ _ _ _ c _ _ _ _ _ _ _ _ W M Hd Hy Hh Hm Hs) as (L & w & B & E). cbv zeta in *. set (t := wd ++ _) in *. exists w. split; [exact B|].
    rewrite imf_wrong_length by lia. rewrite E. reflexivity.
  - destruct (asc_reads _ _ _ _ _ _ _ _ _ _ _ _ _ W M Hd Hy Hh Hm Hs) as (w & B & E). exists w. split; [exact B|].
    match type of E with parse_asctime ?t = _ => assert (L : length t = 24%nat) by (destruct (Nat.eq_dec (length t) 24) as [K|K]; [exact K|rewrite (asc_wrong_length _ K) in E; discriminate E]) end.
    rewrite imf_wrong_length by lia. cbn [or_else]. match type of E with parse_asctime ?t = _ => destruct (parse_rfc850_date t) eqn:R end; cbn [or_else]; [|exact E|].
    + apply rfc_shape in R as (K & _). lia.
    + exfalso. revert R. apply rfc850_np.
Qed.

(** A text is read as a date exactly when, blanks around it aside, it is one of the three forms in ASCII characters with a day from 1 to 31, a possible time of day and
    a year from 1970 to 9999.  It is then the instant so many days after the first day of its month, at its time of day: the weekday name is not checked against the
    date, and the 31st of February is the 3rd or 2nd of March. *)
Theorem C05_accepted_iff : forall s t, parse_http_date s = Ok t <->
  is_ascii s = true /\ exists core y mo d h mi se n, around s core /\ date_core core y mo d h mi se /\
    1970 <= y <= 9999 /\ 1 <= d <= 31 /\ h < 24 /\ mi < 60 /\ se < 60 /\
    c_year (day_at n) = Z.of_N y /\ c_month (day_at n) = (Z.of_nat mo + 1)%Z /\ c_day (day_at n) = 1%Z /\
    t = ((Z.of_nat n + (Z.of_N d - 1)) * 86400 * 1000000000 + (Z.of_N h * 3600 + Z.of_N mi * 60 + Z.of_N se) * 1000000000)%Z.
Proof.
  assert (V : forall y i d, 1970 <= y <= 9999 -> (i < 12)%nat -> exists n, c_year (day_at n) = Z.of_N y /\ c_month (day_at n) = (Z.of_nat i + 1)%Z /\ c_day (day_at n) = 1%Z /\
    day_number (Z.of_N y) (Z.of_nat i + 1) (Z.of_N d) = (Z.of_nat n + (Z.of_N d - 1))%Z).
  { intros y i d By Bi. assert (R : real_date (Z.of_N y) (Z.of_nat i + 1) 1). { split; [lia|]. pose proof (month_len_bounds (Z.of_N y) (Z.of_nat i + 1)). lia. }
    destruct (day_number_real (Z.of_N y) (Z.of_nat i + 1) 1 ltac:(lia) R) as (P & Q). cbv zeta in Q. exists (Z.to_nat (day_number (Z.of_N y) (Z.of_nat i + 1) 1)).
    destruct Q as (Q1 & Q2 & Q3). split; [exact Q1|]. split; [exact Q2|]. split; [exact Q3|]. rewrite Z2Nat.id by exact P. unfold day_number. lia. }
  assert (I : forall c y i d h m s, date_core c y i d h m s -> (i < 12)%nat).
  { intros c y i d h m s K. destruct K; match goal with M : nth_error month_names _ = Some _ |- _ => apply month_entry in M; tauto end. }
  intros s t. unfold parse_http_date, date_from_str. split.
  - destruct (is_ascii s) eqn:A; cbn [negb]; [|discriminate]. destruct (or_else _ _) as [D| |] eqn:E; cbn [bind]; try discriminate.
    destruct (is_valid D) eqn:Vd; cbn [bind]; [|discriminate]. rewrite systime_of_date_ok by exact Vd. cbn [with_status]. intros H. injection H as <-. split; [reflexivity|].
    destruct (any_form _ _ E) as (i & Mi & Wb & K). unfold is_valid in Vd. repeat (apply andb_true_iff in Vd; destruct Vd as [Vd ?]).
    destruct (V (year D) i (day D) ltac:(lia) (I _ _ _ _ _ _ _ K)) as (n & N1 & N2 & N3 & N4).
    exists (trim s), (year D), i, (day D), (hour D), (minute D), (second D), n. split; [now apply around_trim|]. split; [exact K|].
    repeat (split; [lia|]). rewrite Mi. replace (Z.of_N (N.of_nat i + 1)) with (Z.of_nat i + 1)%Z by lia. rewrite N4. unfold NANOS. lia.
  - intros (A & core & y & i & d & h & mi & se & n & Ar & K & By & Bd & Bh & Bm & Bs & N1 & N2 & N3 & ->). rewrite A. cbn [negb].
    apply around_trim in Ar. subst core. destruct (form_any _ _ _ _ _ _ _ K) as (w & Wb & ->). cbn [bind]. assert (Ib := I _ _ _ _ _ _ _ K).
    assert (Vd : is_valid (mkDate se mi h d (N.of_nat i + 1) y w) = true) by (unfold is_valid; cbn [second minute hour day month year week_day]; lia).
    rewrite Vd. cbn [bind]. rewrite systime_of_date_ok by exact Vd. cbn [second minute hour day month year week_day with_status].
    destruct (V y i d By Ib) as (n' & M1 & M2 & M3 & M4). assert (Q : day_number (Z.of_N y) (Z.of_nat i + 1) 1 = Z.of_nat n) by (rewrite <- N1, <- N2, <- N3; apply day_number_day_at).
    assert (Q' : day_number (Z.of_N y) (Z.of_nat i + 1) 1 = Z.of_nat n') by (rewrite <- M1, <- M2, <- M3; apply day_number_day_at).
    replace (Z.of_N (N.of_nat i + 1)) with (Z.of_nat i + 1)%Z by lia. rewrite M4. f_equal. unfold NANOS. lia.
Qed.
(** Non-trivial: blanks outside; a wrong weekday, signs in place of leading digits and a letter between date and time are let through; a short day without its blank is not. *)
Example C05_accepted_ex : parse_http_date (lit " Sun, 06 Nov 1994 08:49:37 GMT ") = Ok (784111777 * 1000000000)%Z /\
  parse_http_date (lit "Friday, +6-Nov-94x08:49:37 GMT") = Ok (784111777 * 1000000000)%Z /\ parse_http_date (lit "Sun Nov  6 08:49:37 1994") = Ok (784111777 * 1000000000)%Z /\
  parse_http_date (lit "Sun, 31 Feb 1995 00:00:00 GMT") = parse_http_date (lit "Fri, 03 Mar 1995 00:00:00 GMT") /\
  parse_http_date (lit "Sun,  6 Nov 1994 08:49:37 GMT") = Err 400 /\ parse_http_date (lit "Sun, 06 Nov 1994 24:00:00 GMT") = Err 400.
Proof. vm_compute. repeat split. Qed.
Print Assumptions C05_accepted_iff.
