(** UTF-8: [String::into_bytes] and [std::str::from_utf8].  std, not the crate. *)
From Verif Require Import Base BaseFacts.
From Coq Require Import ZifyBool ZifyNat ZifyN.

(** [char::encode_utf8] *)
Definition utf8_char (c : N) : list N :=
  if c <? 128 then [c]
  else if c <? 2048 then [192 + c / 64; 128 + c mod 64]
  else if c <? 65536 then [224 + c / 4096; 128 + c / 64 mod 64; 128 + c mod 64]
  else [240 + c / 262144; 128 + c / 4096 mod 64; 128 + c / 64 mod 64; 128 + c mod 64].

(** [str::as_bytes] *)
Definition utf8_encode (s : str) : list N := flat_map utf8_char s.

(** A continuation byte. *)
Definition is_cont (b : N) : bool := (128 <=? b) && (b <=? 191).

(** [std::str::from_utf8]: the table of well-formed byte sequences in std's documentation (no
    overlong forms, no surrogates, nothing above U+10FFFF). *)
Fixpoint utf8_decode (bs : list N) : option str :=
  match bs with
  | [] => Some []
  | b0 :: t0 =>
      if b0 <? 128 then option_map (cons b0) (utf8_decode t0)
      else match t0 with
      | [] => None
      | b1 :: t1 =>
          if (194 <=? b0) && (b0 <=? 223) then
            if is_cont b1 then option_map (cons ((b0 - 192) * 64 + (b1 - 128))) (utf8_decode t1) else None
          else match t1 with
          | [] => None
          | b2 :: t2 =>
              if (224 <=? b0) && (b0 <=? 239) then
                if is_cont b1 && is_cont b2
                   && ((negb (b0 =? 224)) || (160 <=? b1)) && ((negb (b0 =? 237)) || (b1 <=? 159))
                then option_map (cons ((b0 - 224) * 4096 + (b1 - 128) * 64 + (b2 - 128))) (utf8_decode t2)
                else None
              else match t2 with
              | [] => None
              | b3 :: t3 =>
                  if (240 <=? b0) && (b0 <=? 244) && is_cont b1 && is_cont b2 && is_cont b3
                     && ((negb (b0 =? 240)) || (144 <=? b1)) && ((negb (b0 =? 244)) || (b1 <=? 143))
                  then option_map (cons ((b0 - 240) * 262144 + (b1 - 128) * 4096 + (b2 - 128) * 64 + (b3 - 128)))
                         (utf8_decode t3)
                  else None
              end
          end
      end
  end.

Lemma utf8_decode_char : forall c rest, is_scalar c = true ->
  utf8_decode (utf8_char c ++ rest) = option_map (cons c) (utf8_decode rest).
Proof.
  intros c rest V. unfold is_scalar in V. unfold utf8_char.
  destruct (c <? 128) eqn:E1; [cbn [app utf8_decode]; rewrite E1; reflexivity|].
  destruct (c <? 2048) eqn:E2.
  { cbn [app utf8_decode].
    replace (192 + c / 64 <? 128) with false by lia.
    replace ((194 <=? 192 + c / 64) && (192 + c / 64 <=? 223)) with true by lia.
    unfold is_cont. replace ((128 <=? 128 + c mod 64) && (128 + c mod 64 <=? 191)) with true by lia.
    replace ((192 + c / 64 - 192) * 64 + (128 + c mod 64 - 128)) with c by lia. reflexivity. }
  destruct (c <? 65536) eqn:E3.
  { cbn [app utf8_decode].
    replace (224 + c / 4096 <? 128) with false by lia.
    replace ((194 <=? 224 + c / 4096) && (224 + c / 4096 <=? 223)) with false by lia.
    replace ((224 <=? 224 + c / 4096) && (224 + c / 4096 <=? 239)) with true by lia.
    unfold is_cont.
    match goal with |- context [if ?b then _ else None] => replace b with true by lia end.
    match goal with |- option_map (cons ?x) _ = _ => replace x with c by lia end. reflexivity. }
  cbn [app utf8_decode].
  replace (240 + c / 262144 <? 128) with false by lia.
  replace ((194 <=? 240 + c / 262144) && (240 + c / 262144 <=? 223)) with false by lia.
  replace ((224 <=? 240 + c / 262144) && (240 + c / 262144 <=? 239)) with false by lia.
  unfold is_cont.
  match goal with |- context [if ?b then _ else None] => replace b with true by lia end.
  match goal with |- option_map (cons ?x) _ = _ => replace x with c by lia end. reflexivity.
Qed.

Theorem utf8_decode_encode : forall s, valid_str s = true -> utf8_decode (utf8_encode s) = Some s.
Proof.
  induction s as [|c s IH]; intros V; [reflexivity|]. unfold valid_str in *. cbn [forallb] in V.
  apply andb_true_iff in V as [V1 V2]. unfold utf8_encode in *. cbn [flat_map].
  rewrite utf8_decode_char by exact V1. rewrite IH by exact V2. reflexivity.
Qed.

(** What decodes is exactly the encoding of a valid string. *)
Theorem utf8_decode_sound : forall bs s, utf8_decode bs = Some s -> utf8_encode s = bs /\ valid_str s = true.
Proof.
  intros bs. remember (length bs) as n eqn:En.
  assert (L : (length bs <= n)%nat) by lia. clear En. revert bs L.
  induction n as [|n IH]; intros bs L s D.
  { destruct bs; [|cbn in L; lia]. cbn in D. inv D. split; reflexivity. }
  destruct bs as [|b0 t0]; [cbn in D; inv D; split; reflexivity|].
  cbn [utf8_decode] in D. cbn [length] in L.
  assert (K : forall c w t, utf8_char c = w -> is_scalar c = true -> (length t <= n)%nat ->
     option_map (cons c) (utf8_decode t) = Some s -> utf8_encode s = w ++ t /\ valid_str s = true).
  { intros c w t Hw Hc Ht Hd. destruct (utf8_decode t) as [s'|] eqn:E; [|discriminate]. inv Hd.
    destruct (IH t Ht _ E) as [A B]. unfold utf8_encode, valid_str in *. cbn [flat_map forallb]. rewrite A, Hc, B.
    split; reflexivity. }
  destruct (b0 <? 128) eqn:E0.
  { apply (K b0 [b0] t0); [unfold utf8_char; rewrite E0; reflexivity|unfold is_scalar; lia|lia|exact D]. }
  destruct t0 as [|b1 t1]; [discriminate|]. cbn [length] in L.
  destruct ((194 <=? b0) && (b0 <=? 223)) eqn:E1.
  { destruct (is_cont b1) eqn:C1; [|discriminate]. unfold is_cont in C1.
    apply (K _ [b0; b1] t1) in D; [exact D| |unfold is_scalar; lia|lia].
    unfold utf8_char. set (c := (b0 - 192) * 64 + (b1 - 128)).
    replace (c <? 128) with false by lia. replace (c <? 2048) with true by lia.
    f_equal; [lia|f_equal; lia]. }
  destruct t1 as [|b2 t2]; [discriminate|]. cbn [length] in L.
  destruct ((224 <=? b0) && (b0 <=? 239)) eqn:E2.
  { match type of D with (if ?b then _ else _) = _ => destruct b eqn:C end; [|discriminate]. unfold is_cont in C.
    apply (K _ [b0; b1; b2] t2) in D; [exact D| |unfold is_scalar; lia|lia].
    unfold utf8_char. set (c := (b0 - 224) * 4096 + (b1 - 128) * 64 + (b2 - 128)).
    replace (c <? 128) with false by lia. replace (c <? 2048) with false by lia.
    replace (c <? 65536) with true by lia.
    f_equal; [lia|f_equal; [lia|f_equal; lia]]. }
  destruct t2 as [|b3 t3]; [discriminate|]. cbn [length] in L.
  match type of D with (if ?b then _ else _) = _ => destruct b eqn:C end; [|discriminate]. unfold is_cont in C.
  apply (K _ [b0; b1; b2; b3] t3) in D; [exact D| |unfold is_scalar; lia|lia].
  unfold utf8_char. set (c := (b0 - 240) * 262144 + (b1 - 128) * 4096 + (b2 - 128) * 64 + (b3 - 128)).
  replace (c <? 128) with false by lia. replace (c <? 2048) with false by lia.
  replace (c <? 65536) with false by lia.
  f_equal; [lia|f_equal; [lia|f_equal; [lia|f_equal; lia]]].
Qed.

Lemma utf8_ascii : forall s, is_ascii s = true -> utf8_encode s = s.
Proof.
  induction s as [|c s IH]; intros A; [reflexivity|]. unfold is_ascii in *. cbn [forallb] in A.
  apply andb_true_iff in A as [A1 A2]. unfold utf8_encode in *. cbn [flat_map]. rewrite IH by exact A2.
  unfold utf8_char. rewrite A1. reflexivity.
Qed.

Lemma utf8_encode_app : forall a b, utf8_encode (a ++ b) = utf8_encode a ++ utf8_encode b.
Proof. intros a b. unfold utf8_encode. apply flat_map_app. Qed.

Lemma utf8_encode_bytes : forall s, valid_str s = true -> Forall (fun b => b < 256) (utf8_encode s).
Proof.
  induction s as [|c s IH]; intros V; [constructor|]. unfold valid_str in *. cbn [forallb] in V.
  apply andb_true_iff in V as [V1 V2]. unfold utf8_encode in *. cbn [flat_map]. apply Forall_app. split; [|auto].
  unfold is_scalar in V1. unfold utf8_char.
  destruct (c <? 128) eqn:E1; [repeat constructor; lia|].
  destruct (c <? 2048) eqn:E2; [repeat constructor; lia|].
  destruct (c <? 65536) eqn:E3; repeat constructor; lia.
Qed.
