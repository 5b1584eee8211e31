(** C116: many bodies chained into one, in whatever way the calls of [chain] are nested. *)
From Coq Require Import ZifyBool ZifyNat ZifyN Lia.
From Verif Require Import Base BaseFacts Utf8 Mime Body BodyFacts BodyProps.
Import ListNotations.

(** An expression made of bodies and calls of [Body::chain]. *)
Inductive nest : Type := One (b : body) | Both (t u : nest).
Fixpoint bodies (t : nest) : list body := match t with One b => [b] | Both t u => bodies t ++ bodies u end.
Fixpoint chained (t : nest) : outcome body :=
  match t with
  | One b => Ok b
  | Both t u => let* b := chained t in let* c := chained u in chain b c
  end.

(** What a body has left of its declared length; the sum of such lengths, if all are known and it fits 64 bits; the media
    type that all of them have, else application/octet-stream. *)
Definition remaining (b : body) : option N := match body_len b with Some l => Some (l - body_read b) | None => None end.
Definition plus (a b : option N) : option N := match a, b with Some x, Some y => if x + y <? 2 ^ 64 then Some (x + y) else None | _, _ => None end.
Definition total (ls : list (option N)) : option N := fold_right plus (Some 0) ls.
Definition common (ms : list (option mime)) (m : option mime) : Prop :=
  (forall x, In x ms -> x = m) \/ (m = Some MIME_BYTE_STREAM /\ exists x y, In x ms /\ In y ms /\ x <> y).

Lemma plus_assoc : forall a b c, plus a (plus b c) = plus (plus a b) c.
Proof.
  intros [x|] [y|] [z|]; cbn [plus]; try reflexivity; change (2 ^ 64) with 18446744073709551616 in *.
  - destruct (N.ltb_spec (y + z) 18446744073709551616), (N.ltb_spec (x + y) 18446744073709551616); cbn [plus]; change (2 ^ 64) with 18446744073709551616;
      rewrite ?N.add_assoc; try reflexivity.
    + destruct (N.ltb_spec (x + y + z) 18446744073709551616); [lia|reflexivity].
    + destruct (N.ltb_spec (x + y + z) 18446744073709551616); [lia|reflexivity].
  - destruct (x + y <? _); reflexivity.
Qed.
Definition fits (o : option N) : Prop := match o with Some x => x < 2 ^ 64 | None => True end.
Lemma plus_fits : forall a b, fits (plus a b).
Proof. intros [x|] [y|]; cbn [plus fits]; try exact I. destruct (_ <? _) eqn:E; [|exact I]. cbn [fits]. change (2 ^ 64) with 18446744073709551616 in *. lia. Qed.
Lemma plus_zero : forall a, fits a -> plus (Some 0) a = a.
Proof. intros [x|] F; cbn [plus fits] in *; [|reflexivity]. change (2 ^ 64) with 18446744073709551616 in *. rewrite N.add_0_l. destruct (_ <? _) eqn:E; [reflexivity|lia]. Qed.
Lemma plus_zero_r : forall a, fits a -> plus a (Some 0) = a.
Proof. intros [x|] F; cbn [plus fits] in *; [|reflexivity]. change (2 ^ 64) with 18446744073709551616 in *. rewrite N.add_0_r. destruct (_ <? _) eqn:E; [reflexivity|lia]. Qed.
Lemma total_fits : forall ls, fits (total ls).
Proof. intros [|a ls]; cbn [total fold_right]; [cbn; change (2 ^ 64) with 18446744073709551616; lia|apply plus_fits]. Qed.
Lemma total_app : forall a b, total (a ++ b) = plus (total a) (total b).
Proof.
  induction a as [|x a IH]; intros b; cbn [app]; [symmetry; apply plus_zero, total_fits|]. unfold total in *. cbn [fold_right]. now rewrite IH, plus_assoc.
Qed.
Lemma common_app : forall a b x y m, a <> [] -> b <> [] -> common a x -> common b y ->
  (x = y -> m = x) -> (x <> y -> m = Some MIME_BYTE_STREAM) -> common (a ++ b) m.
Proof.
  intros a b x y m Na Nb Ca Cb E D.
  assert (Ex : exists p, In p a) by (destruct a; [congruence|eexists; now left]).
  assert (Ey : exists p, In p b) by (destruct b; [congruence|eexists; now left]).
  destruct Ca as [Ca|(-> & p & q & Ip & Iq & N)].
  - destruct Cb as [Cb|(-> & p & q & Ip & Iq & N)].
    + destruct Ex as (p & Ip), Ey as (q & Iq).
      assert (Z : x = y \/ x <> y).
      { destruct x as [x|], y as [y|]; try (right; discriminate); [|now left]. destruct (mime_dec x y) as [->|F]; [now left|right; congruence]. }
      destruct Z as [Z|Z].
      * left. intros z I. rewrite (E Z). apply in_app_iff in I as [I|I]; [now apply Ca|]. rewrite Z. now apply Cb.
      * right. split; [now apply D|]. exists p, q. split; [apply in_app_iff; now left|]. split; [apply in_app_iff; now right|]. rewrite (Ca _ Ip), (Cb _ Iq). exact Z.
    + right. assert (Z : x = Some MIME_BYTE_STREAM \/ x <> Some MIME_BYTE_STREAM).
      { destruct x as [x|]; [|right; discriminate]. destruct (mime_dec x MIME_BYTE_STREAM) as [->|F]; [now left|right; congruence]. }
      split; [destruct Z as [Z|Z]; [rewrite (E Z); exact Z|now apply D]|]. exists p, q. split; [apply in_app_iff; now right|]. split; [apply in_app_iff; now right|exact N].
  - right. assert (Z : Some MIME_BYTE_STREAM = y \/ Some MIME_BYTE_STREAM <> y).
    { destruct y as [y|]; [|right; discriminate]. destruct (mime_dec MIME_BYTE_STREAM y) as [->|F]; [now left|right; congruence]. }
    split; [destruct Z as [Z|Z]; [now apply E|now apply D]|]. exists p, q. split; [apply in_app_iff; now left|]. split; [apply in_app_iff; now left|exact N].
Qed.
Lemma bodies_some : forall t, bodies t <> [].
Proof. induction t as [b|t IH u _]; cbn [bodies]; [discriminate|]. destruct (bodies t); [congruence|discriminate]. Qed.
Lemma holds_app : forall l l' cs, Forall2 holds (l ++ l') cs -> exists a b, cs = a ++ b /\ Forall2 holds l a /\ Forall2 holds l' b.
Proof. intros l l' cs H. apply Forall2_app_inv_l in H as (a & b & Ha & Hb & ->). eauto. Qed.

(** Whatever the nesting, the bodies may be partly read: the chain is made, holds what is left of each in order, is as long
    as all of them together when that is known, and has their common media type. *)
Theorem C116_any_nesting : forall t cs, Forall2 holds (bodies t) cs -> Forall (fun b => fits (body_len b)) (bodies t) ->
  exists b, chained t = Ok b /\ holds b (concat cs) /\ remaining b = total (map remaining (bodies t)) /\ common (map body_mime (bodies t)) (body_mime b).
Proof.
  induction t as [b|t IHt u IHu]; intros cs H F; cbn [bodies chained] in *.
  - inversion H as [|? c ? ? Hb Hn]; subst. inversion Hn; subst. exists b. split; [reflexivity|]. cbn [concat map]. rewrite app_nil_r. split; [exact Hb|]. split.
    + cbn [total fold_right]. symmetry. apply plus_zero_r. inversion F as [|? ? Fb _]; subst. unfold remaining. destruct (body_len b); [|exact I]. cbn [fits] in *. lia.
    + left. intros x [<-|[]]. reflexivity.
  - apply holds_app in H as (ca & cb & -> & Ha & Hb). apply Forall_app in F as [Fa Fb].
    destruct (IHt _ Ha Fa) as (b & Eb & Hb' & Rb & Cb). destruct (IHu _ Hb Fb) as (c & Ec & Hc & Rc & Cc). rewrite Eb, Ec. cbn [bind].
    destruct (C26_chain_concatenates _ _ _ _ Hb' Hc) as (d & Ed & Hd & Ld). exists d. split; [exact Ed|]. rewrite concat_app. split; [exact Hd|]. split.
    + rewrite map_app, total_app, <- Rb, <- Rc. assert (Z : body_read d = 0).
      { unfold chain in Ed. destruct (body_len b), (body_len c); try (now inv Ed). destruct (_ || _); now inv Ed. }
      unfold remaining. rewrite Ld, Z. destruct (body_len b), (body_len c); cbn [plus]; try reflexivity. cbv zeta. destruct (_ <? _); [f_equal; lia|reflexivity].
    + rewrite map_app. destruct (C26_chain_mime _ _ _ Ed) as [M1 M2].
      apply (common_app _ _ (body_mime b) (body_mime c)); [| |exact Cb|exact Cc|exact M1|exact M2];
        intros X; apply map_eq_nil in X; now apply bodies_some in X.
Qed.
(** So the nesting cannot be seen: the same bodies give the same length, media type and content. *)
Theorem C116_nesting_is_invisible : forall t u cs b c, bodies t = bodies u -> Forall2 holds (bodies t) cs -> Forall (fun b => fits (body_len b)) (bodies t) ->
  chained t = Ok b -> chained u = Ok c -> (2 <= length (bodies t))%nat ->
  body_len b = body_len c /\ body_mime b = body_mime c /\ holds b (concat cs) /\ holds c (concat cs).
Proof.
  intros t u cs b c E H F B C L. destruct (C116_any_nesting t cs H F) as (b' & Eb & Hb & Rb & Mb). rewrite B in Eb. injection Eb as <-.
  rewrite E in H, F. destruct (C116_any_nesting u cs H F) as (c' & Ec & Hc & Rc & Mc). rewrite C in Ec. injection Ec as <-.
  assert (Z : forall v x, chained v = Ok x -> (2 <= length (bodies v))%nat -> remaining x = body_len x).
  { intros [y|v w] x X Y; cbn [bodies length] in Y; [lia|]. cbn [chained] in X. destruct (chained v) as [p| |]; try discriminate. destruct (chained w) as [q| |]; try discriminate.
    cbn [bind] in X. unfold remaining. unfold chain in X. destruct (body_len p), (body_len q); try (now inv X).
    destruct (_ || _); inv X; cbn [body_len body_read]. destruct (_ <=? _); [f_equal; lia|reflexivity]. }
  rewrite <- (Z _ _ B L). rewrite E in L. rewrite <- (Z _ _ C L). split; [rewrite Rb, Rc, E; reflexivity|]. split; [|split; assumption].
  rewrite E in Mb. destruct (bodies u) as [|x l] eqn:X; [cbn in L; lia|]. cbn [map] in *.
  destruct Mb as [Mb|(-> & p & q & Ip & Iq & N)].
  - destruct Mc as [Mc|(-> & p & q & Ip & Iq & N)].
    + rewrite <- (Mb (body_mime x)), <- (Mc (body_mime x)) by now left. reflexivity.
    + exfalso. apply N. now rewrite (Mb _ Ip), (Mb _ Iq).
  - destruct Mc as [Mc|(-> & _)]; [|reflexivity]. exfalso. apply N. now rewrite (Mc _ Ip), (Mc _ Iq).
Qed.
(** Reading the whole chain gives what is left of every part, in order, or the error of one of them. *)
Theorem C116_read : forall t cs b caps r, Forall2 holds (bodies t) cs -> Forall (fun b => fits (body_len b)) (bodies t) -> chained t = Ok b ->
  into_bytes caps b = Some r -> r = Ok (concat cs) \/ (r = Err 422 /\ ~ sound b).
Proof.
  intros t cs b caps r H F B R. destruct (C116_any_nesting t cs H F) as (b' & Eb & Hb & _). rewrite B in Eb. injection Eb as <-.
  exact (C27_into_bytes_any _ _ _ _ Hb R).
Qed.
(** Bodies made from bytes: the length is the number of bytes, the content the bytes one after the other. *)
Theorem C116_bytes : forall t parts, bodies t = map from_bytes parts -> nlen (concat parts) < 2 ^ 64 ->
  exists b, chained t = Ok b /\ body_len b = Some (nlen (concat parts)) /\ body_mime b = Some MIME_BYTE_STREAM /\
    forall caps r, into_bytes caps b = Some r -> r = Ok (concat parts) \/ (r = Err 422 /\ ~ sound b).
Proof.
  intros t parts E N.
  assert (P : forall p, In p parts -> nlen p < 2 ^ 64).
  { clear E. induction parts as [|q parts IH]; intros p []; cbn [concat] in N; unfold nlen in *; rewrite app_length in N; [subst; lia|]. apply IH; [lia|assumption]. }
  assert (H : Forall2 holds (bodies t) parts) by (rewrite E; clear; induction parts; cbn [map]; constructor; [apply holds_bytes|assumption]).
  assert (F : Forall (fun b => fits (body_len b)) (bodies t)).
  { rewrite E. apply Forall_forall. intros b I. apply in_map_iff in I as (p & <- & I). cbn [fits body_len from_bytes]. now apply P. }
  destruct (C116_any_nesting t parts H F) as (b & Eb & Hb & Rb & Cb). exists b. split; [exact Eb|].
  assert (T : forall ps, nlen (concat ps) < 2 ^ 64 -> total (map remaining (map from_bytes ps)) = Some (nlen (concat ps))).
  { clear. induction ps as [|p ps IH]; intros N; [reflexivity|]. cbn [map total fold_right concat] in *. unfold nlen in *. rewrite app_length in *.
    fold (total (map remaining (map from_bytes ps))). rewrite IH by lia. unfold remaining. cbn [body_len body_read from_bytes plus]. unfold nlen.
    change (2 ^ 64) with 18446744073709551616 in *. destruct (_ <? _) eqn:L; [f_equal; lia|lia]. }
  rewrite E, T in Rb by exact N. split.
  - destruct t as [x|t u].
    + cbn [chained bodies] in *. injection Eb as <-. destruct parts as [|p [|q r]]; try discriminate E. injection E as ->. cbn [concat]. now rewrite app_nil_r.
    + unfold remaining in Rb. cbn [chained] in Eb. destruct (chained t) as [p| |]; try discriminate. destruct (chained u) as [q| |]; try discriminate. cbn [bind] in Eb.
      assert (Z : body_read b = 0). { unfold chain in Eb. destruct (body_len p), (body_len q); try (now inv Eb). destruct (_ || _); now inv Eb. }
      destruct (body_len b); [|discriminate Rb]. rewrite Z in Rb. injection Rb as <-. f_equal. lia.
  - split; [|intros caps r R; exact (C27_into_bytes_any _ _ _ _ Hb R)]. destruct Cb as [Cb|[X _]]; [|exact X]. rewrite E in Cb. symmetry. apply Cb.
    destruct parts as [|p ps]; [exfalso; apply (bodies_some t); now rewrite E|]. now left.
Qed.
Print Assumptions C116_any_nesting.
Print Assumptions C116_nesting_is_invisible.
Print Assumptions C116_read.
Print Assumptions C116_bytes.
Example C116_example : let a := from_string (lit "ab") in let b := from_reader [EPending; EData 7 []] None in let c := from_bytes [8; 9] in
  Forall2 holds [a; b; c] [lit "ab"; [7]; [8; 9]] /\
  match chained (Both (One a) (Both (One b) (One c))), chained (Both (Both (One a) (One b)) (One c)) with
  | Ok x, Ok y => body_len x = None /\ body_len y = None /\ body_mime x = Some MIME_BYTE_STREAM /\ body_mime y = Some MIME_BYTE_STREAM /\
      into_bytes [1; 1; 9; 9; 9; 9; 9; 9]%nat x = Some (Ok (lit "ab" ++ [7; 8; 9])) /\ into_bytes [1; 1; 9; 9; 9; 9; 9; 9]%nat y = Some (Ok (lit "ab" ++ [7; 8; 9]))
  | _, _ => False
  end.
Proof.
  split; [|vm_compute; repeat split; reflexivity].
  constructor; [exact (holds_string (lit "ab"))|]. constructor; [exact (holds_reader [EPending; EData 7 []] None)|]. constructor; [apply holds_bytes|constructor].
Qed.
(** The empty body is not neutral: chaining it to a text leaves the content but takes the media type away. *)
Theorem C116_empty_refuted : exists b, chain body_empty (from_string (lit "ab")) = Ok b /\ body_mime b = Some MIME_BYTE_STREAM /\
  body_mime (from_string (lit "ab")) = Some MIME_PLAIN /\ MIME_PLAIN <> MIME_BYTE_STREAM /\ into_bytes [9; 9; 9]%nat b = Some (Ok (lit "ab")).
Proof.
  destruct (chain body_empty (from_string (lit "ab"))) as [b| |] eqn:E; try (vm_compute in E; discriminate E). exists b. vm_compute in E. injection E as <-.
  split; [reflexivity|]. split; [vm_compute; reflexivity|]. split; [reflexivity|]. split; [intros X; vm_compute in X; discriminate X|vm_compute; reflexivity].
Qed.
Print Assumptions C116_empty_refuted.
