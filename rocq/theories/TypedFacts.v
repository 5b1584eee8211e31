(** Lemmas about comma separated lists and typed header access. *)
From Verif Require Import Base BaseFacts Headers HeadersFacts Typed.
From Coq Require Import ZifyBool ZifyNat ZifyN.

Lemma get_apply : forall h n v, h_get (apply_value h n v) n = Some [v].
Proof. intros. unfold apply_value, h_insert, h_get. cbn. apply hm_get_insert_same. Qed.
Lemma get_apply_other : forall h n v n', n' <> n -> h_get (apply_value h n v) n' = h_get h n'.
Proof. intros. unfold apply_value, h_insert, h_get. cbn. now apply hm_get_insert_other. Qed.

Lemma values_last_snoc : forall vs v, values_last (vs ++ [v]) = Ok v.
Proof. intros. unfold values_last. rewrite rev_app_distr. reflexivity. Qed.
Lemma values_last_np : forall vs, vs <> [] -> exists v, values_last vs = Ok v /\ In v vs.
Proof.
  intros vs H. destruct (exists_last H) as (l & v & ->). exists v. split; [apply values_last_snoc|].
  apply in_or_app. right. now left.
Qed.
Lemma with_last_apply : forall (A : Type) h n v (k : str -> outcome A),
  with_last (apply_value h n v) n k = let* a := k v in Ok (Some a).
Proof. intros. unfold with_last. rewrite get_apply. reflexivity. Qed.
Lemma with_last_snoc : forall (A : Type) h n vs v (k : str -> outcome A), h_get h n = Some (vs ++ [v]) ->
  with_last h n k = let* a := k v in Ok (Some a).
Proof. intros * H. unfold with_last. rewrite H, values_last_snoc. reflexivity. Qed.
Lemma with_all_apply : forall (A : Type) h n v (k : header_values -> outcome A),
  with_all (apply_value h n v) n k = let* a := k [v] in Ok (Some a).
Proof. intros. unfold with_all. rewrite get_apply. reflexivity. Qed.

(** ** trimmed pieces *)
Lemma trim_ws_cons : forall c s, is_ws c = true -> trim (c :: s) = trim s.
Proof. intros c s H. unfold trim, trim_matches, trim_start_matches. cbn [drop_while]. now rewrite H. Qed.
Lemma trim_app_ws : forall s b, forallb is_ws b = true -> trim (s ++ b) = trim s.
Proof. intros s b H. unfold trim. apply (trim_matches_pad is_ws [] s b eq_refl H). Qed.

Lemma split_cons_other : forall d c s, (c =? d) = false ->
  split d (c :: s) = (c :: hd [] (split d s)) :: tl (split d s).
Proof.
  intros d c s H. cbn [split]. rewrite H. destruct (split d s) eqn:E; [now apply split_nonempty in E|reflexivity].
Qed.

Lemma ws_not_comma : forall c, is_ws c = true -> (c =? 44) = false.
Proof. intros c H. destruct (N.eqb_spec c 44) as [->|]; [discriminate H|reflexivity]. Qed.

Lemma pieces_drop_ws : forall s, map trim (split 44 (drop_while is_ws s)) = map trim (split 44 s).
Proof.
  induction s as [|c s IH]; [reflexivity|]. cbn [drop_while]. destruct (is_ws c) eqn:E; [|reflexivity].
  rewrite IH, (split_cons_other 44 c s (ws_not_comma c E)). cbn [map]. rewrite (trim_ws_cons c _ E).
  destruct (split 44 s) eqn:F; [now apply split_nonempty in F|reflexivity].
Qed.

Lemma no_comma_ws : forall b, forallb is_ws b = true -> no_char 44 b = true.
Proof. intros b. apply no_char_forallb. reflexivity. Qed.

Lemma pieces_app_ws : forall s b, forallb is_ws b = true -> map trim (split 44 (s ++ b)) = map trim (split 44 s).
Proof.
  induction s as [|c s IH]; intros b H.
  - cbn [app]. rewrite (split_no_char 44 b (no_comma_ws b H)). cbn. f_equal. apply (trim_app_ws [] b H).
  - cbn [app]. destruct (c =? 44) eqn:E.
    + cbn [split]. rewrite E. cbn [map]. now rewrite (IH b H).
    + rewrite !split_cons_other by exact E. specialize (IH b H).
      destruct (split 44 (s ++ b)) as [|p ps] eqn:E1; [now apply split_nonempty in E1|].
      destruct (split 44 s) as [|q qs] eqn:E2; [now apply split_nonempty in E2|].
      cbn [hd tl map] in *. injection IH as H1 H2. f_equal; [|exact H2].
      assert (P : exists b1, forallb is_ws b1 = true /\ p = q ++ b1).
      { clear -E1 E2 H. revert p ps q qs E1 E2. induction s as [|d s IHs]; intros p ps q qs E1 E2.
        - cbn [app] in E1. rewrite (split_no_char 44 b (no_comma_ws b H)) in E1. inv E1. cbn in E2. inv E2. exists p. auto.
        - cbn [app] in E1. destruct (d =? 44) eqn:F.
          + cbn [split] in E1, E2. rewrite F in E1, E2. inv E1. inv E2. exists []. auto.
          + rewrite split_cons_other in E1, E2 by exact F. inv E1. inv E2.
            destruct (split 44 (s ++ b)) as [|p' ps'] eqn:E3; [now apply split_nonempty in E3|].
            destruct (split 44 s) as [|q' qs'] eqn:E4; [now apply split_nonempty in E4|].
            destruct (IHs _ _ _ _ eq_refl eq_refl) as (b1 & B1 & B2). exists b1. cbn [hd app]. split; [exact B1|].
            now rewrite B2. }
      destruct P as (b1 & B1 & ->). change (c :: q ++ b1) with ((c :: q) ++ b1). apply trim_app_ws, B1.
Qed.

(** Trimming the whole value first makes no difference to the trimmed pieces. *)
Lemma pieces_trim : forall s, map trim (split 44 (trim s)) = map trim (split 44 s).
Proof.
  intros s. unfold trim at 2. unfold trim_matches, trim_start_matches.
  destruct (trim_end_prefix is_ws (drop_while is_ws s)) as (b & Hb & Hw).
  rewrite <- (pieces_drop_ws s). rewrite Hb at 2. symmetry. apply pieces_app_ws, Hw.
Qed.

(** ** reading *)
(** Pieces padded with white space, separated by commas. *)
Definition padded (p : str * str * str) : str := let '(a, t, b) := p in a ++ t ++ b.
Definition pad_ok (p : str * str * str) : bool :=
  let '(a, t, b) := p in forallb is_ws a && forallb is_ws b && no_char 44 t && no_edge is_ws t.
Definition core (p : str * str * str) : str := let '(a, t, b) := p in t.

Lemma trim_padded : forall p, pad_ok p = true -> trim (padded p) = core p.
Proof.
  intros [[a t] b] H. cbn [pad_ok padded core] in *. do 3 (apply andb_true_iff in H as [H ?]). unfold trim.
  rewrite trim_matches_pad by assumption. now apply trim_id.
Qed.
Lemma padded_no_comma : forall p, pad_ok p = true -> no_char 44 (padded p) = true.
Proof.
  intros [[a t] b] H. cbn [pad_ok padded core] in *. do 3 (apply andb_true_iff in H as [H ?]).
  rewrite !no_char_app. rewrite (no_comma_ws a), (no_comma_ws b) by assumption. now rewrite H1, ?andb_true_r.
Qed.

Lemma pieces_padded : forall l, l <> [] -> forallb pad_ok l = true ->
  map trim (split 44 (trim (join [44] (map padded l)))) = map core l.
Proof.
  intros l N H. rewrite pieces_trim, split_join.
  - rewrite map_map. apply map_ext_in. intros p Hp. apply trim_padded. rewrite forallb_forall in H. now apply H.
  - destruct l; [congruence|discriminate].
  - apply Forall_forall. intros x Hx. apply in_map_iff in Hx as (p & <- & Hp). apply padded_no_comma.
    rewrite forallb_forall in H. now apply H.
Qed.

Lemma join_comma_space : forall x l, join (lit ", ") (x :: l) = join [44] (x :: map (cons 32) l).
Proof.
  intros x l. change (lit ", ") with [44; 32]. revert x. induction l as [|y l IH]; intros x; [reflexivity|].
  change (join [44; 32] (x :: y :: l)) with (x ++ 44 :: 32 :: join [44; 32] (y :: l)). rewrite IH.
  change (map (cons 32) (y :: l)) with ((32 :: y) :: map (cons 32) l).
  change (join [44] (x :: (32 :: y) :: map (cons 32) l)) with (x ++ 44 :: join [44] ((32 :: y) :: map (cons 32) l)).
  f_equal. f_equal. destruct l; reflexivity.
Qed.

Definition clean (t : str) : bool := no_char 44 t && no_edge is_ws t.

Lemma pieces_text : forall ts, ts <> [] -> forallb clean ts = true ->
  map trim (split 44 (trim (join (lit ", ") ts))) = ts.
Proof.
  intros [|x l] N H; [congruence|]. cbn [forallb] in H. apply andb_true_iff in H as [Hx H].
  assert (P := pieces_padded (([], x, []) :: map (fun t => ([32], t, [])) l) ltac:(discriminate)).
  assert (E : map padded (([], x, []) :: map (fun t => ([32], t, [])) l) = x :: map (cons 32) l).
  { cbn [map padded app]. rewrite app_nil_r, map_map. f_equal. apply map_ext. intros t. cbn [padded app]. now rewrite app_nil_r. }
  assert (F : map core (([], x, []) :: map (fun t => ([32], t, [])) l) = x :: l).
  { cbn [map core]. rewrite map_map. cbn [core]. now rewrite map_id. }
  rewrite E, F in P. rewrite join_comma_space. apply P.
  cbn [forallb pad_ok]. apply andb_true_iff. split; [exact Hx|]. rewrite forallb_forall in *.
  intros p Hp. apply in_map_iff in Hp as (t & <- & Ht). specialize (H t Ht). exact H.
Qed.

Lemma read_parts_ext : forall (A : Type) star (parse : str -> outcome A) ps ps', map trim ps = map trim ps' ->
  read_parts star parse ps = read_parts star parse ps'.
Proof.
  intros A star parse. induction ps as [|p ps IH]; intros [|q qs] H; try discriminate; [reflexivity|].
  cbn [map] in H. injection H as H1 H2. cbn [read_parts]. rewrite H1, (IH qs H2). reflexivity.
Qed.

Lemma read_parts_app : forall (A : Type) star (parse : str -> outcome A) a b,
  read_parts star parse (a ++ b) =
  let* (x, w) := read_parts star parse a in let* (y, w') := read_parts star parse b in Ok (x ++ y, w || w').
Proof.
  intros A star parse a b. induction a as [|p a IH]; cbn [app read_parts].
  - destruct (read_parts star parse b) as [[y w]| |]; reflexivity.
  - rewrite IH. destruct (seqb (trim p) star).
    + destruct (read_parts star parse a) as [[x w]| |]; cbn [bind]; try reflexivity.
      destruct (read_parts star parse b) as [[y w']| |]; reflexivity.
    + destruct (parse (trim p)); cbn [bind]; try reflexivity.
      destruct (read_parts star parse a) as [[x w]| |]; cbn [bind]; try reflexivity.
      destruct (read_parts star parse b) as [[y w']| |]; reflexivity.
Qed.

Lemma read_parts_shown : forall (A : Type) star (parse : str -> outcome A) (show : A -> str) l,
  Forall (fun x => trim (show x) = show x /\ show x <> star /\ parse (show x) = Ok x) l ->
  read_parts star parse (map show l) = Ok (l, false).
Proof.
  intros A star parse show l H. induction H as [|x l (T & S & P) H IH]; [reflexivity|].
  cbn [map read_parts]. rewrite T. destruct (seqb_spec (show x) star); [contradiction|].
  rewrite P, IH. reflexivity.
Qed.

(** ** the list round trip *)
Section RoundTrip.
  Context {A : Type} (star : str) (parse : str -> outcome A) (show : A -> str).
  Hypothesis star_ok : clean star = true /\ star <> [].
  Definition showable (x : A) : Prop :=
    clean (show x) = true /\ show x <> [] /\ show x <> star /\ parse (show x) = Ok x.

  Lemma read_list_value : forall l (w : bool), Forall showable l -> l <> [] \/ w = true ->
    read_parts star parse (comma_parts [list_value star (map show l) w]) = Ok (l, w).
  Proof.
    intros l w H N. unfold comma_parts. cbn [flat_map]. rewrite app_nil_r.
    assert (C : forallb clean (map show l) = true).
    { rewrite forallb_forall. intros t Ht. apply in_map_iff in Ht as (x & <- & Hx).
      rewrite Forall_forall in H. apply (H x Hx). }
    assert (R : read_parts star parse (map show l) = Ok (l, false)).
    { apply read_parts_shown. eapply Forall_impl; [|exact H]. intros x (X1 & X2 & X3 & X4).
      apply andb_true_iff in X1 as [_ X1]. auto using trim_id. }
    destruct star_ok as [Sc Sn].
    unfold list_value. destruct w.
    - assert (T : match join (lit ", ") (map show l) with
                  | [] => star | _ => join (lit ", ") (map show l) ++ lit ", " ++ star end
                  = join (lit ", ") (map show l ++ [star])).
      { destruct l as [|x l]; [reflexivity|]. inv H. destruct H2 as (_ & X2 & _).
        assert (J : forall t ts, t <> [] -> join (lit ", ") (t :: ts) <> []).
        { intros t ts Ht. destruct t; [congruence|]. destruct ts; discriminate. }
        assert (G : forall ts t, join (lit ", ") ((t :: ts) ++ [star]) = join (lit ", ") (t :: ts) ++ lit ", " ++ star).
        { clear. induction ts as [|u ts IH]; intros t; [reflexivity|].
          change (join (lit ", ") ((t :: u :: ts) ++ [star])) with (t ++ lit ", " ++ join (lit ", ") ((u :: ts) ++ [star])).
          rewrite IH. change (join (lit ", ") (t :: u :: ts)) with (t ++ lit ", " ++ join (lit ", ") (u :: ts)).
          now rewrite <- !app_assoc. }
        cbn [map]. rewrite G. specialize (J (show x) (map show l) X2).
        destruct (join (lit ", ") (show x :: map show l)) eqn:E; [elim (J E)|reflexivity]. }
      rewrite T. rewrite (read_parts_ext A star parse _ (map show l ++ [star])).
      + rewrite read_parts_app, R. cbn [bind read_parts]. apply andb_true_iff in Sc as [_ Sc].
        rewrite (trim_id star Sc), seqb_refl. cbn [bind]. now rewrite app_nil_r.
      + change c_comma with 44. rewrite pieces_text.
        * rewrite <- (map_id (map show l ++ [star])) at 1. apply map_ext_in. intros t Ht. symmetry. apply trim_id.
          apply in_app_or in Ht as [Ht|[<-|[]]]; [|now apply andb_true_iff in Sc].
          rewrite forallb_forall in C. specialize (C t Ht). now apply andb_true_iff in C.
        * destruct (map show l); discriminate.
        * rewrite forallb_app, C. cbn. now rewrite Sc.
    - destruct N as [N|N]; [|discriminate].
      rewrite (read_parts_ext A star parse _ (map show l)); [exact R|].
      change c_comma with 44. rewrite pieces_text.
      + rewrite <- (map_id (map show l)) at 1. apply map_ext_in. intros t Ht. symmetry. apply trim_id.
        rewrite forallb_forall in C. specialize (C t Ht). now apply andb_true_iff in C.
      + destruct l; [congruence|discriminate].
      + exact C.
  Qed.
End RoundTrip.

(** Several values, each a list of padded entries or wildcards. *)
Lemma comma_parts_padded : forall ls, Forall (fun l => l <> [] /\ forallb pad_ok l = true) ls ->
  map trim (comma_parts (map (fun l => join [44] (map padded l)) ls)) = map core (concat ls).
Proof.
  intros ls H. induction H as [|l ls [N P] H IH]; [reflexivity|].
  unfold comma_parts in *. cbn [map flat_map concat]. rewrite !map_app. f_equal; [|exact IH].
  now apply pieces_padded.
Qed.

(** What the entries of a sequence of trimmed pieces are. *)
Lemma read_parts_cases : forall (A : Type) star (parse : str -> outcome A) (show : A -> str) (l : list (option A)),
  trim star = star ->
  Forall (fun o => match o with None => True | Some x => trim (show x) = show x /\ show x <> star /\ parse (show x) = Ok x end) l ->
  read_parts star parse (map (fun o => match o with None => star | Some x => show x end) l)
  = Ok (flat_map (fun o => match o with None => [] | Some x => [x] end) l, existsb (fun o => match o with None => true | _ => false end) l).
Proof.
  intros A star parse show l Hs H. induction H as [|o l Ho H IH]; [reflexivity|].
  destruct o as [x|]; cbn [map read_parts flat_map existsb].
  - destruct Ho as (T & S & P). rewrite T. destruct (seqb_spec (show x) star); [contradiction|].
    rewrite P, IH. reflexivity.
  - rewrite Hs, seqb_refl, IH. reflexivity.
Qed.

(** A parser that never panics makes a reader that never panics. *)
Lemma read_parts_np : forall (A : Type) star (parse : str -> outcome A) ps, (forall p, parse p <> Panic) ->
  read_parts star parse ps <> Panic.
Proof.
  intros A star parse ps H. induction ps as [|p ps IH]; [discriminate|]. cbn [read_parts].
  destruct (seqb (trim p) star).
  - destruct (read_parts star parse ps) as [[x w]| |]; cbn; congruence.
  - specialize (H (trim p)). destruct (parse (trim p)); cbn; try congruence.
    destruct (read_parts star parse ps) as [[x w]| |]; cbn; congruence.
Qed.

(** ** case and white space *)
Lemma lower_ws : forall c, is_ws (lower_char c) = is_ws c.
Proof. intros c. unfold lower_char, is_ws, is_upper. destruct ((65 <=? c) && (c <=? 90)) eqn:E; lia. Qed.
Lemma lower_drop : forall s, to_lower (drop_while is_ws s) = drop_while is_ws (to_lower s).
Proof.
  induction s as [|c s IH]; [reflexivity|]. unfold to_lower in *. cbn [map drop_while]. rewrite lower_ws.
  destruct (is_ws c); [exact IH|reflexivity].
Qed.
Lemma lower_trim : forall s, to_lower (trim s) = trim (to_lower s).
Proof.
  intros s. unfold trim, trim_matches, trim_end_matches, trim_start_matches. rewrite <- lower_drop.
  unfold to_lower. rewrite map_rev, <- (map_rev _ (drop_while is_ws s)). f_equal. apply lower_drop.
Qed.
Lemma no_edge_of_trim : forall s, trim s = s -> no_edge is_ws s = true.
Proof. intros s H. rewrite <- H. apply trim_matches_no_edge. Qed.

(** ** decimal numbers in texts *)
(** What [str::parse] accepts as an unsigned decimal: digits, perhaps after a plus sign. *)
Definition dec_value (ds : str) : N := fold_left (fun a c => a * 10 + (c - 48)) ds 0.
Definition dec_text (s : str) (n : N) : Prop :=
  exists ds, (s = ds \/ s = 43 :: ds) /\ ds <> [] /\ Forall (fun c => 48 <= c <= 57) ds /\ n = dec_value ds.

Lemma char_digit_10 : forall c, char_digit 10 c = if (48 <=? c) && (c <=? 57) then Some (c - 48) else None.
Proof.
  intros c. unfold char_digit, is_digit.
  destruct ((48 <=? c) && (c <=? 57)) eqn:D.
  - destruct (c - 48 <? 10) eqn:X; [reflexivity|lia].
  - destruct ((97 <=? c) && (c <=? 102)) eqn:L.
    + destruct (c - 87 <? 10) eqn:X; [lia|reflexivity].
    + destruct ((65 <=? c) && (c <=? 70)) eqn:U; [|reflexivity]. destruct (c - 55 <? 10) eqn:X; [lia|reflexivity].
Qed.
Lemma digits_val_10 : forall s a n, digits_val 10 a s = Some n <->
  Forall (fun c => 48 <= c <= 57) s /\ n = fold_left (fun a c => a * 10 + (c - 48)) s a.
Proof.
  induction s as [|c s IH]; intros a n; cbn [digits_val fold_left].
  - split; [intros X; inv X; auto|]. intros [_ ->]. reflexivity.
  - rewrite char_digit_10. destruct ((48 <=? c) && (c <=? 57)) eqn:D.
    + rewrite IH. split.
      * intros [F ->]. split; [constructor; [lia|exact F]|reflexivity].
      * intros [F ->]. inv F. auto.
    + split; [discriminate|]. intros [F _]. inv F. lia.
Qed.
Lemma parse_dec_spec : forall max s n, parse_uint 10 max s = Some n <-> dec_text s n /\ n <= max.
Proof.
  intros max s n. unfold parse_uint, dec_text.
  set (body := match s with c :: s' => if c =? 43 then s' else s | [] => s end).
  assert (B : forall ds, ds <> [] -> Forall (fun c => 48 <= c <= 57) ds -> (s = ds \/ s = 43 :: ds) <-> body = ds).
  { intros ds N F. unfold body. destruct s as [|c s].
    - split; [intros [|]; congruence|]. intros <-. now left.
    - destruct (N.eqb_spec c 43) as [->|D].
      + split; [|intros <-; now right]. intros [E|E]; [|congruence]. subst ds. inv F. lia.
      + split; [|now left]. intros [E|E]; [exact E|congruence]. }
  clearbody body. split.
  - destruct body as [|c b] eqn:E; [discriminate|]. destruct (digits_val 10 0 (c :: b)) as [v|] eqn:V; [|discriminate].
    destruct (v <=? max) eqn:L; [|discriminate]. intros X. inv X. apply digits_val_10 in V as [F ->]. split; [|lia].
    exists (c :: b). split; [apply B; [discriminate|exact F|reflexivity]|]. split; [discriminate|]. auto.
  - intros ((ds & E & N & F & ->) & L). apply B in E; [|exact N|exact F]. subst body.
    destruct ds as [|c b]; [congruence|]. assert (V : digits_val 10 0 (c :: b) = Some (dec_value (c :: b))) by now apply digits_val_10.
    rewrite V. destruct (dec_value (c :: b) <=? max) eqn:X; [reflexivity|lia].
Qed.
