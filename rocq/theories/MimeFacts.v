(** Lemmas about the media type model. *)
From Verif Require Import Base BaseFacts Mime.
From Coq Require Import ZifyBool ZifyNat ZifyN.

(** ** collecting *)
Definition stops (stop : N -> bool) (r : str) : bool := match r with [] => true | c :: _ => stop c end.

Lemma take_while_app_stop p a r : forallb p a = true -> (match r with [] => true | c :: _ => negb (p c) end) = true ->
  take_while p (a ++ r) = a.
Proof.
  induction a as [|x a IH]; intros H R; cbn [app take_while forallb] in *.
  - destruct r as [|c r]; [reflexivity|]. cbn [take_while]. destruct (p c); [discriminate|reflexivity].
  - apply andb_true_iff in H as [-> H]. f_equal. auto.
Qed.

Lemma collect_until_app stop a r : forallb (fun c => negb (stop c)) a = true -> stops stop r = true ->
  collect_until stop (a ++ r) = (a, r).
Proof.
  intros H R. unfold collect_until. f_equal.
  - apply take_while_app_stop; [exact H|]. destruct r as [|c r]; [reflexivity|]. cbn in R. rewrite R. reflexivity.
  - rewrite drop_while_app_all by exact H. apply drop_while_none.
    destruct r as [|c r]; [reflexivity|]. cbn in R. rewrite R. reflexivity.
Qed.

Lemma collect_until_rest stop s a r : collect_until stop s = (a, r) ->
  stops stop r = true /\ s = a ++ r /\ forallb (fun c => negb (stop c)) a = true.
Proof.
  unfold collect_until. intros H. inv H. repeat apply conj.
  - destruct (drop_while (fun c => negb (stop c)) s) as [|c r] eqn:E; [reflexivity|].
    apply drop_while_head in E. cbn. destruct (stop c); [reflexivity|discriminate].
  - induction s as [|c s IH]; cbn [take_while drop_while]; [reflexivity|].
    destruct (negb (stop c)); [cbn [app]; f_equal; exact IH|reflexivity].
  - induction s as [|c s IH]; cbn [take_while]; [reflexivity|].
    destruct (negb (stop c)) eqn:E; [cbn [forallb]; rewrite E; exact IH|reflexivity].
Qed.

Lemma quoted_loop_length : forall n s v, (length s <= n)%nat -> (length (snd (quoted_loop s v)) <= length s)%nat.
Proof.
  induction n as [|n IH]; intros s v H.
  - destruct s; [cbn; lia|cbn in H; lia].
  - destruct s as [|c s]; cbn [quoted_loop]; [cbn; lia|]. cbn [length] in *.
    destruct (c =? 34); [cbn; lia|]. destruct (c =? 92).
    + destruct s as [|c' s]; [cbn; lia|]. cbn [length] in *.
      assert (A := IH s (v ++ [c'])). lia.
    + assert (A := IH s (v ++ [c])). lia.
Qed.

Lemma quoted_loop_escape : forall v acc r, quoted_loop (escape_value v ++ 34 :: r) acc = (acc ++ v, r).
Proof.
  induction v as [|c v IH]; intros acc r.
  - cbn [escape_value flat_map app quoted_loop]. change (34 =? 34) with true. cbv iota. rewrite app_nil_r. reflexivity.
  - change (escape_value (c :: v)) with ((if (c =? 34) || (c =? 92) then [92; c] else [c]) ++ escape_value v).
    destruct ((c =? 34) || (c =? 92)) eqn:E; cbn [app].
    + cbn [quoted_loop]. change (92 =? 34) with false. change (92 =? 92) with true. cbv iota.
      rewrite IH, <- app_assoc. reflexivity.
    + apply orb_false_iff in E as [E1 E2]. cbn [quoted_loop]. rewrite E1, E2.
      rewrite IH, <- app_assoc. reflexivity.
Qed.

(** ** character classes *)
Lemma token_cases c : is_token_cp c = true ->
  c < 128 /\ c <> 34 /\ c <> 47 /\ c <> 59 /\ c <> 61 /\ c <> 92 /\ is_http_ws c = false /\ is_qs_cp c = true /\ c <> 44 /\ is_ws c = false.
Proof.
  unfold is_token_cp, is_http_ws, is_qs_cp, is_lower, is_upper, is_digit, is_ws. cbn [existsb]. intros H.
  repeat (apply orb_true_iff in H as [H|H]); rewrite ?andb_true_iff, ?N.eqb_eq in H; try discriminate H; repeat apply conj; lia.
Qed.

Lemma token_lower c : is_token_cp (lower_char c) = is_token_cp c.
Proof.
  unfold lower_char. destruct (is_upper c) eqn:E; [|reflexivity].
  unfold is_token_cp. rewrite E. rewrite !orb_true_r. cbn [orb].
  replace (is_lower (c + 32)) with true; [rewrite orb_true_r; reflexivity|]. unfold is_upper, is_lower in *. lia.
Qed.
Lemma tokens_lower s : forallb is_token_cp (to_lower s) = forallb is_token_cp s.
Proof. induction s as [|c s IH]; [reflexivity|]. cbn [to_lower map forallb]. rewrite token_lower. f_equal. exact IH. Qed.

Lemma tokens_impl (p : N -> bool) s : (forall c, is_token_cp c = true -> p c = true) ->
  forallb is_token_cp s = true -> forallb p s = true.
Proof. intros H. rewrite !forallb_forall. intros A x Hx. apply H, A, Hx. Qed.

Lemma tokens_trim_end s : forallb is_token_cp s = true -> trim_end_matches is_http_ws s = s.
Proof.
  intros H. apply trim_end_matches_id. destruct (rev s) as [|c r] eqn:E; [reflexivity|].
  assert (I : In c s) by (apply in_rev; rewrite E; left; reflexivity).
  rewrite forallb_forall in H. apply H, token_cases in I. destruct I as (_ & _ & _ & _ & _ & _ & -> & _). reflexivity.
Qed.
Lemma tokens_trim_start a r : forallb is_token_cp a = true -> a <> [] ->
  trim_start_matches is_http_ws (a ++ r) = a ++ r.
Proof.
  intros H N. apply drop_while_none. destruct a as [|c a]; [destruct (N eq_refl)|]. cbn [app forallb] in *.
  apply andb_true_iff in H as [H _]. apply token_cases in H. destruct H as (_ & _ & _ & _ & _ & _ & -> & _). reflexivity.
Qed.

(** ** the invariant of the parameter loop *)
Definition nonempty (s : str) : bool := match s with [] => false | _ => true end.
Definition good_param (p : str * str) : Prop :=
  nonempty (fst p) = true /\ forallb is_token_cp (fst p) = true /\ to_lower (fst p) = fst p /\
  forallb is_qs_cp (snd p) = true /\ p <> (lit "charset", lit "utf-8").
Definition good_params (ps : list (str * str)) : Prop :=
  NoDup (map fst ps) /\ forall p, In p ps -> good_param p.

Lemma existsb_name name ps : existsb (fun p : str * str => seqb (fst p) name) ps = true <-> In name (map fst ps).
Proof.
  rewrite existsb_exists, in_map_iff. split.
  - intros (p & I & E). apply seqb_eq in E. eauto.
  - intros (p & E & I). exists p. rewrite E, seqb_refl. auto.
Qed.

Lemma nodup_snoc (A : Type) (l : list A) a : NoDup l -> ~ In a l -> NoDup (l ++ [a]).
Proof.
  intros H N. apply NoDup_Add with (a := a) (l := l); [|auto].
  rewrite <- (app_nil_r l) at 1. apply Add_app.
Qed.

Lemma push_param_good name value st : to_lower name = name -> good_params (snd st) ->
  good_params (snd (push_param name value st)).
Proof.
  destruct st as [u ps]. cbn [snd]. intros L [D G]. unfold push_param.
  destruct (seqb name (lit "charset") && seqb value (lit "utf-8")) eqn:C; [split; assumption|].
  match goal with |- context [if ?b then _ else _] => destruct b eqn:T end; [|split; assumption].
  destruct (existsb (fun p => seqb (fst p) name) ps) eqn:E; cbn [snd]; [split; assumption|].
  apply andb_true_iff in T as [T T3]. apply andb_true_iff in T as [T1 T2]. split.
  - rewrite map_app. apply nodup_snoc; [exact D|]. intros I. apply (existsb_name name ps) in I. rewrite I in E. discriminate E.
  - intros p I. apply in_app_or in I. destruct I as [I|[<-|[]]]; [auto|].
    unfold good_param; cbn [fst snd]. repeat apply conj; auto.
    + destruct name; [discriminate T1|reflexivity].
    + intros F. inv F. rewrite !seqb_refl in C. discriminate C.
Qed.

Lemma slice1_semi r : slice1 (59 :: r) = Ok r.
Proof. reflexivity. Qed.

Lemma trim_start_length p s : (length (trim_start_matches p s) <= length s)%nat.
Proof.
  unfold trim_start_matches. induction s as [|c s IH]; [cbn; lia|].
  cbn [drop_while]. destruct (p c); cbn [length]; lia.
Qed.

Lemma parse_params_total : forall fuel input st, (length input < fuel)%nat -> stops (N.eqb 59) input = true ->
  good_params (snd st) ->
  exists st', parse_params fuel input st = Ok st' /\ good_params (snd st').
Proof.
  induction fuel as [|f IH]; intros input st L R G; [lia|]. cbn [parse_params].
  destruct input as [|c0 input]; [eauto|]. cbn [stops] in R. apply N.eqb_eq in R. subst c0.
  rewrite slice1_semi. cbn [bind length] in *.
  assert (L1 := trim_start_length is_http_ws input).
  destruct (collect_until (fun c => (c =? 59) || (c =? 61)) (trim_start_matches is_http_ws input)) as [name rest] eqn:E.
  apply collect_until_rest in E. destruct E as (Rr & E & _).
  assert (L2 : (length rest <= length input)%nat).
  { apply (f_equal (@length N)) in E. rewrite app_length in E. lia. }
  destruct rest as [|c rest]; [eauto|]. cbn [stops] in Rr.
  destruct (c =? 59) eqn:C.
  { apply IH; [lia| |exact G]. cbn [stops]. lia. }
  assert (c = 61) by lia. subst c. cbn [slice1]. change (61 <? 128) with true. cbv iota. cbn [bind length] in *.
  assert (GP : forall v, good_params (snd (push_param (to_lower name) v st))) by (intros v; apply push_param_good; [apply to_lower_idem|exact G]).
  destruct (starts_with [34] rest) eqn:SW.
  - destruct rest as [|q rest]; [discriminate SW|]. unfold starts_with in SW. cbn [strip_prefix] in SW.
    destruct (34 =? q) eqn:Q; [|discriminate SW]. apply N.eqb_eq in Q. subst q.
    unfold collect_quoted, slice1. change (34 <? 128) with true. cbn [bind length] in *.
    assert (L3 := quoted_loop_length (length rest) rest [] (le_n _)).
    destruct (quoted_loop rest []) as [value input'] eqn:QL. cbn [bind snd] in *.
    destruct (collect_until (N.eqb 59) input') as [skip input''] eqn:E2.
    apply collect_until_rest in E2. destruct E2 as (R2 & E2 & _).
    apply (f_equal (@length N)) in E2. rewrite app_length in E2.
    apply IH; [lia|exact R2|apply GP].
  - destruct (collect_until (N.eqb 59) rest) as [value input''] eqn:E2.
    apply collect_until_rest in E2. destruct E2 as (R2 & E2 & _).
    apply (f_equal (@length N)) in E2. rewrite app_length in E2.
    destruct (trim_end_matches is_http_ws value); (apply IH; [lia|exact R2|auto]).
Qed.

(** A well formed media type. *)
Definition good_mime (m : mime) : Prop :=
  nonempty (basetype m) = true /\ forallb is_token_cp (basetype m) = true /\ to_lower (basetype m) = basetype m /\
  nonempty (subtype m) = true /\ forallb is_token_cp (subtype m) = true /\ to_lower (subtype m) = subtype m /\
  essence m = basetype m ++ [47] ++ subtype m /\ good_params (params m).

Lemma nonempty_lower s : nonempty (to_lower s) = nonempty s.
Proof. destruct s; reflexivity. Qed.

Lemma mime_parse_good s : (exists m, mime_parse s = Ok m /\ good_mime m) \/ mime_parse s = Err 500.
Proof.
  unfold mime_parse. destruct (collect_until (N.eqb 47) (trim_matches is_http_ws s)) as [base input] eqn:E.
  apply collect_until_rest in E. destruct E as (R & _ & _).
  change (match base with [] => false | _ => true end) with (nonempty base).
  destruct (nonempty base) eqn:NB; cbn [negb]; [|auto].
  destruct (forallb is_token_cp base) eqn:TB; cbn [negb]; [|auto].
  destruct input as [|c input]; [auto|]. cbn [stops] in R. apply N.eqb_eq in R. subst c.
  unfold slice1. change (47 <? 128) with true. cbv iota. cbn [bind].
  destruct (collect_until (N.eqb 59) input) as [sub rest] eqn:E.
  apply collect_until_rest in E. destruct E as (R & _ & _).
  change (match trim_end_matches is_http_ws sub with [] => false | _ => true end) with (nonempty (trim_end_matches is_http_ws sub)).
  set (sb := trim_end_matches is_http_ws sub). clearbody sb. destruct (nonempty sb) eqn:NS; cbn [negb]; [|auto].
  destruct (forallb is_token_cp sb) eqn:TS; cbn [negb]; [|auto].
  destruct (parse_params_total (S (length rest)) rest (false, [])) as (st & -> & G);
    [lia|exact R|split; [constructor|intros p []]|].
  left. eexists. split; [reflexivity|]. unfold good_mime. cbn [basetype subtype essence params bind].
  rewrite !nonempty_lower, !tokens_lower, !to_lower_idem. auto 10.
Qed.

(** ** parsing rendered text *)
Lemma parse_params_render : forall items fuel st,
  (forall n v, In (n, v) items -> nonempty n = true /\ forallb is_token_cp n = true) ->
  (length (flat_map (fun p => format_param (fst p) (snd p)) items) < fuel)%nat ->
  parse_params fuel (flat_map (fun p => format_param (fst p) (snd p)) items) st
  = Ok (fold_left (fun st p => push_param (to_lower (fst p)) (snd p) st) items st).
Proof.
  induction items as [|[n v] items IH]; intros fuel st H L.
  - destruct fuel; [cbn in L; lia|reflexivity].
  - cbn [flat_map fold_left fst snd] in *. destruct fuel as [|f]; [lia|].
    set (rest := flat_map (fun p => format_param (fst p) (snd p)) items) in *.
    assert (SR : stops (N.eqb 59) rest = true).
    { subst rest. destruct items as [|[n' v'] items]; [reflexivity|]. cbn [flat_map fst snd]. unfold format_param.
      destruct (forallb is_token_cp v' && _); reflexivity. }
    destruct (H n v (or_introl eq_refl)) as [NN NT].
    assert (NNe : n <> []) by (destruct n; [discriminate NN|discriminate]).
    assert (NT' : forallb (fun c => negb ((c =? 59) || (c =? 61))) n = true).
    { revert NT. apply tokens_impl. intros c Hc. apply token_cases in Hc. lia. }
    assert (F : forall rest' st', (length rest' < f)%nat -> rest' = rest -> parse_params f rest' st'
        = Ok (fold_left (fun st p => push_param (to_lower (fst p)) (snd p) st) items st')).
    { intros rest' st' L' ->. apply IH; [intros n0 v0 I; apply (H n0 v0); right; exact I|exact L']. }
    unfold format_param. unfold format_param in L.
    destruct (forallb is_token_cp v && negb (match v with [] => true | _ => false end)) eqn:V.
    + rewrite <- !app_assoc in L |- *. cbn [app] in L |- *. cbn [parse_params]. rewrite slice1_semi. cbn [bind].
      rewrite tokens_trim_start by assumption.
      rewrite (collect_until_app _ n (61 :: v ++ rest)) by (first [exact NT' | reflexivity]).
      change (61 =? 59) with false. cbv iota. unfold slice1 at 1. change (61 <? 128) with true. cbv iota. cbn [bind].
      apply andb_true_iff in V as [VT VN]. destruct v as [|v0 v]; [discriminate VN|].
      assert (SW : starts_with [34] ((v0 :: v) ++ rest) = false).
      { unfold starts_with. cbn [app strip_prefix]. cbn [forallb] in VT. apply andb_true_iff in VT as [V0 _].
        apply token_cases in V0. destruct (34 =? v0) eqn:Q; [lia|reflexivity]. }
      rewrite SW.
      rewrite (collect_until_app _ (v0 :: v) rest); [|revert VT; apply tokens_impl; intros c Hc; apply token_cases in Hc; lia|exact SR].
      rewrite tokens_trim_end by exact VT.
      apply F; [|reflexivity]. cbn [length] in L. rewrite !app_length in L. cbn [length] in L. rewrite app_length in L. lia.
    + rewrite <- !app_assoc in L |- *. cbn [app] in L |- *. cbn [parse_params]. rewrite slice1_semi. cbn [bind].
      rewrite tokens_trim_start by assumption.
      rewrite (collect_until_app _ n) by (first [exact NT' | reflexivity]).
      change (61 =? 59) with false. cbv iota. unfold slice1 at 1. change (61 <? 128) with true. cbv iota. cbn [bind].
      change (starts_with [34] (34 :: escape_value v ++ 34 :: rest)) with true. cbv iota.
      unfold collect_quoted, slice1. change (34 <? 128) with true. cbv iota. cbn [bind].
      rewrite quoted_loop_escape. cbn [app].
      rewrite (collect_until_app _ [] rest) by (first [exact SR | reflexivity]).
      apply F; [|reflexivity]. cbn [length] in L. rewrite !app_length in L. cbn [length] in L. rewrite !app_length in L. cbn [length] in L. lia.
Qed.

Definition render (base sub : str) (items : list (str * str)) : str :=
  base ++ [47] ++ sub ++ flat_map (fun p => format_param (fst p) (snd p)) items.

Lemma no_edge_render base sub items : forallb is_token_cp base = true -> nonempty base = true ->
  forallb is_token_cp sub = true -> nonempty sub = true -> no_edge is_http_ws (render base sub items) = true.
Proof.
  intros B NB S NS. unfold no_edge, render. apply andb_true_iff. split.
  - destruct base as [|c base]; [discriminate NB|]. cbn [app]. cbn [forallb] in B. apply andb_true_iff in B as [B _].
    apply token_cases in B. destruct B as (_ & _ & _ & _ & _ & _ & -> & _). reflexivity.
  - assert (LAST : forall a b, b <> [] -> rev (a ++ b) <> [] /\ exists r, rev (a ++ b) = hd 0 (rev b) :: r).
    { intros a b Nb. rewrite rev_app_distr. destruct (rev b) as [|x r] eqn:E.
      - exfalso. apply Nb. apply (f_equal (@rev N)) in E. rewrite rev_involutive in E. exact E.
      - cbn [app hd]. split; [discriminate|eauto]. }
    assert (TOK : forall b, b <> [] -> forallb is_token_cp b = true -> is_http_ws (hd 0 (rev b)) = false).
    { intros b Nb T. destruct (rev b) as [|x r] eqn:E.
      - exfalso. apply Nb. apply (f_equal (@rev N)) in E. rewrite rev_involutive in E. exact E.
      - cbn [hd]. assert (I : In x b) by (apply in_rev; rewrite E; left; reflexivity).
        rewrite forallb_forall in T. apply T, token_cases in I. tauto. }
    enough (A : exists a b, base ++ [47] ++ sub ++ flat_map (fun p => format_param (fst p) (snd p)) items = a ++ b
                 /\ b <> [] /\ is_http_ws (hd 0 (rev b)) = false).
    { destruct A as (a & b & -> & Nb & W). destruct (LAST a b Nb) as (_ & r & ->). rewrite W. reflexivity. }
    assert (C : items = [] \/ exists its p, items = its ++ [p]).
    { destruct (rev items) as [|p its] eqn:E.
      - left. apply (f_equal (@rev _)) in E. rewrite rev_involutive in E. exact E.
      - right. apply (f_equal (@rev _)) in E. rewrite rev_involutive in E. cbn in E. eauto. }
    destruct C as [->|(its & [n v] & ->)].
    + exists (base ++ [47]), sub. cbn [flat_map]. rewrite app_nil_r, <- app_assoc. repeat split.
      * destruct sub; [discriminate NS|discriminate].
      * apply TOK; [destruct sub; [discriminate NS|discriminate]|exact S].
    + rewrite flat_map_app. cbn [flat_map fst snd]. rewrite app_nil_r. unfold format_param.
      destruct (forallb is_token_cp v && negb (match v with [] => true | _ => false end)) eqn:V.
      * apply andb_true_iff in V as [VT VN].
        exists (base ++ [47] ++ sub ++ flat_map (fun p => format_param (fst p) (snd p)) its ++ [59] ++ n ++ [61]), v.
        repeat split; [rewrite <- !app_assoc; reflexivity|destruct v; [discriminate VN|discriminate]|].
        apply TOK; [destruct v; [discriminate VN|discriminate]|exact VT].
      * exists (base ++ [47] ++ sub ++ flat_map (fun p => format_param (fst p) (snd p)) its ++ [59] ++ n ++ [61; 34] ++ escape_value v), [34].
        repeat split; [rewrite <- !app_assoc; reflexivity|discriminate].
Qed.

Lemma mime_parse_render base sub items :
  forallb is_token_cp base = true -> nonempty base = true ->
  forallb is_token_cp sub = true -> nonempty sub = true ->
  (forall n v, In (n, v) items -> nonempty n = true /\ forallb is_token_cp n = true) ->
  let st := fold_left (fun st p => push_param (to_lower (fst p)) (snd p) st) items (false, []) in
  mime_parse (render base sub items)
  = Ok (mkMime (to_lower base ++ [47] ++ to_lower sub) (to_lower base) (to_lower sub) (fst st) (snd st)).
Proof.
  intros B NB S NS H st. unfold mime_parse.
  rewrite trim_matches_id by (apply no_edge_render; assumption). unfold render.
  set (ps := flat_map (fun p => format_param (fst p) (snd p)) items).
  assert (SR : stops (N.eqb 59) ps = true).
  { subst ps. destruct items as [|[n' v'] its]; [reflexivity|]. cbn [flat_map fst snd]. unfold format_param.
    destruct (forallb is_token_cp v' && _); reflexivity. }
  rewrite collect_until_app; [|revert B; apply tokens_impl; intros c Hc; apply token_cases in Hc; lia|reflexivity].
  change (match base with [] => false | _ => true end) with (nonempty base). rewrite NB, B. cbn [negb app].
  unfold slice1. change (47 <? 128) with true. cbv iota. cbn [bind].
  rewrite collect_until_app; [|revert S; apply tokens_impl; intros c Hc; apply token_cases in Hc; lia|exact SR].
  rewrite tokens_trim_end by exact S.
  change (match sub with [] => false | _ => true end) with (nonempty sub). rewrite NS, S. cbn [negb].
  subst ps. rewrite parse_params_render by (first [exact H | lia]). reflexivity.
Qed.

Lemma fold_push_good : forall ps u acc,
  good_params (acc ++ ps) ->
  fold_left (fun st p => push_param (to_lower (fst p)) (snd p) st) ps (u, acc) = (u, acc ++ ps).
Proof.
  induction ps as [|[n v] ps IH]; intros u acc G; cbn [fold_left]; [rewrite app_nil_r; reflexivity|].
  destruct G as [D G]. destruct (G (n, v)) as (G1 & G2 & G3 & G4 & G5); [apply in_or_app; right; left; reflexivity|].
  cbn [fst snd] in *. rewrite G3. unfold push_param.
  destruct (seqb n (lit "charset") && seqb v (lit "utf-8")) eqn:C.
  { apply andb_true_iff in C as [C1 C2]. apply seqb_eq in C1, C2. subst. destruct (G5 eq_refl). }
  replace (negb match n with [] => true | _ => false end) with (nonempty n) by (destruct n; reflexivity).
  rewrite G1, G2, G4. cbn [andb].
  assert (E : existsb (fun p => seqb (fst p) n) acc = false).
  { destruct (existsb (fun p => seqb (fst p) n) acc) eqn:E; [|reflexivity]. apply existsb_name in E.
    rewrite map_app in D. cbn [map fst] in D. apply NoDup_remove_2 in D. exfalso. apply D. apply in_or_app. auto. }
  rewrite E. rewrite IH.
  - rewrite <- app_assoc. reflexivity.
  - rewrite <- app_assoc. split; assumption.
Qed.

Lemma mime_round_trip m : good_mime m -> mime_parse (mime_format m) = Ok m.
Proof.
  intros (B1 & B2 & B3 & S1 & S2 & S3 & E & G).
  set (items := (if is_utf8 m then [(lit "charset", lit "utf-8")] else []) ++ params m).
  assert (R : mime_format m = render (basetype m) (subtype m) items).
  { unfold mime_format, render, items. rewrite E, flat_map_app, <- !app_assoc. f_equal. f_equal. f_equal. f_equal.
    destruct (is_utf8 m); reflexivity. }
  rewrite R, mime_parse_render; try assumption.
  - rewrite B3, S3. subst items.
    assert (F : fold_left (fun st p => push_param (to_lower (fst p)) (snd p) st)
      ((if is_utf8 m then [(lit "charset", lit "utf-8")] else []) ++ params m) (false, []) = (is_utf8 m, params m)).
    { rewrite fold_left_app. destruct (is_utf8 m); cbn [fold_left].
      - change (push_param (to_lower (fst (lit "charset", lit "utf-8"))) (snd (lit "charset", lit "utf-8")) (false, [])) with (true, @nil (str * str)).
        rewrite fold_push_good by exact G. reflexivity.
      - rewrite fold_push_good by exact G. reflexivity. }
    rewrite F. cbn [fst snd]. rewrite <- E. destruct m; reflexivity.
  - intros n v I. unfold items in I. apply in_app_or in I. destruct I as [I|I].
    + destruct (is_utf8 m); [|destruct I]. destruct I as [I|[]]. inv I. split; reflexivity.
    + destruct G as [_ G]. apply G in I. destruct I as (I1 & I2 & _). auto.
Qed.
