(** C101: what a browser reads in a Content-Security-Policy written by this crate. *)
From Verif Require Import Base BaseFacts Headers HeadersFacts Security SecurityProps AlikeProps DebugProps ReportTo.
From Coq Require Import ZifyBool ZifyNat ZifyN Permutation Sorted.

(** ** How a policy is read: CSP Level 3, sections 2.2.1 and 2.2.2
    The header is cut at commas into policies, each policy at semicolons into directives, each directive at white space; names
    are lower-cased, a second directive of the same name is ignored, and so are policies without a directive. *)
Definition white (c : N) : bool := (c =? 32) || (c =? 9) || (c =? 10) || (c =? 12) || (c =? 13).
Fixpoint words (s : str) : list str :=
  match s with
  | [] => []
  | c :: t =>
      if white c then words t
      else match t with
           | [] => [[c]]
           | d :: _ => if white d then [c] :: words t else match words t with w :: ws => (c :: w) :: ws | [] => [[c]] end
           end
  end.
Definition read_directive (t : str) : list (str * list str) :=
  match words t with n :: ws => [(to_lower n, ws)] | [] => [] end.
Fixpoint first_named (l : list (str * list str)) : list (str * list str) :=
  match l with [] => [] | e :: r => e :: filter (fun e' => negb (seqb (fst e') (fst e))) (first_named r) end.
Definition read_policy (t : str) : list (str * list str) := first_named (flat_map read_directive (split 59 t)).
Definition read_csp (t : str) : list (list (str * list str)) :=
  filter (fun p => match p with [] => false | _ => true end) (map read_policy (split 44 t)).

(** ** What the calls ask for: each directive with the words of its sources in call order, and the two flags. *)
Definition asked (ks : list call) (n : str) (ws : list str) : Prop :=
  (exists d s, In (Directive d s) ks /\ n = directive_str d /\ ws = flat_map words (sources_of (directive_str d) ks)) \/
  (In BlockAllMixedContent ks /\ n = lit "block-all-mixed-content" /\ ws = []) \/
  (In UpgradeInsecureRequests ks /\ n = lit "upgrade-insecure-requests" /\ ws = []).
(** The reading of [t] is that: one policy with these directives, or none when nothing is asked for. *)
Definition read_as_asked (ks : list call) (t : str) : Prop :=
  exists p, read_csp t = (match p with [] => [] | _ => [p] end) /\ NoDup (map fst p) /\ forall n ws, In (n, ws) p <-> asked ks n ws.
Definition separator_free (s : str) : Prop := no_char 44 s = true /\ no_char 59 s = true.
Definition reports (ks : list call) : list str :=
  flat_map (fun k => match k with ReportTo js => flat_map (fun j => match j with Some s => [s] | None => [] end) js | _ => [] end) ks.

(** ** Words *)
Lemma words_white : forall c s, white c = true -> words (c :: s) = words s.
Proof. intros c s W. cbn [words]. now rewrite W. Qed.
Lemma words_nil : forall c s, white c = false -> words (c :: s) <> [].
Proof. intros c s W. cbn [words]. rewrite W. destruct s as [|d s]; [discriminate|]. destruct (white d); [discriminate|]. destruct (words (d :: s)); discriminate. Qed.
Lemma words_cut : forall c d s, white c = false -> white d = true -> words (c :: d :: s) = [c] :: words (d :: s).
Proof. intros c d s W V. cbn [words]. now rewrite W, V. Qed.
Lemma words_on : forall c d s, white c = false -> white d = false ->
  words (c :: d :: s) = match words (d :: s) with w :: ws => (c :: w) :: ws | [] => [[c]] end.
Proof. intros c d s W V. cbn [words]. now rewrite W, V. Qed.
Lemma words_app : forall a b, words (a ++ 32 :: b) = words a ++ words b.
Proof.
  induction a as [|c a IH]; intros b; [reflexivity|]. cbn [app].
  destruct (white c) eqn:W; [rewrite !words_white by exact W; apply IH|].
  destruct a as [|d a]; [cbn [app words]; rewrite W; reflexivity|]. cbn [app] in *. destruct (white d) eqn:V.
  - rewrite !words_cut by assumption. now rewrite IH.
  - rewrite !words_on by assumption. rewrite IH. assert (N := words_nil d a V). destruct (words (d :: a)) as [|w ws]; [elim N; reflexivity|]. reflexivity.
Qed.
Lemma words_concat : forall s, concat (words s) = filter (fun c => negb (white c)) s.
Proof.
  induction s as [|c s IH]; [reflexivity|]. cbn [filter]. destruct (white c) eqn:W; cbn [negb]; [rewrite words_white by exact W; exact IH|].
  destruct s as [|d s]; [cbn [words]; now rewrite W|]. destruct (white d) eqn:V.
  - rewrite words_cut by assumption. cbn [concat app]. now rewrite IH.
  - rewrite words_on by assumption. assert (N := words_nil d s V). destruct (words (d :: s)) as [|w ws]; [elim N; reflexivity|].
    cbn [concat app] in IH |- *. now rewrite IH.
Qed.
Lemma words_join : forall l, words (join (lit " ") l) = flat_map words l.
Proof.
  induction l as [|x l IH]; [reflexivity|]. destruct l as [|y l]; [cbn [join flat_map]; now rewrite app_nil_r|].
  change (join (lit " ") (x :: y :: l)) with (x ++ 32 :: join (lit " ") (y :: l)). rewrite words_app, IH. reflexivity.
Qed.
Lemma words_no_char : forall c s w, no_char c s = true -> In w (words s) -> no_char c w = true.
Proof.
  intros c s w N I. unfold no_char in *. rewrite forallb_forall in *. intros x X. apply N.
  assert (J : In x (concat (words s))) by (apply in_concat; exists w; auto).
  rewrite words_concat in J. apply filter_In in J. apply J.
Qed.

(** ** Directives *)
Lemma first_named_in : forall l n w, In (n, w) (first_named l) -> In (n, w) l.
Proof.
  induction l as [|e l IH]; intros n w I; [exact I|]. cbn [first_named] in I. destruct I as [->|I]; [left; reflexivity|].
  apply filter_In in I as [I _]. right. now apply IH.
Qed.
Lemma first_named_complete : forall l, (forall n w1 w2, In (n, w1) l -> In (n, w2) l -> w1 = w2) -> forall n w, In (n, w) l -> In (n, w) (first_named l).
Proof.
  induction l as [|[m v] l IH]; intros F n w I; [exact I|]. cbn [first_named fst]. destruct (seqb_spec n m) as [->|E].
  - left. f_equal. apply (F m); [left; reflexivity|exact I].
  - right. apply filter_In. destruct I as [I|I]; [congruence|]. split.
    + apply IH; [|exact I]. intros n' w1 w2 A B. apply (F n'); right; assumption.
    + cbn [fst]. apply negb_true_iff. now apply seqb_neq.
Qed.
Lemma first_named_nodup : forall l, NoDup (map fst (first_named l)).
Proof.
  assert (G : forall (f : str * list str -> bool) l, NoDup (map fst l) -> NoDup (map fst (filter f l))).
  { intros f l. induction l as [|x l IH]; intros D; [constructor|]. cbn [map] in D. inv D. cbn [filter]. destruct (f x); [|now apply IH].
    cbn [map]. constructor; [|now apply IH]. intros I. apply in_map_iff in I as (y & E & I). apply filter_In in I as [I _].
    match goal with N : ~ In _ _ |- _ => apply N end. rewrite <- E. now apply in_map. }
  induction l as [|e l IH]; [constructor|]. cbn [first_named map]. constructor; [|now apply G].
  intros I. apply in_map_iff in I as (y & E & I). apply filter_In in I as [_ N]. rewrite E, seqb_refl in N. discriminate.
Qed.
Lemma directive_words : forall d, words (directive_str d) = [directive_str d] /\ to_lower (directive_str d) = directive_str d.
Proof. intros []; vm_compute; split; reflexivity. Qed.

(** ** The parts of the value *)
Lemma parts_read : forall ks, reports ks = [] -> forall n ws,
  In (n, ws) (flat_map read_directive (wanted ks)) <-> asked ks n ws.
Proof.
  intros ks R n ws. rewrite in_flat_map. unfold wanted. split.
  - intros (p & I & J). apply in_app_or in I as [I|I].
    + unfold flags_of in I. apply in_flat_map in I as (k & K & I). destruct k as [d s| | |js|]; try (destruct I; fail).
      * destruct I as [<-|[]]. vm_compute in J. destruct J as [J|[]]. injection J as <- <-. right; left. auto.
      * destruct I as [<-|[]]. vm_compute in J. destruct J as [J|[]]. injection J as <- <-. right; right. auto.
      * exfalso. apply in_flat_map in I as ([j|] & I & I'); [|destruct I'].
        assert (X : In j (reports ks)) by (apply in_flat_map; exists (ReportTo js); split; [exact K|]; apply in_flat_map; exists (Some j); split; [exact I|left; reflexivity]).
        rewrite R in X. destruct X.
    + apply in_map_iff in I as (m & <- & I). apply nodup_In in I. unfold call_names in I. apply in_flat_map in I as (k & K & I).
      destruct k as [d s| | |js|]; try (destruct I; fail). destruct I as [<-|[]].
      unfold read_directive in J. change (directive_str d ++ lit " " ++ ?x) with (directive_str d ++ 32 :: x) in J. rewrite words_app in J.
      destruct (directive_words d) as [W L]. rewrite W, words_join in J. cbn [app] in J. rewrite L in J. destruct J as [J|[]]. inv J.
      left. exists d, s. auto.
  - intros [(d & s & K & -> & ->)|[(K & -> & ->)|(K & -> & ->)]].
    + exists (directive_str d ++ lit " " ++ join (lit " ") (sources_of (directive_str d) ks)). split.
      * apply in_or_app. right. apply in_map_iff. exists (directive_str d). split; [reflexivity|]. apply nodup_In.
        unfold call_names. apply in_flat_map. exists (Directive d s). split; [exact K|left; reflexivity].
      * unfold read_directive. change (directive_str d ++ lit " " ++ ?x) with (directive_str d ++ 32 :: x). rewrite words_app.
        destruct (directive_words d) as [W L]. rewrite W, words_join. cbn [app]. rewrite L. left. reflexivity.
    + exists (lit "block-all-mixed-content"). split; [|vm_compute; left; reflexivity]. apply in_or_app. left. unfold flags_of. apply in_flat_map.
      exists BlockAllMixedContent. split; [exact K|left; reflexivity].
    + exists (lit "upgrade-insecure-requests"). split; [|vm_compute; left; reflexivity]. apply in_or_app. left. unfold flags_of. apply in_flat_map.
      exists UpgradeInsecureRequests. split; [exact K|left; reflexivity].
Qed.
Lemma asked_once : forall ks n w1 w2, asked ks n w1 -> asked ks n w2 -> w1 = w2.
Proof.
  intros ks n w1 w2 [(d & s & K & -> & ->)|[(K & -> & ->)|(K & -> & ->)]] [(d' & s' & K' & E & ->)|[(K' & E & ->)|(K' & E & ->)]];
    try reflexivity; try (destruct d; discriminate E); try (destruct d'; discriminate E).
  now rewrite E.
Qed.
Lemma no_char_app : forall c a b, no_char c (a ++ b) = no_char c a && no_char c b.
Proof. intros c a b. unfold no_char. apply forallb_app. Qed.
Lemma no_char_join : forall c sep l, no_char c sep = true -> Forall (fun x => no_char c x = true) l -> no_char c (join sep l) = true.
Proof.
  intros c sep l S F. induction F as [|x l X F IH]; [reflexivity|]. destruct l as [|y l]; [exact X|].
  change (join sep (x :: y :: l)) with (x ++ sep ++ join sep (y :: l)). rewrite !no_char_app, X, S. exact IH.
Qed.
Lemma parts_free : forall c ks, reports ks = [] -> c = 44 \/ c = 59 -> (forall d s, In (Directive d s) ks -> no_char c s = true) ->
  Forall (fun p => no_char c p = true) (wanted ks).
Proof.
  intros c ks R C F. apply Forall_forall. intros p I. unfold wanted in I. apply in_app_or in I as [I|I].
  - unfold flags_of in I. apply in_flat_map in I as (k & K & I). destruct k as [d s| | |js|]; try (destruct I; fail).
    + destruct I as [<-|[]]. destruct C as [->| ->]; reflexivity.
    + destruct I as [<-|[]]. destruct C as [->| ->]; reflexivity.
    + exfalso. apply in_flat_map in I as ([j|] & I & I'); [|destruct I'].
      assert (X : In j (reports ks)) by (apply in_flat_map; exists (ReportTo js); split; [exact K|]; apply in_flat_map; exists (Some j); split; [exact I|left; reflexivity]).
      rewrite R in X. destruct X.
  - apply in_map_iff in I as (m & <- & I). apply nodup_In in I. unfold call_names in I. apply in_flat_map in I as (k & K & I).
    destruct k as [d s| | |js|]; try (destruct I; fail). destruct I as [<-|[]]. rewrite !no_char_app.
    assert (no_char c (directive_str d) = true) as ->. { destruct C as [->| ->]; destruct d; reflexivity. }
    assert (no_char c (lit " ") = true) as S by (destruct C as [->| ->]; reflexivity). rewrite S. cbn [andb].
    apply no_char_join; [exact S|]. apply Forall_forall. intros x X. unfold sources_of in X. apply in_flat_map in X as (k' & K' & X).
    destruct k' as [d' s'| | |js'|]; try (destruct X; fail). destruct (seqb (directive_str d) (directive_str d')); [|destruct X].
    destruct X as [<-|[]]. now apply (F d').
Qed.
(** The text is read directive by directive when no part has a separator. *)
Lemma policy_read : forall parts, Forall (fun p => no_char 59 p = true) parts ->
  flat_map read_directive (split 59 (join (lit "; ") parts)) = flat_map read_directive parts.
Proof.
  intros parts F. destruct parts as [|x l]; [reflexivity|]. change (lit "; ") with [59; 32]. inv F.
  rewrite split_join_space by (reflexivity || assumption || (constructor; assumption)).
  cbn [flat_map]. f_equal. rewrite !flat_map_concat_map, map_map. f_equal. 
Qed.

(** ** C101 *)
Lemma read_free : forall t p n ws w, In p (read_csp t) -> In (n, ws) p -> In w ws -> separator_free w.
Proof.
  intros t p n ws w P I W. unfold read_csp in P. apply filter_In in P as [P _]. apply in_map_iff in P as (q & <- & Q).
  assert (C := split_pieces 44 t). rewrite Forall_forall in C. apply C in Q. unfold read_policy in I. apply first_named_in in I.
  apply in_flat_map in I as (d & D & I). assert (S := split_pieces 59 q). rewrite Forall_forall in S.
  assert (S' := S d D). cbn beta in S'. assert (Q' : no_char 44 d = true).
  { unfold no_char in *. rewrite forallb_forall in *. intros x X. apply Q. rewrite <- (split_join_inv 59 q).
    clear - D X. induction (split 59 q) as [|y l IH]; [destruct D|]. destruct l as [|z l]; [destruct D as [->|[]]; exact X|].
    change (join [59] (y :: z :: l)) with (y ++ [59] ++ join [59] (z :: l)). apply in_or_app.
    destruct D as [->|D]; [left; exact X|right]. apply in_or_app. right. now apply IH. }
  unfold read_directive in I. destruct (words d) as [|m v] eqn:E; [destruct I|]. destruct I as [I|[]]. inv I.
  split; eapply words_no_char; try eassumption; rewrite E; right; exact W.
Qed.
Lemma asked_free : forall ks n ws d s c, (forall w, In w ws -> no_char c w = true) -> white c = false ->
  In (Directive d s) ks -> n = directive_str d -> ws = flat_map words (sources_of (directive_str d) ks) -> no_char c s = true.
Proof.
  intros ks n ws d s c F W K _ ->. unfold no_char. apply forallb_forall. intros x X. apply negb_true_iff. apply N.eqb_neq. intros ->.
  assert (I : In c (concat (words s))). { rewrite words_concat. apply filter_In. split; [exact X|]. now rewrite W. }
  apply in_concat in I as (w & I & J). assert (H : no_char c w = true).
  { apply F. apply in_flat_map. exists s. split; [|exact I]. unfold sources_of. apply in_flat_map. exists (Directive d s). split; [exact K|].
    rewrite seqb_refl. left. reflexivity. }
  unfold no_char in H. rewrite forallb_forall in H. apply H in J. rewrite N.eqb_refl in J. discriminate.
Qed.

(** Without [report_to]: the browser reads one policy with exactly the directives, sources and flags that were asked for, if and
    only if no source has a comma or a semicolon in it. *)
Theorem C101_read_as_asked : forall ks order, Permutation order (directives (build csp_new ks)) -> reports ks = [] ->
  (read_as_asked ks (snd (csp_value (build csp_new ks) order)) <-> forall d s, In (Directive d s) ks -> separator_free s).
Proof.
  intros ks order P R. destruct (C61_first_value ks order P) as (parts & -> & W & _). split.
  - intros (p & E & _ & A) d s K. set (ws := flat_map words (sources_of (directive_str d) ks)).
    assert (I : In (directive_str d, ws) p) by (apply A; left; exists d, s; auto).
    assert (F : forall w, In w ws -> separator_free w).
    { intros w X. eapply (read_free _ p); [|exact I|exact X]. rewrite E. destruct p; [destruct I|left; reflexivity]. }
    split; eapply asked_free; try reflexivity; try eassumption; intros w X; now apply F.
  - intros F. assert (G : forall c, c = 44 \/ c = 59 -> Forall (fun p => no_char c p = true) parts).
    { intros c C. assert (H : Forall (fun p => no_char c p = true) (wanted ks)).
      { apply parts_free; try assumption. intros d s K. destruct (F d s K). destruct C as [->| ->]; assumption. }
      rewrite Forall_forall in *. intros x X. apply H. eapply Permutation_in; eassumption. }
    assert (T : no_char 44 (join (lit "; ") parts) = true) by (apply no_char_join; [reflexivity|apply G; auto]).
    exists (read_policy (join (lit "; ") parts)). unfold read_csp. rewrite split_no_char by exact T. cbn [map filter].
    split; [destruct (read_policy _); reflexivity|]. split; [apply first_named_nodup|]. unfold read_policy.
    rewrite policy_read by (apply G; auto).
    assert (H : forall n ws, In (n, ws) (flat_map read_directive parts) <-> asked ks n ws).
    { intros n ws. rewrite <- (parts_read ks R n ws). rewrite !in_flat_map. split; intros (x & X & Y); exists x; (split; [|exact Y]).
      - eapply Permutation_in; eassumption.
      - eapply Permutation_in; [apply Permutation_sym; exact W|exact X]. }
    intros n ws. rewrite <- H. split; [apply first_named_in|]. apply first_named_complete.
    intros m w1 w2 A B. apply H in A, B. eapply asked_once; eassumption.
Qed.
Print Assumptions C101_read_as_asked.
Example C101_read_example :
  let ks := [Directive DefaultSrc (source_str SameOrigin); Directive DefaultSrc (lit "areweasyncyet.rs  a.example");
             UpgradeInsecureRequests; Directive ScriptSrc (source_str UnsafeInline); UpgradeInsecureRequests] in
  reports ks = [] /\ (forall d s, In (Directive d s) ks -> separator_free s) /\
  read_csp (snd (csp_value (build csp_new ks) (rev (directives (build csp_new ks))))) =
    [[(lit "default-src", [lit "'self'"; lit "areweasyncyet.rs"; lit "a.example"]); (lit "script-src", [lit "'unsafe-inline'"]);
      (lit "upgrade-insecure-requests", [])]].
Proof.
  cbn zeta. split; [reflexivity|]. split; [|vm_compute; reflexivity]. intros d s I. cbn [In] in I.
  repeat (destruct I as [I|I]; [try discriminate I; injection I as <- <-; split; vm_compute; reflexivity|]). destruct I.
Qed.
(** False of the code: what is asked for is what is read.  A source with a semicolon adds a directive, and one with a comma a policy. *)
Theorem C101_injection_refuted : exists s1 s2,
  (let c := build csp_new [Directive ImgSrc s1] in read_csp (snd (csp_value c (directives c))) = [[(lit "img-src", [lit "a"]); (lit "script-src", [lit "*"])]]) /\
  (let c := build csp_new [Directive ImgSrc s2] in read_csp (snd (csp_value c (directives c))) = [[(lit "img-src", [lit "a"])]; [(lit "sandbox", [])]]).
Proof. exists (lit "a; script-src *"), (lit "a, sandbox"). vm_compute. auto. Qed.
Print Assumptions C101_injection_refuted.

(** ** The [report-to] texts *)
Lemma json_comma : forall r, no_char 44 (report_json r) = false.
Proof.
  intros r. apply not_true_is_false. intros H. unfold no_char in H. rewrite forallb_forall in H.
  assert (I : In 44 (report_json r)).
  { unfold report_json, report_fields. apply in_or_app. right. apply in_or_app. left.
    assert (G : forall (l l2 : list str) x y, In 44 (join [44] (l ++ [x; y] ++ l2))).
    { intros l l2 x y. induction l as [|z l IH].
      - cbn [app]. change (join [44] (x :: y :: l2)) with (x ++ [44] ++ join [44] (y :: l2)). apply in_or_app. right. left. reflexivity.
      - cbn [app] in *. destruct (l ++ x :: y :: l2) as [|u v] eqn:E; [destruct l; discriminate E|].
        change (join [44] (z :: u :: v)) with (z ++ [44] ++ join [44] (u :: v)). apply in_or_app. right. apply in_or_app. right. exact IH. }
    apply G. }
  apply H in I. discriminate I.
Qed.
(** Whatever is written for [report_to], no directive that is read has it as its value: the JSON text always has a comma, at which
    the header is cut into two policies. *)
Theorem C101_report_to : forall r t p ws, In p (read_csp t) -> In (lit "report-to", ws) p -> ws <> words (report_json r).
Proof.
  intros r t p ws P I ->. assert (F := fun w X => proj1 (read_free t p _ _ w P I X)).
  assert (H := json_comma r). apply not_true_iff_false in H. apply H. unfold no_char. apply forallb_forall. intros x X.
  apply negb_true_iff, N.eqb_neq. intros ->. assert (J : In 44 (concat (words (report_json r)))).
  { rewrite words_concat. apply filter_In. split; [exact X|reflexivity]. }
  apply in_concat in J as (w & J & Y). apply F in J. unfold no_char in J. rewrite forallb_forall in J. apply J in Y. discriminate Y.
Qed.
Print Assumptions C101_report_to.
(** False of the code: [report_to] leaves the rest of the policy as it was.  Here [script-src] ends up in another policy than
    [default-src], so the scripts it allows are refused by the first; and a group name can add a directive of its own. *)
Theorem C101_report_to_refuted : exists r1 r2,
  (let c := build csp_new [Directive DefaultSrc (source_str SameOrigin); report_to [r1]; Directive ScriptSrc (lit "cdn.example")] in
   snd (csp_value c (directives c)) =
     lit "default-src 'self'; report-to {""max_age"":60,""endpoints"":[{""url"":""https://r.example""}]}; script-src cdn.example" /\
   read_csp (snd (csp_value c (directives c))) =
     [[(lit "default-src", [lit "'self'"]); (lit "report-to", [lit "{""max_age"":60"])];
      [(lit """endpoints"":[{""url"":""https://r.example""}]}", []); (lit "script-src", [lit "cdn.example"])]]) /\
  (let c := build csp_new [report_to [r2]] in
   nth 0 (read_csp (snd (csp_value c (directives c)))) [] = [(lit "report-to", [lit "{""group"":""a"]); (lit "script-src", [lit "*"]); (lit "b""", [])]).
Proof.
  exists (Report None 60 [lit "https://r.example"] None), (Report (Some (lit "a; script-src *; b")) 60 [] (Some true)). vm_compute. auto.
Qed.
Print Assumptions C101_report_to_refuted.
(** *** Different values are written differently *)
Definition unhex (c : N) : N := if c <? 58 then c - 48 else c - 87.
Definition unjson (s : str) : option (N * str) :=
  match s with
  | [] => None
  | c :: t =>
      if c =? 34 then None
      else if negb (c =? 92) then Some (c, t)
      else match t with
           | [] => None
           | e :: t' =>
               if e =? 34 then Some (34, t') else if e =? 92 then Some (92, t') else if e =? 98 then Some (8, t') else if e =? 116 then Some (9, t')
               else if e =? 110 then Some (10, t') else if e =? 102 then Some (12, t') else if e =? 114 then Some (13, t')
               else match t' with _ :: _ :: h :: l :: u => Some (16 * unhex h + unhex l, u) | _ => None end
           end
  end.
Lemma unhex_hex : forall n, n < 16 -> unhex (hex_char n) = n.
Proof. intros n L. unfold unhex, hex_char. destruct (N.ltb_spec n 10); [rewrite (proj2 (N.ltb_lt _ _)) by lia|rewrite (proj2 (N.ltb_ge _ _)) by lia]; lia. Qed.
Lemma unjson_char : forall c x, unjson (json_char c ++ x) = Some (c, x).
Proof.
  intros c x. unfold json_char.
  repeat match goal with |- context [if c =? ?k then _ else _] => destruct (N.eqb_spec c k) as [->|?]; [reflexivity|] end.
  destruct (N.ltb_spec c 32) as [L|L].
  - change (lit "\u00") with [92; 117; 48; 48]. 
    change (Some (16 * unhex (hex_char (c / 16)) + unhex (hex_char (c mod 16)), x) = Some (c, x)).
    rewrite !unhex_hex by (try apply N.mod_lt; try apply N.div_lt_upper_bound; lia). f_equal. f_equal. symmetry. apply N.div_mod. lia.
  - cbn [app unjson]. rewrite (proj2 (N.eqb_neq c 34)), (proj2 (N.eqb_neq c 92)) by assumption. reflexivity.
Qed.
Lemma json_text : forall s s' r r', flat_map json_char s ++ 34 :: r = flat_map json_char s' ++ 34 :: r' -> s = s' /\ r = r'.
Proof.
  induction s as [|c s IH]; intros [|d s'] r r' E; cbn [flat_map] in E; rewrite <- ?app_assoc in E.
  - cbn [app] in E. inv E. auto.
  - apply (f_equal unjson) in E. rewrite unjson_char in E. discriminate E.
  - apply (f_equal unjson) in E. rewrite unjson_char in E. discriminate E.
  - apply (f_equal unjson) in E. rewrite !unjson_char in E. assert (E2 : flat_map json_char s ++ 34 :: r = flat_map json_char s' ++ 34 :: r') by congruence.
    apply IH in E2 as [-> ->]. split; congruence.
Qed.
Lemma json_str_once : forall s s' r r', json_str s ++ r = json_str s' ++ r' -> s = s' /\ r = r'.
Proof. intros s s' r r' E. unfold json_str in E. rewrite <- !app_assoc in E. apply app_inv_head in E. now apply json_text in E. Qed.
Lemma json_int_once : forall z z' r r', json_int z ++ 44 :: r = json_int z' ++ 44 :: r' -> z = z' /\ r = r'.
Proof.
  assert (D : forall n n' r r', show_dec n ++ 44 :: r = show_dec n' ++ 44 :: r' -> n = n' /\ r = r').
  { intros n n' r r' E. apply dec_delim in E as [-> E]; [|cbn; auto 10|cbn; auto 10]. split; congruence. }
  assert (H : forall n r r', show_dec n ++ 44 :: r <> 45 :: r').
  { intros n r r' E. assert (F := show_dec_digits n). assert (NE := show_dec_nonempty n). destruct (show_dec n) as [|c t]; [congruence|].
    cbn [app forallb] in *. inv E. discriminate F. }
  intros z z' r r' E. unfold json_int in E. destruct (Z.ltb_spec z 0), (Z.ltb_spec z' 0); cbn [app] in E.
  - assert (E2 : show_dec (Z.to_N (- z)) ++ 44 :: r = show_dec (Z.to_N (- z')) ++ 44 :: r') by congruence. apply D in E2 as [E2 ->]. split; [lia|reflexivity].
  - symmetry in E. now apply H in E.
  - now apply H in E.
  - apply D in E as [E ->]. split; [lia|reflexivity].
Qed.
Definition endpoint_json (u : str) : str := lit "{" ++ json_str (lit "url") ++ [58] ++ json_str u ++ lit "}".
Lemma endpoints_once : forall l l' r r', join [44] (map endpoint_json l) ++ 93 :: r = join [44] (map endpoint_json l') ++ 93 :: r' -> l = l' /\ r = r'.
Proof.
  assert (I : forall u u' r r', endpoint_json u ++ r = endpoint_json u' ++ r' -> u = u' /\ r = r').
  { intros u u' r r' E. unfold endpoint_json in E. rewrite <- !app_assoc in E. do 3 apply app_inv_head in E. apply json_str_once in E as [-> E].
    split; [reflexivity|]. now apply app_inv_head in E. }
  assert (T : forall l l' r r', flat_map (fun y => [44] ++ y) (map endpoint_json l) ++ 93 :: r = flat_map (fun y => [44] ++ y) (map endpoint_json l') ++ 93 :: r' -> l = l' /\ r = r').
  { induction l as [|x l IH]; intros [|y l'] r r' E; cbn [map flat_map] in E.
    - cbn [app] in E. inv E. auto.
    - discriminate E.
    - discriminate E.
    - rewrite <- !app_assoc in E. apply app_inv_head in E. apply I in E as [-> E]. apply IH in E as [-> ->]. auto. }
  intros [|x l] [|y l'] r r' E; cbn [map] in E; rewrite ?join_cons in E.
  - cbn [join app] in E. inv E. auto.
  - discriminate E.
  - discriminate E.
  - rewrite <- !app_assoc in E. apply I in E as [-> E]. apply T in E as [-> ->]. auto.
Qed.
Ltac drop1 E := apply (f_equal (@tl N)) in E; cbn [tl] in E.
(** The text written for [report_to] says what it was written from; it never has a line break or another control character below
    the space in it, whatever the group and the addresses are. *)
Theorem C101_report_text : forall r1 r2, (report_json r1 = report_json r2 <-> r1 = r2) /\ forall c, In c (report_json r1) -> 32 <= c.
Proof.
  intros r1 r2. split; [split; [|now intros ->]|].
  - destruct r1 as [g1 m1 e1 i1], r2 as [g2 m2 e2 i2]. unfold report_json, report_fields. cbn [group max_age endpoints include_subdomains]. fold endpoint_json.
    intros E. apply app_inv_head in E.
    assert (X : g1 = g2 /\ join [44] ([json_str (lit "max_age") ++ [58] ++ json_int m1; json_str (lit "endpoints") ++ [58] ++ lit "[" ++ join [44] (map endpoint_json e1) ++ lit "]"] ++
        match i1 with Some b => [json_str (lit "include_subdomains") ++ [58] ++ (if b then lit "true" else lit "false")] | None => [] end) ++ lit "}" =
      join [44] ([json_str (lit "max_age") ++ [58] ++ json_int m2; json_str (lit "endpoints") ++ [58] ++ lit "[" ++ join [44] (map endpoint_json e2) ++ lit "]"] ++
        match i2 with Some b => [json_str (lit "include_subdomains") ++ [58] ++ (if b then lit "true" else lit "false")] | None => [] end) ++ lit "}").
    { destruct g1 as [g1|], g2 as [g2|]; cbn [app] in E |- *.
      - change (join [44] (?x :: ?y :: ?z)) with (x ++ [44] ++ join [44] (y :: z)) in E. rewrite <- !app_assoc in E. apply app_inv_head in E. cbn [app] in E. drop1 E.
        apply json_str_once in E as [-> E]. drop1 E. auto.
      - discriminate E.
      - discriminate E.
      - auto. }
    destruct X as [-> X]. clear E. rename X into E. cbn [app] in E. rewrite !join_cons in E. cbn [flat_map] in E. rewrite <- !app_assoc in E.
    apply app_inv_head in E. cbn [app] in E. drop1 E. apply json_int_once in E as [-> E]. rewrite <- !app_assoc in E. apply app_inv_head in E.
    cbn [app] in E. do 2 drop1 E. apply endpoints_once in E as [-> E]. assert (i1 = i2) as ->; [|reflexivity].
    destruct i1 as [[]|], i2 as [[]|]; try reflexivity; vm_compute in E; discriminate E.
  - intros c I. unfold report_json, report_fields in I.
    assert (J : forall s c, In c (json_str s) -> 32 <= c).
    { clear. intros s c I. unfold json_str in I. apply in_app_or in I as [[<-|[]]|I]; [lia|]. apply in_app_or in I as [I|[<-|[]]]; [|lia].
      apply in_flat_map in I as (x & _ & I). unfold json_char in I.
      repeat match type of I with context [if x =? ?k then _ else _] => destruct (N.eqb_spec x k); [cbn in I; lia|] end.
      destruct (N.ltb_spec x 32) as [L|L]; [|cbn in I; lia]. change (lit "\u00") with [92; 117; 48; 48] in I. cbn [app In] in I.
      assert (H : forall k, 32 <= hex_char k) by (intros k; unfold hex_char; destruct (k <? 10); lia).
      repeat (destruct I as [<-|I]; [try apply H; lia|]). destruct I. }
    assert (Z : forall z c, In c (json_int z) -> 32 <= c).
    { clear. assert (H : forall n c, In c (show_dec n) -> 32 <= c).
      { intros n c I. assert (D := show_dec_digits n). rewrite forallb_forall in D. apply D in I. unfold is_digit in I. lia. }
      intros z c I. unfold json_int in I. destruct (z <? 0)%Z; [destruct I as [<-|I]; [lia|]|]; now apply H in I. }
    assert (G : forall sep l, (forall c, In c sep -> 32 <= c) -> (forall x c, In x l -> In c x -> 32 <= c) -> forall c, In c (join sep l) -> 32 <= c).
    { clear. intros sep l S F. induction l as [|x l IH]; intros c I; [destruct I|]. destruct l as [|y l]; [apply (F x c (or_introl eq_refl) I)|].
      change (join sep (x :: y :: l)) with (x ++ sep ++ join sep (y :: l)) in I. apply in_app_or in I as [I|I]; [apply (F x c (or_introl eq_refl) I)|].
      apply in_app_or in I as [I|I]; [now apply S|]. apply IH; [|exact I]. intros z d Z. apply (F z d (or_intror Z)). }
    assert (K : forall (s : str) c, In c s -> forallb (fun c => 32 <=? c) s = true -> 32 <= c).
    { clear. intros s c I F. rewrite forallb_forall in F. apply F in I. lia. }
    apply in_app_or in I as [I|I]; [exact (K _ _ I eq_refl)|]. apply in_app_or in I as [I|I]; [|exact (K _ _ I eq_refl)].
    revert I. apply G; [intros c' I'; exact (K _ _ I' eq_refl)|]. clear c. intros x c X I.
    apply in_app_or in X as [X|X]; [|apply in_app_or in X as [X|X]].
    + destruct (group r1) as [g|]; [|destruct X]. destruct X as [<-|[]]. apply in_app_or in I as [I|I]; [now apply J in I|].
      apply in_app_or in I as [I|I]; [exact (K _ _ I eq_refl)|now apply J in I].
    + destruct X as [<-|[<-|[]]]; (apply in_app_or in I as [I|I]; [now apply J in I|]); (apply in_app_or in I as [I|I]; [exact (K _ _ I eq_refl)|]).
      * now apply Z in I.
      * apply in_app_or in I as [I|I]; [exact (K _ _ I eq_refl)|]. apply in_app_or in I as [I|I]; [|exact (K _ _ I eq_refl)].
        revert I. apply G; [intros c' I'; exact (K _ _ I' eq_refl)|]. clear c. intros y c Y I. apply in_map_iff in Y as (u & <- & _).
        apply in_app_or in I as [I|I]; [exact (K _ _ I eq_refl)|]. apply in_app_or in I as [I|I]; [now apply J in I|].
        apply in_app_or in I as [I|I]; [exact (K _ _ I eq_refl)|]. apply in_app_or in I as [I|I]; [now apply J in I|exact (K _ _ I eq_refl)].
    + destruct (include_subdomains r1) as [b|]; [|destruct X]. destruct X as [<-|[]]. apply in_app_or in I as [I|I]; [now apply J in I|].
      apply in_app_or in I as [I|I]; [exact (K _ _ I eq_refl)|]. destruct b; exact (K _ _ I eq_refl).
Qed.
Print Assumptions C101_report_text.
Example C101_report_example :
  report_json (Report (Some (lit "a""b\c" ++ [10; 1])) (-5) [lit "https://r.example"; lit "x"] (Some true)) =
    lit "{""group"":""a\""b\\c\n\u0001"",""max_age"":-5,""endpoints"":[{""url"":""https://r.example""},{""url"":""x""}],""include_subdomains"":true}".
Proof. vm_compute. reflexivity. Qed.

(** Several reports at once are several calls, each with a text of its own in the header. *)
Theorem C101_reports : forall c a b,
  build c [report_to (a ++ b)] = build c [report_to a; report_to b] /\ build c [report_to []] = c /\
  snd (csp_value (build csp_new [report_to a]) []) = join (lit "; ") (map (fun r => lit "report-to " ++ report_json r) a).
Proof.
  intros c a b. unfold build, report_to. cbn [fold_left do_call]. rewrite map_app, fold_left_app. split; [reflexivity|]. split; [reflexivity|].
  assert (X : forall p f d, fold_left (fun c j => match j with Some s => push_policy c (lit "report-to " ++ s) | None => c end) (map (fun r => Some (report_json r)) a) (Csp p f d) =
    Csp (p ++ map (fun r => lit "report-to " ++ report_json r) a) f d).
  { induction a as [|r a IH]; intros p f d; cbn [map fold_left]; [now rewrite app_nil_r|]. unfold push_policy at 2. cbn [policy]. rewrite IH, <- app_assoc. reflexivity. }
  unfold csp_new. rewrite X. reflexivity.
Qed.
Print Assumptions C101_reports.
Example C101_reports_example : snd (csp_value (build csp_new [report_to [Report None 5 [] None; Report None 6 [] None]]) []) =
  lit "report-to {""max_age"":5,""endpoints"":[]}; report-to {""max_age"":6,""endpoints"":[]}".
Proof. vm_compute. reflexivity. Qed.
