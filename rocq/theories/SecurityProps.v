(** C61, C62: Content-Security-Policy and the security header helpers. *)
From Verif Require Import Base BaseFacts Headers HeadersFacts Security.
From Coq Require Import ZifyBool ZifyNat ZifyN Permutation Sorted.

(** ** Sorting strings *)
Lemma str_leb_refl : forall a, str_leb a a = true.
Proof. induction a as [|x a IH]; cbn [str_leb]; [reflexivity|]. now rewrite N.ltb_irrefl. Qed.
Lemma str_leb_total : forall a b, str_leb a b = false -> str_leb b a = true.
Proof.
  induction a as [|x a IH]; intros [|y b] H; cbn [str_leb] in *; try discriminate; [reflexivity|].
  destruct (x <? y) eqn:A; [discriminate|]. destruct (y <? x) eqn:B; [reflexivity|]. now apply IH.
Qed.
Lemma str_leb_trans : forall a b c, str_leb a b = true -> str_leb b c = true -> str_leb a c = true.
Proof.
  induction a as [|x a IH]; intros [|y b] [|z c] H K; cbn [str_leb] in *; try discriminate; try reflexivity.
  destruct (x <? y) eqn:A, (y <? x) eqn:B, (y <? z) eqn:C, (z <? y) eqn:D, (x <? z) eqn:E, (z <? x) eqn:F; try discriminate; try reflexivity; try lia.
  now apply (IH b).
Qed.
Lemma str_leb_antisym : forall a b, str_leb a b = true -> str_leb b a = true -> a = b.
Proof.
  induction a as [|x a IH]; intros [|y b] H K; cbn [str_leb] in *; try discriminate; [reflexivity|].
  destruct (x <? y) eqn:A, (y <? x) eqn:B; try discriminate; try lia. assert (x = y) by lia. subst y. f_equal. now apply IH.
Qed.
Definition str_le (a b : str) : Prop := str_leb a b = true.
Lemma insert_perm : forall x l, Permutation (insert_sorted x l) (x :: l).
Proof.
  intros x l. induction l as [|y l IH]; cbn [insert_sorted]; [apply Permutation_refl|].
  destruct (str_leb x y); [apply Permutation_refl|]. rewrite IH. apply perm_swap.
Qed.
Lemma sort_perm : forall l, Permutation (sort_strings l) l.
Proof. induction l as [|x l IH]; [apply perm_nil|]. cbn [sort_strings fold_right]. fold (sort_strings l). rewrite insert_perm, IH. reflexivity. Qed.
Lemma insert_is_sorted : forall x l, StronglySorted str_le l -> StronglySorted str_le (insert_sorted x l).
Proof.
  intros x l. induction l as [|y l IH]; intros S; cbn [insert_sorted]; [constructor; [constructor|constructor]|].
  inversion S as [|? ? S' F]; subst. destruct (str_leb x y) eqn:E.
  - constructor; [exact S|]. constructor; [exact E|]. eapply Forall_impl; [|exact F]. intros z Z. unfold str_le in *. eapply str_leb_trans; eassumption.
  - constructor; [now apply IH|]. apply Forall_forall. intros z Z. apply (Permutation_in _ (insert_perm x l)) in Z.
    destruct Z as [<-|Z]; [apply str_leb_total; exact E|]. rewrite Forall_forall in F. now apply F.
Qed.
Lemma sort_is_sorted : forall l, StronglySorted str_le (sort_strings l).
Proof. induction l as [|x l IH]; [constructor|]. cbn [sort_strings fold_right]. now apply insert_is_sorted. Qed.
Lemma sorted_unique : forall a b, StronglySorted str_le a -> StronglySorted str_le b -> Permutation a b -> a = b.
Proof.
  induction a as [|x a IH]; intros [|y b] A B P.
  - reflexivity.
  - apply Permutation_nil in P. discriminate.
  - symmetry in P. apply Permutation_nil in P. discriminate.
  - inversion A as [|? ? A' FA]; subst. inversion B as [|? ? B' FB]; subst. rewrite Forall_forall in FA, FB.
    assert (E : x = y).
    { assert (X : In x (y :: b)) by (apply (Permutation_in _ P); left; reflexivity).
      assert (Y : In y (x :: a)) by (apply (Permutation_in _ (Permutation_sym P)); left; reflexivity).
      destruct X as [X|X]; [congruence|]. destruct Y as [Y|Y]; [congruence|]. apply str_leb_antisym; [apply FA; exact Y|apply FB; exact X]. }
    subst y. f_equal. apply IH; try assumption. now apply Permutation_cons_inv in P.
Qed.

(** The policy after [value]: unchanged without directives, else the sorted whole. *)
Lemma value_policy : forall c order,
  policy (fst (csp_value c order)) =
  match order with [] => policy c | _ => sort_strings (policy c ++ map directive_text order) end.
Proof.
  intros c order. unfold csp_value. cbn [fst policy]. generalize (policy c) as p. induction order as [|e o IH]; intros p; [reflexivity|].
  cbn [fold_left map]. rewrite IH. destruct o as [|e' o]; [reflexivity|].
  apply sorted_unique; [apply sort_is_sorted|apply sort_is_sorted|].
  rewrite !sort_perm. rewrite <- app_assoc. reflexivity.
Qed.

(** ** What the calls ask for, independently of the builder's state. *)
Definition call_names (ks : list call) : list str := flat_map (fun k => match k with Directive d _ => [directive_str d] | _ => [] end) ks.
Definition sources_of (n : str) (ks : list call) : list str :=
  flat_map (fun k => match k with Directive d s => if seqb n (directive_str d) then [s] else [] | _ => [] end) ks.
Definition flags_of (ks : list call) : list str :=
  flat_map (fun k => match k with
    | BlockAllMixedContent => [lit "block-all-mixed-content"] | UpgradeInsecureRequests => [lit "upgrade-insecure-requests"]
    | ReportTo js => flat_map (fun j => match j with Some s => [lit "report-to " ++ s] | None => [] end) js
    | _ => [] end) ks.
Definition wanted (ks : list call) : list str :=
  flags_of ks ++ map (fun n => n ++ lit " " ++ join (lit " ") (sources_of n ks)) (nodup (list_eq_dec N.eq_dec) (call_names ks)).

Lemma build_flags : forall ks c, policy (build c ks) = policy c ++ flags_of ks.
Proof.
  induction ks as [|k ks IH]; intros c; [symmetry; apply app_nil_r|]. change (build c (k :: ks)) with (build (do_call c k) ks).
  rewrite IH. change (flags_of (k :: ks)) with ((match k with
    | BlockAllMixedContent => [lit "block-all-mixed-content"] | UpgradeInsecureRequests => [lit "upgrade-insecure-requests"]
    | ReportTo js => flat_map (fun j => match j with Some s => [lit "report-to " ++ s] | None => [] end) js
    | _ => [] end) ++ flags_of ks). rewrite app_assoc. f_equal.
  destruct k as [d s| | |js|]; cbn [do_call insert_directive push_policy policy]; rewrite ?app_nil_r; try reflexivity.
  revert c. induction js as [|[j|] js IHj]; intros c; cbn [fold_left flat_map app]; [symmetry; apply app_nil_r| |].
  - rewrite IHj. cbn [push_policy policy]. now rewrite <- app_assoc.
  - apply IHj.
Qed.
Lemma report_keeps : forall js c, directives (do_call c (ReportTo js)) = directives c.
Proof. cbn [do_call]. induction js as [|[j|] js IH]; intros c; cbn [fold_left]; [reflexivity| |apply IH]. rewrite IH. reflexivity. Qed.
Lemma build_directives : forall ks c n, hm_get (directives (build c ks)) n =
  match hm_get (directives c) n, sources_of n ks with
  | None, [] => None
  | None, l => Some l
  | Some l0, l => Some (l0 ++ l)
  end.
Proof.
  induction ks as [|k ks IH]; intros c n.
  - cbn. destruct (hm_get (directives c) n); [now rewrite app_nil_r|reflexivity].
  - change (build c (k :: ks)) with (build (do_call c k) ks). rewrite IH.
    assert (X : (forall d s, k <> Directive d s) -> directives (do_call c k) = directives c /\ sources_of n (k :: ks) = sources_of n ks).
    { intros N. destruct k as [d s| | |js|]; try (split; reflexivity); [elim (N d s eq_refl)|]. split; [apply report_keeps|reflexivity]. }
    destruct k as [d s| | |js|]; try (destruct X as [-> ->]; [discriminate|reflexivity]).
    clear X. cbn [do_call insert_directive directives].
    change (sources_of n (Directive d s :: ks)) with ((if seqb n (directive_str d) then [s] else []) ++ sources_of n ks).
    destruct (seqb_spec n (directive_str d)) as [->|E].
    + rewrite hm_get_insert_same. cbn [app]. destruct (hm_get (directives c) (directive_str d)); [|reflexivity]. now rewrite <- app_assoc.
    + rewrite hm_get_insert_other by assumption. reflexivity.
Qed.
Lemma build_nodup : forall ks c, NoDup (map fst (directives c)) -> NoDup (map fst (directives (build c ks))).
Proof.
  induction ks as [|k ks IH]; intros c D; [exact D|]. apply (IH (do_call c k)).
  destruct k as [d s| | |js|]; try exact D; [|now rewrite report_keeps]. cbn [do_call insert_directive directives]. now apply hm_insert_nodup.
Qed.
Lemma sources_nil : forall n ks, sources_of n ks = [] <-> ~ In n (call_names ks).
Proof.
  intros n ks. induction ks as [|k ks IH]; [cbn; tauto|].
  destruct k as [d s| | |js|]; try exact IH. change (sources_of n (Directive d s :: ks)) with ((if seqb n (directive_str d) then [s] else []) ++ sources_of n ks).
  change (call_names (Directive d s :: ks)) with (directive_str d :: call_names ks).
  destruct (seqb_spec n (directive_str d)) as [->|E].
  - split; [discriminate|]. intros N. elim N. left. reflexivity.
  - cbn [app]. rewrite IH. cbn [In]. intuition congruence.
Qed.
Lemma directives_wanted : forall ks order, Permutation order (directives (build csp_new ks)) ->
  Permutation (map directive_text order) (map (fun n => n ++ lit " " ++ join (lit " ") (sources_of n ks)) (nodup (list_eq_dec N.eq_dec) (call_names ks))).
Proof.
  intros ks order P.
  assert (D : NoDup (map fst order)).
  { eapply Permutation_NoDup; [apply Permutation_map, Permutation_sym, P|]. apply build_nodup. constructor. }
  assert (G : forall n l, In (n, l) order <-> l = sources_of n ks /\ l <> []).
  { intros n l. split.
    - intros I. apply (Permutation_in _ P) in I. apply hm_in_get in I; [|apply build_nodup; constructor].
      rewrite build_directives in I. cbn [csp_new directives hm_get] in I. destruct (sources_of n ks) eqn:E; [discriminate|]. inv I. split; [reflexivity|discriminate].
    - intros [-> N]. apply (Permutation_in _ (Permutation_sym P)). apply hm_get_in. rewrite build_directives. cbn [csp_new directives hm_get].
      destruct (sources_of n ks); congruence. }
  assert (E : map directive_text order = map (fun n => n ++ lit " " ++ join (lit " ") (sources_of n ks)) (map fst order)).
  { rewrite map_map. apply map_ext_in. intros [n l] I. apply G in I as [-> _]. reflexivity. }
  rewrite E. apply Permutation_map. apply NoDup_Permutation; [exact D|apply NoDup_nodup|].
  intros n. rewrite nodup_In. split.
  - intros I. apply in_map_iff in I as ([n' l] & <- & I). apply G in I as [-> N]. cbn [fst].
    destruct (in_dec (list_eq_dec N.eq_dec) n' (call_names ks)) as [J|J]; [exact J|]. now apply sources_nil in J.
  - intros I. apply in_map_iff. exists (n, sources_of n ks). split; [reflexivity|]. apply G. split; [reflexivity|].
    intros Z. now apply sources_nil in Z.
Qed.

(** ** C61 *)
(** The value does not depend on the hash order. *)
Theorem C61_order_independent : forall c o1 o2, Permutation o1 o2 -> csp_value c o1 = csp_value c o2.
Proof.
  intros c o1 o2 P. assert (E : policy (fst (csp_value c o1)) = policy (fst (csp_value c o2))).
  { rewrite !value_policy. destruct o1 as [|a o1]; [apply Permutation_nil in P; now subst o2|].
    destruct o2 as [|b o2]; [apply Permutation_sym, Permutation_nil in P; discriminate|].
    apply sorted_unique; [apply sort_is_sorted|apply sort_is_sorted|]. rewrite !sort_perm. apply Permutation_app_head. now apply Permutation_map. }
  unfold csp_value in *. cbn [fst policy] in E. now rewrite E.
Qed.
Print Assumptions C61_order_independent.
(** The first application: each directive named in the calls appears once, with its sources in call order, beside
    the flags; sorted as soon as there is a directive, otherwise the flags in call order. *)
Theorem C61_first_value : forall ks order, Permutation order (directives (build csp_new ks)) ->
  exists parts, snd (csp_value (build csp_new ks) order) = join (lit "; ") parts /\ Permutation parts (wanted ks) /\
  (call_names ks <> [] -> StronglySorted str_le parts) /\ (call_names ks = [] -> parts = flags_of ks).
Proof.
  intros ks order P. exists (policy (fst (csp_value (build csp_new ks) order))). split; [reflexivity|].
  rewrite value_policy. rewrite build_flags. cbn [csp_new policy app].
  assert (W := directives_wanted ks order P). assert (O : order = [] <-> call_names ks = []).
  { split; intros Z.
    - subst order. cbn [map] in W. apply Permutation_nil in W. apply map_eq_nil in W.
      destruct (call_names ks) as [|n l] eqn:E; [reflexivity|]. exfalso.
      assert (I : In n (nodup (list_eq_dec N.eq_dec) (n :: l))) by (apply nodup_In; left; reflexivity). rewrite W in I. destruct I.
    - rewrite Z in W. cbn [nodup map] in W. apply Permutation_sym, Permutation_nil in W. now apply map_eq_nil in W. }
  unfold wanted. destruct order as [|e o].
  - cbn [map] in W. split; [|split]; [|intros N; elim N; now apply O|reflexivity].
    rewrite <- W. now rewrite app_nil_r.
  - split; [|split].
    + rewrite sort_perm. now apply Permutation_app_head.
    + intros _. apply sort_is_sorted.
    + intros Z. apply O in Z. discriminate.
Qed.
Print Assumptions C61_first_value.
(** The header is set, and only it, exactly when the value is ASCII; otherwise the call panics. *)
Theorem C61_header : forall c order h,
  let v := snd (csp_value c order) in
  let n := if report_only_flag c then lit "content-security-policy-report-only" else lit "content-security-policy" in
  (is_ascii v = true -> exists h', snd (csp_apply c order h) = Ok h' /\ h_get h' n = Some [v] /\ forall m, m <> n -> h_get h' m = h_get h m) /\
  (is_ascii v = false -> snd (csp_apply c order h) = Panic).
Proof.
  intros c order h. unfold csp_apply. destruct (csp_value c order) as [c' v]. cbn [snd].
  assert (E : name_into (csp_name c) = Ok (if report_only_flag c then lit "content-security-policy-report-only" else lit "content-security-policy")).
  { unfold csp_name. destruct (report_only_flag c); vm_compute; reflexivity. }
  rewrite E. cbn [bind]. set (n := if report_only_flag c then _ else _). unfold h_insert, to_header_values, value_from_str.
  split; intros A; rewrite A; cbn [bind]; [|reflexivity].
  eexists. split; [reflexivity|]. unfold h_get. split; [apply hm_get_insert_same|]. intros m M. now apply hm_get_insert_other.
Qed.
Print Assumptions C61_header.
(** False of the code: applying the same policy to a second response repeats every directive. *)
Theorem C61_second_application_refuted : exists ks order,
  Permutation order (directives (build csp_new ks)) /\
  let (c, v) := csp_value (build csp_new ks) order in
  v = lit "default-src 'self'" /\ directives c = directives (build csp_new ks) /\
  snd (csp_value c order) = lit "default-src 'self'; default-src 'self'".
Proof. exists [Directive DefaultSrc (source_str SameOrigin)], [(lit "default-src", [lit "'self'"])]. vm_compute. auto. Qed.
Print Assumptions C61_second_application_refuted.
(** What the second application gives, for any policy: the directives again, sorted. *)
Theorem C61_second_value : forall c o1 o2, Permutation o1 (directives c) -> Permutation o2 (directives c) -> directives c <> [] ->
  Permutation (policy (fst (csp_value (fst (csp_value c o1)) o2))) (policy c ++ map directive_text o1 ++ map directive_text o1).
Proof.
  intros c o1 o2 P1 P2 N. rewrite value_policy. rewrite value_policy.
  destruct o1 as [|a o1]; [apply Permutation_nil in P1; congruence|]. destruct o2 as [|b o2]; [apply Permutation_nil in P2; congruence|].
  rewrite !sort_perm. rewrite <- app_assoc. apply Permutation_app_head. apply Permutation_app_head.
  apply Permutation_map. now rewrite P1.
Qed.
Print Assumptions C61_second_value.
(** The documentation example; and two hazards: a builder call on the default policy adds a second [script-src]
    (browsers obey the first), and a source with a semicolon adds a directive. *)
Example C61_example :
  let ks := [Directive DefaultSrc (source_str SameOrigin); Directive DefaultSrc (lit "areweasyncyet.rs");
             Directive ScriptSrc (source_str SameOrigin); Directive ScriptSrc (source_str UnsafeInline);
             Directive ObjectSrc (source_str SrcNone); Directive BaseUri (source_str SrcNone); UpgradeInsecureRequests] in
  snd (csp_value (build csp_new ks) (rev (directives (build csp_new ks)))) =
    lit "base-uri 'none'; default-src 'self' areweasyncyet.rs; object-src 'none'; script-src 'self' 'unsafe-inline'; upgrade-insecure-requests" /\
  snd (csp_value (build csp_default [Directive ScriptSrc (lit "x")]) [(lit "script-src", [lit "x"])]) =
    lit "script-src 'self'; object-src 'self'; script-src x" /\
  snd (csp_value (build csp_new [Directive ImgSrc (lit "a; script-src *")]) [(lit "img-src", [lit "a; script-src *"])]) =
    lit "img-src a; script-src *".
Proof. vm_compute. auto. Qed.

(** ** C62 *)
Definition documented : list (str * str) :=
  [(lit "x-dns-prefetch-control", lit "on"); (lit "x-content-type-options", lit "nosniff"); (lit "x-frame-options", lit "sameorigin");
   (lit "strict-transport-security", lit "max-age=5184000"); (lit "x-xss-protection", lit "1; mode=block")].
Lemma put_ok : forall h n v, is_ascii n = true -> is_ascii v = true -> put h n v = Ok (hm_insert h (to_lower n) [v]).
Proof.
  intros h n v N V. unfold put, name_into, name_from_str. rewrite N. cbn [bind]. unfold h_insert, to_header_values, value_from_str.
  rewrite V. reflexivity.
Qed.
(** It never panics, sets the five documented headers to one value each, and leaves every other name that a program can
    look up (a lower-case one) as it was. *)
Theorem C62_default_partial : forall h, exists h', security_default h = Ok h' /\
  (forall n v, In (n, v) documented -> h_get h' n = Some [v]) /\
  (forall n, ~ In n (map fst documented) -> n <> lit "X-Powered-By" -> h_get h' n = h_get h n).
Proof.
  intros h. eexists. split.
  - unfold security_default, dns_prefetch_control, nosniff, frameguard, hsts_default, xss_filter.
    repeat (rewrite put_ok by reflexivity; cbn [bind]). reflexivity.
  - unfold powered_by, h_remove, h_get. cbn [fst].
    change (to_lower (lit "X-DNS-Prefetch-Control")) with (lit "x-dns-prefetch-control").
    change (to_lower (lit "X-Content-Type-Options")) with (lit "x-content-type-options").
    change (to_lower (lit "X-Frame-Options")) with (lit "x-frame-options").
    change (to_lower (lit "Strict-Transport-Security")) with (lit "strict-transport-security").
    change (to_lower (lit "X-XSS-Protection")) with (lit "x-xss-protection"). split.
    + intros n v I. cbn [documented In] in I.
      repeat (destruct I as [I|I]; [inv I; repeat (first [apply hm_get_insert_same | rewrite hm_get_insert_other by (vm_compute; discriminate)
        | rewrite hm_get_remove_other by (vm_compute; discriminate)])|]). destruct I.
    + intros n N P. cbn [documented map fst In] in N.
      repeat first [rewrite hm_get_insert_other by intuition congruence | rewrite hm_get_remove_other by exact P]. reflexivity.
Qed.
Print Assumptions C62_default_partial.
(** What [powered_by] itself set is the one thing [default] takes away: it is listed before and not after. *)
Theorem C62_powered_by_undone : forall h v, NoDup (map fst h) ->
  h_get (powered_by h (Some v)) (lit "X-Powered-By") = Some [v] /\
  exists h', security_default (powered_by h (Some v)) = Ok h' /\ h_get h' (lit "X-Powered-By") = None.
Proof.
  intros h v N. split; [apply hm_get_insert_same|]. eexists. split.
  - unfold security_default, dns_prefetch_control, nosniff, frameguard, hsts_default, xss_filter.
    repeat (rewrite put_ok by reflexivity; cbn [bind]). reflexivity.
  - unfold powered_by, h_remove, h_get. cbn [fst].
    change (to_lower (lit "X-DNS-Prefetch-Control")) with (lit "x-dns-prefetch-control").
    change (to_lower (lit "X-Content-Type-Options")) with (lit "x-content-type-options").
    change (to_lower (lit "X-Frame-Options")) with (lit "x-frame-options").
    change (to_lower (lit "Strict-Transport-Security")) with (lit "strict-transport-security").
    change (to_lower (lit "X-XSS-Protection")) with (lit "x-xss-protection").
    rewrite !hm_get_insert_other by (vm_compute; discriminate). apply hm_get_remove_same. repeat apply hm_insert_nodup. exact N.
Qed.
Print Assumptions C62_powered_by_undone.
Example C62_powered_by_undone_case : let h := fst (run [] [OpInsert (lit "A") (TvText (lit "b"))]) in NoDup (map fst h) /\
  map fst (powered_by h (Some (lit "c"))) = [lit "a"; lit "X-Powered-By"].
Proof. split; [repeat constructor; intros []|reflexivity]. Qed.
(** False of the code: X-Powered-By survives, whatever it was set to through the API. *)
Theorem C62_powered_by_stays_refuted : exists h h', fst (run [] [OpInsert (lit "X-Powered-By") (TvText (lit "Tide"))]) = h /\
  security_default h = Ok h' /\ h_index h' (lit "X-Powered-By") = Ok [lit "Tide"] /\ powered_by h None = h.
Proof. eexists. eexists. split; [reflexivity|]. vm_compute. auto. Qed.
Print Assumptions C62_powered_by_stays_refuted.
(** In general: for every lookup by text, [powered_by] changes nothing, neither when removing nor when setting. *)
Theorem C62_powered_by_invisible : forall h v s n, name_from_str s = Ok n -> h_get (powered_by h v) n = h_get h n.
Proof.
  intros h v s n E. assert (N : n <> POWERED_BY).
  { unfold name_from_str in E. destruct (is_ascii s); [|discriminate]. inv E. intros X.
    assert (Y : to_lower (to_lower s) = to_lower POWERED_BY) by (now rewrite X). rewrite to_lower_idem, X in Y. vm_compute in Y. discriminate. }
  destruct v as [v|]; cbn [powered_by]; unfold h_insert, h_remove, h_get; cbn [to_header_values fst].
  - now apply hm_get_insert_other.
  - now apply hm_get_remove_other.
Qed.
Print Assumptions C62_powered_by_invisible.
(** [referrer_policy] adds one value behind those already there. *)
Theorem C62_referrer_policy : forall h r, exists h', referrer_policy h r = Ok h' /\
  h_get h' (lit "referrer-policy") = Some (match h_get h (lit "referrer-policy") with Some vs => vs | None => [] end ++ [referrer_str r]) /\
  forall n, n <> lit "referrer-policy" -> h_get h' n = h_get h n.
Proof.
  intros h r. unfold referrer_policy. change (name_into (lit "Referrer-Policy")) with (Ok (lit "referrer-policy")). cbn [bind].
  assert (A : is_ascii (referrer_str r) = true) by (destruct r as [[]|]; reflexivity).
  unfold h_append, h_insert, to_header_values, value_from_str, h_get. rewrite A. cbn [bind].
  destruct (hm_get h (lit "referrer-policy")) as [vs|]; eexists; (split; [reflexivity|]); (split; [apply hm_get_insert_same|]); intros n N; now apply hm_get_insert_other.
Qed.
Print Assumptions C62_referrer_policy.
Theorem C62_frameguard : forall h g, exists h', frameguard h g = Ok h' /\
  h_get h' (lit "x-frame-options") = Some [match g with Some FrameDeny => lit "deny" | _ => lit "sameorigin" end] /\
  forall n, n <> lit "x-frame-options" -> h_get h' n = h_get h n.
Proof.
  intros h g. exists (hm_insert h (lit "x-frame-options") [match g with Some FrameDeny => lit "deny" | _ => lit "sameorigin" end]).
  split; [|split; [apply hm_get_insert_same|intros n N; now apply hm_get_insert_other]].
  unfold frameguard. destruct g as [[]|]; now rewrite put_ok by reflexivity.
Qed.
Print Assumptions C62_frameguard.
Example C62_example : security_default [(lit "x-frame-options", [lit "deny"; lit "x"]); (lit "host", [lit "h"])] =
  Ok [(lit "x-frame-options", [lit "sameorigin"]); (lit "host", [lit "h"]); (lit "x-dns-prefetch-control", [lit "on"]);
      (lit "x-content-type-options", [lit "nosniff"]); (lit "strict-transport-security", [lit "max-age=5184000"]);
      (lit "x-xss-protection", [lit "1; mode=block"])] /\
  referrer_policy [(lit "referrer-policy", [lit "origin"])] (Some UnsafeUrl) = Ok [(lit "referrer-policy", [lit "origin"; lit "unsafe-url"])].
Proof. vm_compute. auto. Qed.

(** The texts of the keywords, from the specifications: CSP level 2 and 3 directives, CSP keyword sources and schemes, Referrer Policy. *)
Theorem C61_directive_names : forall d name s, In (d, name)
   [(BaseUri, "base-uri"); (ConnectSrc, "connect-src"); (DefaultSrc, "default-src"); (FontSrc, "font-src"); (FormAction, "form-action");
    (FrameAncestors, "frame-ancestors"); (FrameSrc, "frame-src"); (ImgSrc, "img-src"); (MediaSrc, "media-src"); (ObjectSrc, "object-src");
    (PluginTypes, "plugin-types"); (RequireSriFor, "require-sri-for"); (ReportUri, "report-uri"); (Sandbox, "sandbox");
    (ScriptSrc, "script-src"); (StyleSrc, "style-src"); (WorkerSrc, "worker-src")]%string ->
  let c := build csp_new [Directive d s] in snd (csp_value c (directives c)) = lit name ++ lit " " ++ s.
Proof.
  intros d name s I. cbn [In] in I.
  repeat (destruct I as [I|I]; [injection I as <- <-; reflexivity|]). destruct I.
Qed.
Theorem C61_source_keywords : forall k name d, In (k, name)
   [(SameOrigin, "'self'"); (SrcNone, "'none'"); (UnsafeInline, "'unsafe-inline'"); (UnsafeEval, "'unsafe-eval'"); (StrictDynamic, "'strict-dynamic'");
    (Data, "data:"); (Mediastream, "mediastream:"); (Https, "https:"); (Blob, "blob:"); (Filesystem, "filesystem:"); (Wildcard, "*")]%string ->
  let c := build csp_new [Directive d (source_str k)] in snd (csp_value c (directives c)) = directive_str d ++ lit " " ++ lit name.
Proof.
  intros k name d I. cbn [In] in I.
  repeat (destruct I as [I|I]; [injection I as <- <-; destruct d; vm_compute; reflexivity|]). destruct I.
Qed.
(** FALSE for one source: [Source::Src] writes a keyword that no version of CSP knows. *)
Theorem C61_source_refuted : exists k, ~ In (source_str k) (map (fun s => lit s)
    ["'self'"; "'none'"; "'unsafe-inline'"; "'unsafe-eval'"; "'strict-dynamic'"; "'unsafe-hashes'"; "'report-sample'"; "'unsafe-allow-redirects'"; "'wasm-unsafe-eval'"]%string)
  /\ source_str k = lit "'src'".
Proof. exists Src. split; [|reflexivity]. vm_compute. intuition discriminate. Qed.
Theorem C61_flags : forall k text, In (k, text)
   [(BlockAllMixedContent, lit "block-all-mixed-content"); (UpgradeInsecureRequests, lit "upgrade-insecure-requests");
    (ReportTo [Some (lit "{}")], lit "report-to {}")] ->
  let c := build csp_new [k] in snd (csp_value c (directives c)) = text.
Proof. intros k text I. cbn [In] in I. repeat (destruct I as [I|I]; [injection I as <- <-; vm_compute; reflexivity|]). destruct I. Qed.
Theorem C62_referrer_keywords : forall r text, In (r, text)
   [(None, "no-referrer"); (Some NoReferrer, "no-referrer"); (Some NoReferrerDowngrade, "no-referrer-when-downgrade"); (Some ReferrerSameOrigin, "same-origin");
    (Some Origin, "origin"); (Some StrictOrigin, "strict-origin"); (Some CrossOrigin, "origin-when-cross-origin");
    (Some StrictCrossOrigin, "strict-origin-when-cross-origin"); (Some UnsafeUrl, "unsafe-url")]%string ->
  referrer_policy [] r = Ok [(lit "referrer-policy", [lit text])].
Proof. intros r text I. cbn [In] in I. repeat (destruct I as [I|I]; [injection I as <- <-; vm_compute; reflexivity|]). destruct I. Qed.
Print Assumptions C61_directive_names.
Print Assumptions C61_source_keywords.
Print Assumptions C61_source_refuted.
Print Assumptions C61_flags.
Print Assumptions C62_referrer_keywords.

(** The policy is sent as report-only exactly when that was asked for at any point. *)
Theorem C61_report_only : forall ks order h h', snd (csp_apply (build csp_new ks) order h) = Ok h' ->
  h_get h (lit "content-security-policy") = None -> h_get h (lit "content-security-policy-report-only") = None ->
  (h_get h' (lit "content-security-policy-report-only") <> None <-> In ReportOnly ks) /\
  (h_get h' (lit "content-security-policy") <> None <-> ~ In ReportOnly ks).
Proof.
  intros ks order h h' H N1 N2.
  assert (F : report_only_flag (build csp_new ks) = true <-> In ReportOnly ks).
  { assert (G : forall ks c, report_only_flag (build c ks) = true <-> report_only_flag c = true \/ In ReportOnly ks).
    { clear. induction ks as [|k ks IH]; intros c; [cbn; tauto|]. change (build c (k :: ks)) with (build (do_call c k) ks). rewrite IH. cbn [In].
      assert (report_only_flag (do_call c k) = true <-> report_only_flag c = true \/ k = ReportOnly) as ->; [|tauto].
      destruct k as [d s| | |js|]; cbn [do_call].
      - unfold insert_directive. split; [intros E; left; revert E|intros [E|E]; [|discriminate E]; revert E]; destruct c; cbn; repeat (destruct (hm_get _ _) + idtac); auto.
      - unfold push_policy. cbn [report_only_flag]. split; [auto|intros [E|E]; [exact E|discriminate E]].
      - unfold push_policy. cbn [report_only_flag]. split; [auto|intros [E|E]; [exact E|discriminate E]].
      - assert (E : report_only_flag (fold_left (fun c j => match j with Some s => push_policy c (lit "report-to " ++ s) | None => c end) js c) = report_only_flag c).
        { revert c. induction js as [|[s|] js IHj]; intros c; cbn [fold_left]; [reflexivity|rewrite IHj; reflexivity|apply IHj]. }
        rewrite E. split; [auto|intros [E'|E']; [exact E'|discriminate E']].
      - cbn [report_only_flag]. split; auto. }
    rewrite G. cbn. split; [intros [E|E]; [discriminate E|exact E]|auto]. }
  destruct (C61_header (build csp_new ks) order h) as [A P].
  destruct (is_ascii (snd (csp_value (build csp_new ks) order))).
  - destruct (A eq_refl) as (h'' & E & G & O). rewrite E in H. injection H as ->. clear A P E.
    destruct (report_only_flag (build csp_new ks)).
    + assert (I : In ReportOnly ks) by (apply F; reflexivity). rewrite G, O, N1 by discriminate. split; split; auto; congruence.
    + assert (I : ~ In ReportOnly ks) by (intros I; apply F in I; discriminate I). rewrite G, O, N2 by discriminate. split; split; auto; try congruence; tauto.
  - rewrite (P eq_refl) in H. discriminate H.
Qed.
Print Assumptions C61_report_only.
Example C61_report_only_example :
  snd (csp_apply (build csp_new [ReportOnly; BlockAllMixedContent]) [] []) = Ok [(lit "content-security-policy-report-only", [lit "block-all-mixed-content"])].
Proof. vm_compute. reflexivity. Qed.

(** The default policy: it is enforced, not only reported, and every header map receives exactly this text. *)
Theorem C61_default : forall order h, Permutation order (directives (build csp_default [])) ->
  exists h', snd (csp_apply (build csp_default []) order h) = Ok h' /\
  h_get h' (lit "content-security-policy") = Some [lit "script-src 'self'; object-src 'self'"] /\
  forall n, n <> lit "content-security-policy" -> h_get h' n = h_get h n.
Proof.
  intros order h P. cbn in P. apply Permutation_sym, Permutation_nil in P. subst order.
  destruct (C61_header (build csp_default []) [] h) as [A _]. exact (A eq_refl).
Qed.
Print Assumptions C61_default.
Example C61_default_example : exists h', snd (csp_apply (build csp_default []) [] []) = Ok h' /\ length h' = 1%nat.
Proof. eexists. vm_compute. split; reflexivity. Qed.
