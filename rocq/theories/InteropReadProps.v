(** C103: what a program that follows the RFCs writes, and what this crate reads in it. *)
From Coq Require Import ZifyBool ZifyNat ZifyN Lia.
From Verif Require Import Base BaseFacts Headers Typed TypedFacts Method Conditional ConditionalProps Cache CacheProps EnumProps Other OtherProps NegotiateExactProps AuthExactProps GrammarProps Rfc InteropProps.

(** ** Lists *)
(** Text of a header: visible characters of ASCII, space and tab (RFC 9110, section 5.5). *)
Definition field (v : str) : Prop := Forall (fun c => c = 9 \/ 32 <= c <= 126) v.
(** No comma stands between quotes. *)
Definition bare (esc : bool) (v : str) : Prop := Forall (fun e => ~ In 44 e) (cut esc 44 Plain v).
(** No element of the list is empty. *)
Definition dense (esc : bool) (v : str) : Prop := Forall (fun e => strip e <> []) (cut esc 44 Plain v).
Definition all_elements (esc : bool) (vs : list str) : list str := flat_map (elements esc) vs.

Lemma cut_nonempty : forall esc sep s p, cut esc sep p s <> [].
Proof.
  intros esc sep. induction s as [|c s IH]; intros p; cbn [cut]; [discriminate|].
  destruct p; [destruct (c =? sep); [discriminate|]| |]; unfold add_char; destruct (cut _ _ _ s) eqn:E; discriminate.
Qed.
Lemma join_add : forall d c l, l <> [] -> join [d] (add_char c l) = c :: join [d] l.
Proof. intros d c [|x [|y l]] N; [congruence|reflexivity|reflexivity]. Qed.
Lemma cut_rejoin : forall esc sep s p, join [sep] (cut esc sep p s) = s.
Proof.
  intros esc sep. induction s as [|c s IH]; intros p; cbn [cut]; [reflexivity|].
  assert (K : forall q, join [sep] (add_char c (cut esc sep q s)) = c :: s) by (intros q; rewrite join_add by apply cut_nonempty; now rewrite IH).
  destruct p; [|apply K|apply K]. destruct (N.eqb_spec c sep) as [->|]; [|apply K].
  assert (N := cut_nonempty esc sep s Plain). specialize (IH Plain). destruct (cut esc sep Plain s) as [|x l]; [congruence|]. cbn [join app] in *. now rewrite IH.
Qed.
Lemma bare_split : forall esc v, bare esc v -> cut esc 44 Plain v = split 44 v.
Proof.
  intros esc v B. rewrite <- (cut_rejoin esc 44 v Plain) at 2. symmetry. apply split_join; [apply cut_nonempty|].
  eapply Forall_impl; [|exact B]. intros e E. now apply no_char_in.
Qed.
Lemma trim_strip : forall s, field s -> trim s = strip s.
Proof.
  intros s F. unfold trim, strip. destruct (trim_matches_decomp blank s) as (a & b & E & A & B).
  assert (W : forall x, forallb blank x = true -> forallb is_ws x = true).
  { intros x. apply forallb_impl. intros c. unfold blank, is_ws. lia. }
  rewrite E at 1. rewrite trim_matches_pad by (apply W; assumption). apply trim_matches_id.
  assert (N := trim_matches_no_edge blank s). assert (F' : field (trim_matches blank s)).
  { rewrite E in F. apply Forall_app in F as [_ F]. now apply Forall_app in F as [F _]. }
  revert N F'. generalize (trim_matches blank s). clear. intros s N F. unfold field in F. rewrite Forall_forall in F. revert N. unfold no_edge.
  assert (K : forall c, In c s -> blank c = false -> is_ws c = false) by (intros c I; specialize (F c I); unfold blank, is_ws; lia).
  destruct s as [|c s]; [reflexivity|]. rewrite !andb_true_iff. intros [H1 H2]. split.
  - apply negb_true_iff in H1. apply negb_true_iff. apply K; [now left|exact H1].
  - revert H2. assert (K' : forall x, In x (rev (c :: s)) -> blank x = false -> is_ws x = false) by (intros x I; apply K; now apply in_rev).
    destruct (rev (c :: s)) as [|x r]; [reflexivity|]. rewrite !negb_true_iff. apply K'. now left.
Qed.
Lemma field_pieces : forall d v, field v -> Forall field (split d v).
Proof.
  intros d v F. rewrite <- (split_join_inv d v) in F. revert F. generalize (split d v). clear. intros l.
  induction l as [|x l IH]; intros F; [constructor|]. destruct l as [|y l].
  - constructor; [exact F|constructor].
  - change (join [d] (x :: y :: l)) with (x ++ [d] ++ join [d] (y :: l)) in F. apply Forall_app in F as [F1 F]. apply Forall_app in F as [_ F]. constructor; [exact F1|exact (IH F)].
Qed.
Definition all_pieces (esc : bool) (vs : list str) : list str := flat_map (fun v => map strip (cut esc 44 Plain v)) vs.
Lemma pieces_read : forall esc vs, Forall field vs -> Forall (bare esc) vs -> map trim (comma_parts vs) = all_pieces esc vs.
Proof.
  intros esc vs F B. unfold comma_parts, all_pieces. change c_comma with 44. induction vs as [|v vs IH]; [reflexivity|]. cbn [flat_map].
  inversion F as [|? ? F1 F2]; inversion B as [|? ? B1 B2]; subst. rewrite map_app, pieces_trim, (IH F2 B2), (bare_split _ _ B1). f_equal.
  apply map_ext_in. intros x I. apply trim_strip. assert (P := field_pieces 44 v F1). rewrite Forall_forall in P. now apply P.
Qed.
Lemma spell_read : forall I (means : str -> I -> Prop) esc vs items, Forall field vs -> Forall (bare esc) vs ->
  (all_spell means vs items <-> Forall2 means (all_pieces esc vs) items).
Proof. intros I means esc vs items F B. rewrite all_spell_parts. now rewrite (pieces_read esc vs F B). Qed.
Lemma elements_full : forall esc vs, all_elements esc vs = filter full (all_pieces esc vs).
Proof.
  intros esc vs. unfold all_elements, all_pieces. induction vs as [|v vs IH]; [reflexivity|]. cbn [flat_map]. rewrite filter_app. exact (f_equal2 (@app str) eq_refl IH).
Qed.
Lemma elements_dense : forall esc vs, Forall (dense esc) vs -> all_pieces esc vs = all_elements esc vs.
Proof.
  intros esc vs D. rewrite elements_full. unfold all_pieces. induction D as [|v vs D _ IH]; [reflexivity|]. cbn [flat_map]. rewrite filter_app. apply f_equal2; [|exact IH].
  symmetry. apply filter_all. apply Forall_map. eapply Forall_impl; [|exact D]. intros e. cbv beta. destruct (strip e); [congruence|reflexivity].
Qed.
Lemma forall2_self : forall A B (P : A -> B -> Prop) (f : A -> B) l, Forall (fun x => P x (f x)) l -> Forall2 P l (map f l).
Proof. intros A B P f l F. induction F; constructor; assumption. Qed.

(** ** Cache-Control: RFC 9111, section 5.2 *)
Fixpoint named {A} (n : str) (l : list (str * A)) : option A := match l with [] => None | (m, a) :: r => if seqb n m then Some a else named n r end.
(** What a directive asks for: the value of its argument is used if it has one, and names are compared without case. *)
Definition asked (b : str * option str) : option directive :=
  match snd b with
  | Some t => match named (to_lower (fst b)) timed_names with
              | Some f => Some (f (from_secs (dec_value t)))
              | None => named (to_lower (fst b)) flag_names
              end
  | None => named (to_lower (fst b)) flag_names
  end.
(** An argument that is a number of seconds is written as in the RFC: digits, not quoted. *)
Definition plain_age (e : str) : Prop := forall f, named (to_lower (fst (binding e))) timed_names = Some f ->
  (snd (binding e) = None /\ to_lower e = lit "max-stale") \/
  (exists n t, e = n ++ [61] ++ t /\ ~ In 61 n /\ t <> [] /\ Forall (fun c => 48 <= c <= 57) t /\ dec_value t <= u64_max).
Lemma named_in : forall A n (l : list (str * A)) a, named n l = Some a -> In (n, a) l.
Proof.
  intros A n. induction l as [|[m x] l IH]; intros a H; [discriminate H|]. cbn [named] in H. destruct (seqb_spec n m) as [->|]; [inv H; now left|right; auto].
Qed.
Lemma named_none : forall A n (l : list (str * A)), named n l = None -> forall a, ~ In (n, a) l.
Proof.
  intros A n. induction l as [|[m x] l IH]; intros H a I; [destruct I|]. cbn [named] in H. destruct (seqb_spec n m) as [->|N]; [discriminate H|].
  destruct I as [I|I]; [inv I; congruence|now elim (IH H a)].
Qed.
Lemma flag_not_timed : forall n d, In (n, d) flag_names -> d <> MaxStale None -> forall f, ~ In (n, f) timed_names.
Proof.
  intros n d H D f I. cbn [flag_names In] in H. repeat (destruct H as [H|H]; [injection H as <- <-; first [congruence | cbn [timed_names In] in I; repeat (destruct I as [I|I]; [discriminate I|]); exact I]|]). exact H.
Qed.
Lemma asked_piece : forall e, plain_age e -> cache_piece e (asked (binding e)).
Proof.
  intros e P. unfold asked. unfold plain_age in P. unfold binding in *. destruct (split_once 61 e) as [[n v]|] eqn:S; cbn [fst snd] in *.
  - apply split_once_some in S as [-> NC]. apply no_char_in in NC. destruct (named (to_lower n) timed_names) as [f|] eqn:T.
    + destruct (P f eq_refl) as [[X _]|(n' & t & E & N' & NE & D & M)]; [discriminate X|].
      assert (n = n' /\ v = t) as [<- <-].
      { assert (X : split_once 61 (n ++ 61 :: v) = split_once 61 (n' ++ 61 :: t)) by (now rewrite E).
        rewrite !split_once_app in X by (now apply no_char_in). split; congruence. }
      assert (no_char 34 v = true) as Q.
      { apply no_char_in. intros I. rewrite Forall_forall in D. specialize (D _ I). lia. }
      rewrite (unquote_word v Q). rewrite <- (app_nil_r v) at 1. apply (CacheTimed n v (dec_value v) [] f); [now apply named_in|exists v; auto|exact M|now left].
    + destruct (named (to_lower n) flag_names) as [d|] eqn:G.
      * apply CacheFlag; [now apply named_in| |right; eauto]. intros ->. apply named_in in G.
        assert (X : to_lower n = lit "max-stale").
        { cbn [flag_names In] in G. repeat (destruct G as [G|G]; [first [discriminate G|injection G as <-; reflexivity]|]). destruct G. }
        rewrite X in T. discriminate T.
      * apply CacheUnknown; [exact NC|now apply named_none|now apply named_none|right; eauto].
  - apply split_once_none, no_char_in in S. destruct (named (to_lower e) flag_names) as [d|] eqn:G.
    + destruct (named (to_lower e) timed_names) as [f|] eqn:T.
      * destruct (P f eq_refl) as [[_ X]|(n & t & E & _)]; [|elim S; rewrite E; apply in_or_app; right; now left].
        rewrite X in G. assert (d = MaxStale None) as -> by (change (Some (MaxStale None) = Some d) in G; congruence). now constructor.
      * rewrite <- (app_nil_r e). apply CacheFlag; [now apply named_in| |now left]. intros ->. apply named_in in G.
        assert (X : to_lower e = lit "max-stale").
        { cbn [flag_names In] in G. repeat (destruct G as [G|G]; [first [discriminate G|injection G as <-; reflexivity]|]). destruct G. }
        rewrite X in T. discriminate T.
    + rewrite <- (app_nil_r e). apply CacheUnknown; [exact S|now apply named_none| |now left]. intros f I.
      destruct (named (to_lower e) timed_names) as [f'|] eqn:T; [|now elim (named_none _ _ _ T f)].
      destruct (P f' eq_refl) as [[_ X]|(n & t & E & _)]; [rewrite X in G; discriminate G|elim S; rewrite E; apply in_or_app; right; now left].
Qed.
(** Every directive that is asked for, in order, and nothing else. *)
Theorem C103_cache_control : forall h vs, h_get h (lit "cache-control") = Some vs -> Forall field vs -> Forall (bare true) vs ->
  Forall plain_age (all_elements true vs) ->
  cache_from_headers h = Ok (Some (entries (map (fun e => asked (binding e)) (all_elements true vs)))).
Proof.
  intros h vs G F B P. apply (C94_cache_control h vs _ G). exists (map (fun e => asked (binding e)) (all_pieces true vs)). split.
  - apply (spell_read _ _ true); try assumption. apply forall2_self. rewrite elements_full in P. rewrite Forall_forall in P. apply Forall_forall. intros e I. apply asked_piece.
    destruct e as [|c e]; [intros f X; vm_compute in X; discriminate X|]. apply P. apply filter_In. split; [exact I|reflexivity].
  - rewrite elements_full. generalize (all_pieces true vs). clear. induction l as [|e l IH]; [reflexivity|]. destruct e as [|c e]; [exact IH|].
    change (filter full ((c :: e) :: l)) with ((c :: e) :: filter full l).
    cbn [map]. unfold entries in *. cbn [flat_map]. f_equal. exact IH.
Qed.
Print Assumptions C103_cache_control.
Example C103_cache_control_example : forall v, v = lit "Max-Age=60 ,, no-cache=""Set-Cookie"",foo=1, max-stale" ->
  field v /\ bare true v /\ Forall plain_age (all_elements true [v]) /\
  cache_from_headers [(lit "cache-control", [v])] = Ok (Some [MaxAge (from_secs 60); NoCache; MaxStale None]) /\
  map (fun e => asked (binding e)) (all_elements true [v]) = [Some (MaxAge (from_secs 60)); Some NoCache; None; Some (MaxStale None)].
Proof.
  intros v ->. split; [apply Forall_forall; intros c I; vm_compute in I; repeat (destruct I as [<-|I]; [lia|]); destruct I|].
  split; [apply Forall_forall; intros e I; vm_compute in I; repeat (destruct I as [<-|I]; [apply no_char_in; reflexivity|]); destruct I|].
  split; [|vm_compute; auto].
  change (all_elements true [lit "Max-Age=60 ,, no-cache=""Set-Cookie"",foo=1, max-stale"]) with [lit "Max-Age=60"; lit "no-cache=""Set-Cookie"""; lit "foo=1"; lit "max-stale"].
  apply Forall_forall. intros e [<-|[<-|[<-|[<-|[]]]]] f H; try discriminate H.
  - right. exists (lit "Max-Age"), (lit "60"). split; [reflexivity|]. split; [apply no_char_in; reflexivity|]. split; [discriminate|]. split; [|vm_compute; discriminate].
    apply Forall_forall. intros c I. vm_compute in I. repeat (destruct I as [<-|I]; [lia|]). destruct I.
  - left. split; reflexivity.
Qed.
(** A comma between quotes is taken for the end of a directive, and a quoted number is refused, though recipients are asked to
    read both forms (section 5.2). *)
Theorem C103_cache_control_refuted : exists u v,
  map (fun e => asked (binding e)) (elements true u) = [Some Private] /\ cache_from_headers [(lit "cache-control", [u])] = Ok (Some [Private; NoStore]) /\
  map (fun e => asked (binding e)) (elements true v) = [Some (MaxAge (from_secs 60))] /\ cache_from_headers [(lit "cache-control", [v])] = Err 400.
Proof. exists (lit "private=""a, no-store, b"""), (lit "max-age=""60"""). vm_compute. auto. Qed.
Print Assumptions C103_cache_control_refuted.

(** ** If-Match, If-None-Match: RFC 9110, section 13.1 *)
Lemma bare_of_pieces : forall esc vs, Forall (fun e => ~ In 44 e) (all_pieces esc vs) -> Forall (bare esc) vs.
Proof.
  intros esc vs F. apply Forall_forall. intros v I. unfold bare. apply Forall_forall. intros e J X. rewrite Forall_forall in F.
  assert (K : In (strip e) (all_pieces esc vs)) by (unfold all_pieces; apply in_flat_map; exists v; split; [exact I|now apply in_map]).
  elim (F _ K). destruct (trim_matches_decomp blank e) as (a & b & E & A & B). rewrite E in X.
  assert (W : forall x, forallb blank x = true -> ~ In 44 x) by (intros x Y Z; rewrite forallb_forall in Y; specialize (Y _ Z); discriminate Y).
  apply in_app_or in X as [X|X]; [now elim (W a A)|]. apply in_app_or in X as [X|X]; [exact X|now elim (W b B)].
Qed.
(** What an element names: everything, or a tag. *)
Definition tag_of (e : str) : option etag := match read_tag e with Some (true, t) => Some (Weak t) | Some (false, t) => Some (Strong t) | None => None end.
Theorem C103_conditions : forall k h vs, h_get h (cond_name k) = Some vs -> Forall field vs -> Forall (dense false) vs ->
  Forall (fun e => e = lit "*" \/ exists weak t, entity_tag weak t e /\ ~ In 44 t) (all_elements false vs) ->
  exists w, cond_from_headers k h = Ok (Some (entries (map tag_of (all_elements false vs)), w)) /\ (w = true <-> In (lit "*") (all_elements false vs)).
Proof.
  intros k h vs G F D T. assert (B : Forall (bare false) vs).
  { apply bare_of_pieces. rewrite elements_dense by exact D. eapply Forall_impl; [|exact T]. intros e [->|(weak & t & (C & ->) & N)].
    - apply no_char_in. reflexivity.
    - intros I. destruct weak; cbn [app] in I; repeat (destruct I as [I|I]; [discriminate I|]); (apply in_app_or in I as [I|I]; [now elim N|destruct I as [I|[]]; discriminate I]). }
  exists (existsb (fun e => seqb e (lit "*")) (all_elements false vs)).
  assert (W : existsb (fun e => seqb e (lit "*")) (all_elements false vs) = true <-> In (lit "*") (all_elements false vs)).
  { rewrite existsb_exists. split; [intros (e & I & E); apply seqb_eq in E; now subst e|intros I; exists (lit "*"); split; [exact I|reflexivity]]. }
  split; [|exact W]. apply (C94_if_match k h vs _ _ G). exists (map tag_of (all_elements false vs)). split; [|split; [reflexivity|]].
  - apply (spell_read _ _ false); try assumption. rewrite elements_dense by exact D. apply forall2_self. eapply Forall_impl; [|exact T].
    intros e [->|(weak & t & (C & E) & _)]; [reflexivity|].
    assert (R : tag_of e = Some (if weak then Weak t else Strong t)).
    { subst e. unfold tag_of. destruct weak; [change (read_tag _) with (read_tag (etag_show (Weak t)))|change (read_tag _) with (read_tag (etag_show (Strong t)))]; rewrite tag_read; reflexivity. }
    rewrite R. destruct weak; split; assumption.
  - rewrite W. unfold starred. rewrite in_map_iff. split.
    + intros I. exists (lit "*"). split; [reflexivity|exact I].
    + intros (e & E & I). rewrite Forall_forall in T. destruct (T e I) as [->|(weak & t & (C & X) & _)]; [exact I|]. exfalso. revert E. subst e. unfold tag_of.
      destruct weak; [change (read_tag _) with (read_tag (etag_show (Weak t)))|change (read_tag _) with (read_tag (etag_show (Strong t)))]; rewrite tag_read; discriminate.
Qed.
Print Assumptions C103_conditions.
Example C103_conditions_example : forall v, v = lit "W/""a"" , *,""bc""" -> dense false v /\ all_elements false [v] = [lit "W/""a"""; lit "*"; lit """bc"""] /\
  cond_from_headers IfMatch [(lit "if-match", [lit "W/""a"" , *"; lit """b"""])] = Ok (Some ([Weak (lit "a"); Strong (lit "b")], true)).
Proof. intros v ->. split; [|vm_compute; auto]. apply Forall_forall. intros e I. vm_compute in I. repeat (destruct I as [<-|I]; [vm_compute; discriminate|]). destruct I. Qed.
(** A comma in a tag and an empty element, both legal, make the header unreadable. *)
Theorem C103_conditions_refuted : exists u v, map tag_of (elements false u) = [Some (Strong (lit "a,b"))] /\ cond_from_headers IfMatch [(lit "if-match", [u])] = Err 400 /\
  map tag_of (elements false v) = [Some (Strong (lit "a")); Some (Weak (lit "b"))] /\ cond_from_headers IfMatch [(lit "if-match", [v])] = Err 400.
Proof. exists (lit """a,b"""), (lit """a"", , W/""b"""). vm_compute. auto. Qed.
Print Assumptions C103_conditions_refuted.

(** ** Vary (RFC 9110, section 12.5.5) and Allow (section 10.2.1) *)
Lemma token_comma : forall s, rfc_token s = true -> ~ In 44 s.
Proof. intros s T. apply rfc_wordy in T as (T & _). apply no_char_in. now apply wordy_no. Qed.
Lemma tokens_bare : forall esc vs, Forall (dense esc) vs -> Forall (fun e => rfc_token e = true) (all_elements esc vs) -> Forall (bare esc) vs.
Proof. intros esc vs D T. apply bare_of_pieces. rewrite elements_dense by exact D. eapply Forall_impl; [|exact T]. exact token_comma. Qed.
Theorem C103_vary : forall h vs, h_get h (lit "vary") = Some vs -> Forall field vs -> Forall (dense true) vs -> Forall (fun e => rfc_token e = true) (all_elements true vs) ->
  exists w, vary_from_headers h = Ok (Some (map to_lower (filter (fun e => negb (seqb e (lit "*"))) (all_elements true vs)), w)) /\ (w = true <-> In (lit "*") (all_elements true vs)).
Proof.
  intros h vs G F D T. assert (B := tokens_bare true vs D T).
  exists (existsb (fun e => seqb e (lit "*")) (all_elements true vs)).
  assert (W : existsb (fun e => seqb e (lit "*")) (all_elements true vs) = true <-> In (lit "*") (all_elements true vs)).
  { rewrite existsb_exists. split; [intros (e & I & E); apply seqb_eq in E; now subst e|intros I; exists (lit "*"); split; [exact I|reflexivity]]. }
  split; [|exact W]. apply (C94_vary h vs _ _ G). exists (map (fun e => if seqb e (lit "*") then None else Some (to_lower e)) (all_elements true vs)). split; [|split].
  - apply (spell_read _ _ true); try assumption. rewrite elements_dense by exact D. apply forall2_self. eapply Forall_impl; [|exact T]. intros e E. cbv beta.
    destruct (seqb_spec e (lit "*")) as [->|N]; [reflexivity|]. split; [exact N|]. split; [|reflexivity].
    unfold rfc_token in E. apply andb_true_iff in E as [_ E]. unfold is_ascii. eapply forallb_impl; [|exact E]. intros c. cbv beta. lia.
  - generalize (all_elements true vs). clear. induction l as [|e l IH]; [reflexivity|]. cbn [map filter]. unfold entries in *. cbn [flat_map]. destruct (seqb e (lit "*")); cbn [negb]; [exact IH|]. cbn [map app]. f_equal. exact IH.
  - rewrite W. unfold starred. rewrite in_map_iff. split; [intros I; exists (lit "*"); split; [reflexivity|exact I]|]. intros (x & X & I). destruct (seqb x (lit "*")) eqn:Y; [|discriminate X]. apply seqb_eq in Y. now subst x.
Qed.
Print Assumptions C103_vary.
Example C103_vary_example : dense true (lit "Accept ,*") /\ Forall (fun e => rfc_token e = true) (all_elements true [lit "Accept ,*"]) /\
  vary_from_headers [(lit "vary", [lit "Accept ,*"; lit "a"])] = Ok (Some ([lit "accept"; lit "a"], true)).
Proof.
  split; [apply Forall_forall; intros e I; vm_compute in I; repeat (destruct I as [<-|I]; [vm_compute; discriminate|]); destruct I|].
  split; [apply Forall_forall; intros e I; vm_compute in I; repeat (destruct I as [<-|I]; [reflexivity|]); destruct I|vm_compute; reflexivity].
Qed.
(** An empty element becomes an empty name. *)
Theorem C103_vary_refuted : exists v, elements true v = [lit "a"; lit "b"] /\ vary_from_headers [(lit "vary", [v])] = Ok (Some ([lit "a"; []; lit "b"], false)).
Proof. exists (lit "a,, b"). vm_compute. auto. Qed.
Print Assumptions C103_vary_refuted.

Theorem C103_allow : forall h vs, h_get h (lit "allow") = Some vs -> Forall field vs -> Forall (dense true) vs ->
  Forall (fun e => exists m, e = method_str m) (all_elements true vs) ->
  exists s, allow_from_headers h = Ok (Some s) /\ NoDup s /\ forall m, In m s <-> In (method_str m) (all_elements true vs).
Proof.
  intros h vs G F D T. assert (B : Forall (bare true) vs).
  { apply tokens_bare; [exact D|]. eapply Forall_impl; [|exact T]. intros e (m & ->). destruct m; reflexivity. }
  assert (M : exists ms, all_elements true vs = map method_str ms).
  { clear - T. induction T as [|e l (m & ->) _ (ms & ->)]; [now exists []|now exists (m :: ms)]. }
  destruct M as (ms & M). destruct (C94_allow h vs G) as (A1 & A2).
  assert (S : all_spell (fun c m => to_upper c = method_str m) vs ms).
  { apply (spell_read _ _ true); try assumption. rewrite elements_dense by exact D. rewrite M. apply forall2_map_l. clear. induction ms as [|m ms IH]; constructor; [destruct m; reflexivity|exact IH]. }
  destruct (proj2 A1 (ex_intro _ ms S)) as (s & E). exists s. split; [exact E|]. destruct (A2 s ms E S) as (N & I). split; [exact N|]. intros m. rewrite I, M. split; [apply in_map|].
  intros X. apply in_map_iff in X as (m' & X & J). assert (m' = m) as <-; [|exact J]. clear - X. assert (Y : method_from_str (method_str m') = method_from_str (method_str m)) by now rewrite X.
  assert (R : forall m, method_from_str (method_str m) = Ok m) by (clear; intros []; reflexivity). rewrite !R in Y. congruence.
Qed.
Print Assumptions C103_allow.
Example C103_allow_example : dense true (lit "GET ,PUT") /\ all_elements true [lit "GET ,PUT"; lit "GET"] = [method_str M_Get; method_str M_Put; method_str M_Get] /\
  allow_from_headers [(lit "allow", [lit "GET ,PUT"; lit "GET"])] = Ok (Some [M_Put; M_Get]).
Proof. split; [|vm_compute; auto]. apply Forall_forall. intros e I. vm_compute in I. repeat (destruct I as [<-|I]; [vm_compute; discriminate|]). destruct I. Qed.
(** A method that is not in the list of this crate makes the header unreadable; so does an empty element.  Methods of other programs are
    case-sensitive (section 9.1). *)
Theorem C103_allow_refuted : exists u v w, elements true u = [lit "GET"; lit "QUERY"] /\ allow_from_headers [(lit "allow", [u])] = Err 500 /\
  elements true v = [lit "GET"] /\ allow_from_headers [(lit "allow", [v])] = Err 500 /\
  elements true w = [lit "get"] /\ allow_from_headers [(lit "allow", [w])] = Ok (Some [M_Get]).
Proof. exists (lit "GET, QUERY"), (lit "GET,"), (lit "get"). vm_compute. auto 7. Qed.
Print Assumptions C103_allow_refuted.

(** ** Clear-Site-Data *)
Definition clear_types : list (str * clear) :=
  [(lit "cache", ClearCache); (lit "cookies", ClearCookies); (lit "storage", ClearStorage); (lit "executionContexts", ClearExecutionContexts)].
Theorem C103_clear_site_data : forall h vs, h_get h (lit "clear-site-data") = Some vs -> Forall field vs -> Forall (dense true) vs ->
  Forall (fun e => exists n, e = lit """" ++ n ++ lit """" /\ In n (lit "*" :: map fst clear_types)) (all_elements true vs) ->
  exists w, clear_from_headers h = Ok (Some (entries (map (fun e => named (unquote e) clear_types) (all_elements true vs)), w)) /\
    (w = true <-> In (lit "*") (map unquote (all_elements true vs))).
Proof.
  intros h vs G F D T.
  assert (K : Forall (fun e => match named (unquote e) clear_types with None => e = lit """*""" | Some ClearCache => e = lit """cache""" | Some ClearCookies => e = lit """cookies"""
       | Some ClearStorage => e = lit """storage""" | Some ClearExecutionContexts => e = lit """executionContexts""" end /\ ~ In 44 e) (all_elements true vs)).
  { eapply Forall_impl; [|exact T]. intros e (n & -> & I). cbn [clear_types map fst In] in I. repeat (destruct I as [<-|I]; [split; [reflexivity|apply no_char_in; reflexivity]|]). destruct I. }
  assert (B : Forall (bare true) vs) by (apply bare_of_pieces; rewrite elements_dense by exact D; eapply Forall_impl; [|exact K]; intros e H; apply H).
  exists (existsb (fun e => seqb e (lit "*")) (map unquote (all_elements true vs))).
  assert (W : existsb (fun e => seqb e (lit "*")) (map unquote (all_elements true vs)) = true <-> In (lit "*") (map unquote (all_elements true vs))).
  { rewrite existsb_exists. split; [intros (e & I & E); apply seqb_eq in E; now subst e|intros I; exists (lit "*"); split; [exact I|reflexivity]]. }
  split; [|exact W]. apply (C94_clear_site_data h vs _ _ G). exists (map (fun e => named (unquote e) clear_types) (all_elements true vs)). split; [|split; [reflexivity|]].
  - apply (spell_read _ _ true); try assumption. rewrite elements_dense by exact D. apply forall2_self. eapply Forall_impl; [|exact K]. intros e [H _]. destruct (named (unquote e) clear_types) as [[]|]; exact H.
  - rewrite W. unfold starred. rewrite !in_map_iff. rewrite Forall_forall in K. split; intros (e & E & I); exists e; (split; [|exact I]); destruct (K e I) as [H _]; [now rewrite E|].
    destruct (named (unquote e) clear_types); [discriminate E|]. now subst e.
Qed.
Print Assumptions C103_clear_site_data.
Example C103_clear_site_data_example : forall v, v = lit """cache"" , ""*""" -> field v /\ dense true v /\ Forall (fun e => exists n, e = lit """" ++ n ++ lit """" /\ In n (lit "*" :: map fst clear_types)) (all_elements true [v]) /\
  clear_from_headers [(lit "clear-site-data", [v])] = Ok (Some ([ClearCache], true)).
Proof.
  intros v ->. split; [apply Forall_forall; intros c I; vm_compute in I; repeat (destruct I as [<-|I]; [lia|]); destruct I|].
  split; [apply Forall_forall; intros e I; vm_compute in I; repeat (destruct I as [<-|I]; [vm_compute; discriminate|]); destruct I|]. split; [|vm_compute; reflexivity].
  change (all_elements true [lit """cache"" , ""*"""]) with [lit """cache"""; lit """*"""]. apply Forall_forall. intros e [<-|[<-|[]]]; [exists (lit "cache")|exists (lit "*")]; (split; [reflexivity|cbn [In clear_types map fst]; auto]).
Qed.
(** The specification says to ignore types that are not known; here they make the header unreadable. *)
Theorem C103_clear_site_data_refuted : exists v, map unquote (elements true v) = [lit "cache"; lit "clientHints"] /\ forall s, clear_from_headers [(lit "clear-site-data", [v])] <> Ok s.
Proof. exists (lit """cache"", ""clientHints"""). split; [vm_compute; reflexivity|]. intros s. vm_compute. discriminate. Qed.
Print Assumptions C103_clear_site_data_refuted.

(** ** Strict-Transport-Security: RFC 6797, section 6.1 *)
(** Directive names have no case, directives come in any order and white space may surround them; each is given once. *)
Theorem C103_hsts : forall h vs v l1 t l2, h_get h (lit "strict-transport-security") = Some (vs ++ [v]) -> field v -> ~ In 34 v ->
  parts v = l1 ++ (lit "max-age=" ++ t) :: l2 -> t <> [] -> Forall (fun c => 48 <= c <= 57) t -> dec_value t <= u64_max ->
  Forall (fun p => to_lower (fst (binding p)) <> lit "max-age") (l1 ++ l2) ->
  hsts_from_headers h = Ok (Some (Hsts (from_secs (dec_value t)) (existsb (seqb (lit "includesubdomains")) (l1 ++ l2)) (existsb (seqb (lit "preload")) (l1 ++ l2)))).
Proof.
  intros h vs v l1 t l2 G F NQ P NE DT L M. apply (C94_hsts h vs v _ G).
  set (item := fun p : str => if seqb (lit "includesubdomains") p then HSub else if seqb (lit "preload") p then HPre else HOther).
  exists (map item l1), (dec_value t), (map item l2).
  assert (NA : forall p m, item p <> HAge m) by (intros p m; unfold item; destruct (seqb _ p); [discriminate|]; destruct (seqb _ p); discriminate).
  assert (K : forall p, In p (l1 ++ l2) -> hsts_means p (item p)).
  { intros p I. unfold item. destruct (seqb_spec (lit "includesubdomains") p) as [<-|N1]; [reflexivity|]. destruct (seqb_spec (lit "preload") p) as [<-|N2]; [reflexivity|].
    split; [auto|]. split; [auto|]. intros u ->. rewrite Forall_forall in M. apply (M _ I). change (lit "max-age=" ++ u) with (lit "max-age" ++ 61 :: u). rewrite binding_app by reflexivity. reflexivity. }
  split; [|split; [|split; [reflexivity|]]].
  - apply spells_split. assert (S : map trim (split 59 v) = parts v).
    { unfold parts. assert (C : cut true 59 Plain v = split 59 v).
      { rewrite <- (cut_rejoin true 59 v Plain) at 2. symmetry. apply split_join; [apply cut_nonempty|]. clear - NQ. apply no_char_in in NQ. unfold no_char in NQ. revert NQ.
        induction v as [|c v IH]; intros NQ; cbn [cut]; [repeat constructor|]. cbn [forallb] in NQ. apply andb_true_iff in NQ as [N1 N2]. specialize (IH N2).
        destruct (N.eqb_spec c 59) as [->|N]; [constructor; [reflexivity|exact IH]|]. cbn [step]. apply negb_true_iff in N1. rewrite N1.
        destruct (cut true 59 Plain v) as [|x l]; cbn [add_char]; [repeat constructor; unfold no_char; cbn [forallb]; apply N.eqb_neq in N; now rewrite N|]. inversion IH; subst. constructor; [|assumption].
        unfold no_char in *. cbn [forallb]. apply N.eqb_neq in N. rewrite N. assumption. }
      rewrite C. apply map_ext_in. intros x I. apply trim_strip. assert (P' := field_pieces 59 v F). rewrite Forall_forall in P'. now apply P'. }
    apply forall2_map_l with (f := trim) (P := hsts_means). rewrite S, P. apply Forall2_app.
    + apply forall2_self. apply Forall_forall. intros p I. apply K. apply in_or_app. now left.
    + constructor; [exists t; split; [reflexivity|split; [exists t; auto|exact L]]|]. apply forall2_self. apply Forall_forall. intros p I. apply K. apply in_or_app. now right.
  - intros m I. apply in_map_iff in I as (p & E & _). now elim (NA p m).
  - cbn [include_subdomains preload]. rewrite <- map_app. split; rewrite existsb_exists, in_map_iff.
    + split; intros (p & A & B); exists p.
      * split; [unfold item; now rewrite B|exact A].
      * split; [exact B|]. unfold item in A. destruct (seqb (lit "includesubdomains") p); [reflexivity|]. destruct (seqb (lit "preload") p); discriminate A.
    + split; intros (p & A & B); exists p.
      * split; [|exact A]. unfold item. destruct (seqb_spec (lit "includesubdomains") p) as [<-|]; [discriminate B|now rewrite B].
      * split; [exact B|]. unfold item in A. destruct (seqb (lit "includesubdomains") p); [discriminate A|]. destruct (seqb (lit "preload") p); [reflexivity|discriminate A].
Qed.
Print Assumptions C103_hsts.
Example C103_hsts_example : parts (lit "preload ; max-age=5; includeSubDomains") = [lit "preload"] ++ (lit "max-age=" ++ lit "5") :: [lit "includeSubDomains"] /\
  hsts_from_headers [(lit "strict-transport-security", [lit "preload ; max-age=5; includeSubDomains"])] = Ok (Some (Hsts (from_secs 5) false true)).
Proof. vm_compute. auto. Qed.
(** The usual spelling of includeSubDomains is not seen; an age in quotes or under a name in other case is refused. *)
Theorem C103_hsts_refuted : exists u v w, map binding (parts u) = [(lit "max-age", Some (lit "5")); (lit "includeSubDomains", None)] /\
  hsts_from_headers [(lit "strict-transport-security", [u])] = Ok (Some (Hsts (from_secs 5) false false)) /\
  map binding (parts v) = [(lit "max-age", Some (lit "5"))] /\ hsts_from_headers [(lit "strict-transport-security", [v])] = Err 400 /\
  map binding (parts w) = [(lit "Max-Age", Some (lit "5"))] /\ hsts_from_headers [(lit "strict-transport-security", [w])] = Err 400.
Proof. exists (lit "max-age=5; includeSubDomains"), (lit "max-age=""5"""), (lit "Max-Age=5"). vm_compute. auto 8. Qed.
Print Assumptions C103_hsts_refuted.
