(** C94: exactly which header texts the list headers (and Strict-Transport-Security, Age) accept, and what each text means.
    The grammar below speaks of the texts only: pieces between commas, blanks around each piece. *)
From Coq Require Import ZifyBool ZifyNat ZifyN Lia.
From Verif Require Import Base BaseFacts Headers HeadersFacts Typed TypedFacts Conditional ConditionalProps Cache CacheProps Method EnumProps Other OtherProps NegotiateExactProps AuthExactProps.

(** ** The shape of a list *)
(** A text with blanks around it. *)
Definition around (t c : str) : Prop :=
  exists a b, t = a ++ c ++ b /\ forallb is_ws a = true /\ forallb is_ws b = true /\ no_edge is_ws c = true.
(** One value: pieces with the mark [d] between them, each meaning an item. *)
Definition spells {I} (d : N) (means : str -> I -> Prop) (v : str) (items : list I) : Prop :=
  exists ts, ts <> [] /\ v = join [d] ts /\ Forall2 (fun t i => ~ In d t /\ exists c, around t c /\ means c i) ts items.
(** All the values of a header, in order. *)
Definition all_spell {I} (means : str -> I -> Prop) (vs : list str) (items : list I) : Prop :=
  exists iss, Forall2 (spells 44 means) vs iss /\ items = concat iss.

Lemma around_trim : forall t c, around t c <-> c = trim t.
Proof.
  intros t c. split.
  - intros (a & b & -> & A & B & E). unfold trim. rewrite trim_matches_pad by assumption. symmetry. now apply trim_matches_id.
  - intros ->. destruct (trim_matches_decomp is_ws t) as (a & b & E & A & B). exists a, b. split; [exact E|]. split; [exact A|]. split; [exact B|].
    apply no_edge_of_trim. unfold trim. now rewrite trim_matches_idem.
Qed.
Lemma forall2_map_l : forall A B C (f : A -> B) (P : B -> C -> Prop) l m, Forall2 P (map f l) m <-> Forall2 (fun x y => P (f x) y) l m.
Proof.
  induction l as [|x l IH]; intros m; cbn [map].
  - split; intros H; inversion H; constructor.
  - split; intros H; inversion H; subst; constructor; auto; now apply IH.
Qed.
Lemma spells_split : forall I d (means : str -> I -> Prop) v items, spells d means v items <-> Forall2 (fun t i => means (trim t) i) (split d v) items.
Proof.
  intros I d means v items. split.
  - intros (ts & N & -> & F). rewrite split_join; [|exact N|].
    + clear N. induction F as [|t i ts is (_ & c & A & M) F IH]; constructor; [|exact IH]. apply around_trim in A. now subst c.
    + clear N. induction F as [|t i ts is (D & _) F IH]; constructor; [now apply no_char_in|exact IH].
  - intros F. exists (split d v). split; [apply split_nonempty|]. split; [symmetry; apply split_join_inv|].
    assert (P := split_pieces d v). revert P F. generalize (split d v) as ts. intros ts P F.
    induction F as [|t i ts is M F IH]; constructor.
    + inversion P; subst. split; [now apply no_char_in|]. exists (trim t). split; [now apply around_trim|exact M].
    + apply IH. now inversion P.
Qed.
Lemma all_spell_parts : forall I (means : str -> I -> Prop) vs items, all_spell means vs items <-> Forall2 means (map trim (comma_parts vs)) items.
Proof.
  intros I means vs. unfold comma_parts. change c_comma with 44. induction vs as [|v vs IH]; intros items; cbn [flat_map map].
  - split.
    + intros (iss & F & ->). inversion F; subst. constructor.
    + intros F. inversion F; subst. exists []. split; [constructor|reflexivity].
  - rewrite map_app, pieces_trim. split.
    + intros (iss & F & ->). inversion F as [|? i ? iss' S F']; subst. cbn [concat]. apply Forall2_app.
      * apply forall2_map_l. now apply spells_split.
      * apply IH. now exists iss'.
    + intros F. apply Forall2_app_inv_l in F as (l1 & l2 & F1 & F2 & ->). apply IH in F2 as (iss & F2 & ->).
      exists (l1 :: iss). split; [constructor; [|exact F2]|reflexivity]. apply spells_split. now apply forall2_map_l.
Qed.

Lemma forall2_cons_l : forall A B (P : A -> B -> Prop) x l m, Forall2 P (x :: l) m -> exists y m', m = y :: m' /\ P x y /\ Forall2 P l m'.
Proof. intros A B P x l m F. inversion F; subst. eauto. Qed.

Lemma forall2_impl : forall A B (P Q : A -> B -> Prop) l m, (forall x y, P x y -> Q x y) -> Forall2 P l m -> Forall2 Q l m.
Proof. intros A B P Q l m H F. induction F; constructor; auto. Qed.

(** ** Lists with a star *)
(** An entry, or the star ([None]). *)
Definition entries {A} (os : list (option A)) : list A := flat_map (fun o => match o with Some a => [a] | None => [] end) os.
Definition starred {A} (os : list (option A)) : Prop := In None os.
Lemma read_parts_iff : forall A star (parse : str -> outcome A) (means : str -> A -> Prop),
  (forall c a, c <> star -> (parse c = Ok a <-> means c a)) ->
  forall ps l (w : bool), read_parts star parse ps = Ok (l, w) <->
  exists os, Forall2 (fun c o => match o with None => c = star | Some a => c <> star /\ means c a end) (map trim ps) os /\
    l = entries os /\ (w = true <-> starred os).
Proof.
  intros A star parse means M. induction ps as [|p ps IH]; intros l w; cbn [read_parts map].
  - split.
    + intros H. inv H. exists []. split; [constructor|]. split; [reflexivity|]. split; [discriminate|intros []].
    + intros (os & F & -> & W). inversion F; subst. destruct w; [destruct (proj1 W eq_refl)|reflexivity].
  - destruct (seqb_spec (trim p) star) as [E|E].
    + split.
      * destruct (read_parts star parse ps) as [[es b]| |] eqn:R; cbn [bind]; intros H; try discriminate. injection H as <- <-.
        destruct (proj1 (IH es b) eq_refl) as (os & F & -> & W). exists (None :: os). split; [constructor; [exact E|exact F]|].
        split; [reflexivity|]. split; [intros _; now left|reflexivity].
      * intros (os & F & -> & W). apply forall2_cons_l in F as (o & os' & -> & P & F'). destruct o as [a|]; [destruct P; congruence|].
        assert (X : exists b, read_parts star parse ps = Ok (entries os', b)).
        { destruct (existsb (fun o : option A => match o with None => true | _ => false end) os') eqn:B;
            [exists true|exists false]; apply IH; exists os'; (split; [exact F'|]; split; [reflexivity|]).
          - apply existsb_exists in B as ([a|] & I & B); [discriminate|]. split; auto.
          - split; [discriminate|]. intros I. assert (B' : existsb (fun o : option A => match o with None => true | _ => false end) os' = true) by (apply existsb_exists; now exists None). congruence. }
        destruct X as (b & ->). cbn [bind]. assert (w = true) by (apply W; now left). now subst w.
    + split.
      * destruct (parse (trim p)) as [a| |] eqn:P; cbn [bind]; try discriminate.
        destruct (read_parts star parse ps) as [[es b]| |] eqn:R; cbn [bind]; intros H; try discriminate. injection H as <- <-.
        destruct (proj1 (IH es b) eq_refl) as (os & F & -> & W). exists (Some a :: os).
        split; [constructor; [split; [exact E|now apply M]|exact F]|]. split; [reflexivity|].
        rewrite W. unfold starred. cbn [In]. split; [auto|]. intros [X|X]; [discriminate|exact X].
      * intros (os & F & -> & W). apply forall2_cons_l in F as (o & os' & -> & P & F'). destruct o as [a|]; [|congruence].
        destruct P as [_ P]. apply M in P; [|exact E]. rewrite P. cbn [bind].
        rewrite (proj2 (IH (entries os') w)); [reflexivity|]. exists os'. split; [exact F'|]. split; [reflexivity|].
        rewrite W. unfold starred. cbn [In]. split; [intros [X|X]; [discriminate|exact X]|auto].
Qed.
Lemma with_all_iff : forall A h n vs (k : header_values -> outcome A) a, h_get h n = Some vs -> (with_all h n k = Ok (Some a) <-> k vs = Ok a).
Proof. intros A h n vs k a G. unfold with_all. rewrite G. destruct (k vs) as [x| |]; cbn [bind]; split; intros H; inv H; reflexivity. Qed.

(** If-Match and If-None-Match: each piece is a star or an entity tag of RFC 7232. *)
Theorem C94_if_match : forall k h vs l (w : bool), h_get h (cond_name k) = Some vs ->
  (cond_from_headers k h = Ok (Some (l, w)) <->
   exists os, all_spell (fun c o => match o with
       | None => c = lit "*"
       | Some e => entity_tag (match e with Weak _ => true | Strong _ => false end) (opaque e) c end) vs os /\
     l = entries os /\ (w = true <-> starred os)).
Proof.
  intros k h vs l w G. unfold cond_from_headers. rewrite (with_all_iff _ _ _ vs _ _ G).
  rewrite (read_parts_iff _ _ _ (fun c e => entity_tag (match e with Weak _ => true | Strong _ => false end) (opaque e) c)).
  - split; intros (os & F & L & W); exists os; (split; [|auto]).
    + apply all_spell_parts. eapply forall2_impl; [|exact F]. intros c [e|] H; [apply H|exact H].
    + apply all_spell_parts in F. eapply forall2_impl; [|exact F]. intros c [e|] H; [|exact H]. split; [|exact H].
      destruct H as [_ ->]. destruct e; discriminate.
  - intros c e _. rewrite <- C39_grammar. destruct e; reflexivity.
Qed.
Print Assumptions C94_if_match.
Example C94_if_match_example : forall e1 e2, e1 = Strong (lit "a") -> e2 = Weak [] ->
  cond_from_headers IfMatch [(lit "if-match", [lit " ""a"" ,*"; lit "W/"""""])] = Ok (Some ([e1; e2], true)).
Proof. intros e1 e2 -> ->. vm_compute. reflexivity. Qed.

(** Vary: each piece is a star or any ASCII text, even an empty one, in lower case. *)
Theorem C94_vary : forall h vs l (w : bool), h_get h (lit "vary") = Some vs ->
  (vary_from_headers h = Ok (Some (l, w)) <->
   exists os, all_spell (fun c o => match o with None => c = lit "*" | Some n => c <> lit "*" /\ is_ascii c = true /\ n = to_lower c end) vs os /\
     l = entries os /\ (w = true <-> starred os)).
Proof.
  intros h vs l w G. unfold vary_from_headers. rewrite (with_all_iff _ _ VARY vs _ _ G).
  assert (E : read_parts (lit "*") (fun p => name_from_str (trim p)) (comma_parts vs) = read_parts (lit "*") name_from_str (comma_parts vs)).
  { generalize (comma_parts vs) as ps. induction ps as [|p ps IH]; [reflexivity|]. cbn [read_parts]. rewrite IH. unfold trim at 3. unfold trim at 2. rewrite trim_matches_idem. reflexivity. }
  rewrite E, (read_parts_iff _ _ _ (fun c n => is_ascii c = true /\ n = to_lower c)).
  - split; intros (os & F & L & W); exists os; (split; [|auto]); apply all_spell_parts; exact F || (apply all_spell_parts in F; exact F).
  - intros c n _. unfold name_from_str. destruct (is_ascii c); split; intros H; [inv H; auto|destruct H as [_ ->]; reflexivity|discriminate|destruct H; discriminate].
Qed.
Print Assumptions C94_vary.
Example C94_vary_example : vary_from_headers [(lit "vary", [lit "Accept , ,a b"; lit "*"])] = Ok (Some ([lit "accept"; []; lit "a b"], true)).
Proof. vm_compute. reflexivity. Qed.

(** Clear-Site-Data: each piece is one of the five quoted words in exactly this spelling. *)
Theorem C94_clear_site_data : forall h vs l (w : bool), h_get h (lit "clear-site-data") = Some vs ->
  (clear_from_headers h = Ok (Some (l, w)) <->
   exists os, all_spell (fun c o => c = match o with
       | None => lit """*""" | Some ClearCache => lit """cache""" | Some ClearCookies => lit """cookies"""
       | Some ClearStorage => lit """storage""" | Some ClearExecutionContexts => lit """executionContexts""" end) vs os /\
     l = entries os /\ (w = true <-> starred os)).
Proof.
  intros h vs l w G. unfold clear_from_headers. rewrite (with_all_iff _ _ CLEAR_SITE_DATA vs _ _ G).
  rewrite (read_parts_iff _ _ _ (fun c d => c = clear_str d)).
  - split; intros (os & F & L & W); exists os; (split; [|auto]).
    + apply all_spell_parts. eapply forall2_impl; [|exact F]. intros c [[]|] H; try apply H.
    + apply all_spell_parts in F. eapply forall2_impl; [|exact F]. intros c [[]|] H; try exact H; (split; [subst c; discriminate|exact H]).
  - intros c d N. unfold clear_from_str. split.
    + repeat match goal with |- context [seqb c ?x] => destruct (seqb_spec c x) as [->|]; [intros H; inv H; reflexivity|] end. discriminate.
    + intros ->. destruct d; reflexivity.
Qed.
Print Assumptions C94_clear_site_data.
Example C94_clear_site_data_example : clear_from_headers [(lit "clear-site-data", [lit """storage"",""*"" "; lit " ""cache"""])] = Ok (Some ([ClearStorage; ClearCache], true)).
Proof. vm_compute. reflexivity. Qed.

(** ** Cache-Control *)
(** What may follow and is ignored. *)
Definition eq_tail (r : str) : Prop := r = [] \/ exists r', r = 61 :: r'.
(** How a piece is understood.  Names are written in any case; a flag may have any argument; a number may be followed by
    another "=" and anything. *)
Inductive cache_piece : str -> option directive -> Prop :=
| CacheFlag s r d : In (to_lower s, d) flag_names -> d <> MaxStale None -> eq_tail r -> cache_piece (s ++ r) (Some d)
| CacheStale s : to_lower s = lit "max-stale" -> cache_piece s (Some (MaxStale None))
| CacheTimed s t n r f : In (to_lower s, f) timed_names -> dec_text t n -> n <= u64_max -> eq_tail r ->
    cache_piece (s ++ 61 :: t ++ r) (Some (f (from_secs n)))
| CacheUnknown s r : ~ In 61 s -> (forall d, ~ In (to_lower s, d) flag_names) -> (forall f, ~ In (to_lower s, f) timed_names) -> eq_tail r ->
    cache_piece (s ++ r) None.

(** The choice made on the name, as a function of the name and the rest. *)
Lemma lower_eq : forall c, lower_char c = 61 <-> c = 61.
Proof. intros c. unfold lower_char, is_upper. destruct ((65 <=? c) && (c <=? 90)) eqn:E; lia. Qed.
Lemma lower_no_eq : forall s : str, In 61 (to_lower s) <-> In 61 s.
Proof.
  intros s. unfold to_lower. rewrite in_map_iff. split.
  - intros (c & E & I). apply (proj1 (lower_eq c)) in E. now subst c.
  - intros I. exists 61. split; [reflexivity|exact I].
Qed.
Lemma lower_dec : forall t n, dec_text (to_lower t) n <-> dec_text t n.
Proof.
  assert (K : forall t, Forall (fun c => 43 <= c <= 57) (to_lower t) <-> Forall (fun c => 43 <= c <= 57) t).
  { intros t. unfold to_lower. rewrite Forall_map. split; intros F; eapply Forall_impl; try exact F; intros c; cbv beta; unfold lower_char, is_upper; destruct ((65 <=? c) && (c <=? 90)) eqn:E; lia. }
  assert (J : forall t n, dec_text t n -> Forall (fun c => 43 <= c <= 57) t).
  { intros t n (ds & S & _ & F & _). assert (F' : Forall (fun c => 43 <= c <= 57) ds) by (eapply Forall_impl; [|exact F]; intros c; cbv beta; lia).
    destruct S as [->| ->]; [exact F'|constructor; [lia|exact F']]. }
  assert (L : forall t, Forall (fun c => 43 <= c <= 57) t -> to_lower t = t).
  { intros t F. unfold to_lower. induction F as [|c t C F IH]; [reflexivity|]. cbn [map]. rewrite IH. f_equal. unfold lower_char, is_upper. destruct ((65 <=? c) && (c <=? 90)) eqn:E; lia. }
  intros t n. split; intros H.
  - rewrite <- (L t); [exact H|]. apply K. eapply J, H.
  - rewrite (L t); [exact H|]. eapply J, H.
Qed.
Lemma eq_tail_lower : forall r, eq_tail r -> eq_tail (to_lower r).
Proof. intros r [->|(r' & ->)]; [now left|right]. exists (to_lower r'). reflexivity. Qed.
Definition cache_rest (r : str) : list str := match r with [] => [] | _ :: r' => split 61 (to_lower r') end.
(** What the name decides. *)
Definition cache_case (n : str) (parts : list str) (o : option directive) : Prop :=
  (exists d, In (n, d) flag_names /\ d <> MaxStale None /\ o = Some d) \/
  (n = lit "max-stale" /\ parts = [] /\ o = Some (MaxStale None)) \/
  (exists f t more k, In (n, f) timed_names /\ parts = t :: more /\ parse_uint 10 u64_max t = Some k /\ o = Some (f (from_secs k))) \/
  ((forall d, ~ In (n, d) flag_names) /\ (forall f, ~ In (n, f) timed_names) /\ o = None).
Lemma cache_chain : forall s r o, ~ In 61 s -> eq_tail r -> no_edge is_ws (s ++ r) = true ->
  (directive_from_str (s ++ r) = Ok o <-> cache_case (to_lower s) (cache_rest r) o).
Proof.
  intros s r o NS T NE. unfold directive_from_str. rewrite trim_id by exact NE.
  assert (SP : split c_eq (to_lower (s ++ r)) = to_lower s :: cache_rest r).
  { change c_eq with 61. rewrite to_lower_app. destruct T as [->|(r' & ->)].
    - rewrite app_nil_r. apply split_no_char, no_char_in. now rewrite lower_no_eq.
    - change (to_lower (61 :: r')) with (61 :: to_lower r'). apply split_app, no_char_in. now rewrite lower_no_eq. }
  destruct (s ++ r) as [|c0 t0] eqn:E.
  - apply app_eq_nil in E as [-> ->]. cbn [to_lower map cache_rest]. split.
    + intros H. inv H. right. right. right. split; [|split; [|reflexivity]]; intros x H.
      * cbn [flag_names In] in H. repeat (destruct H as [H|H]; [discriminate H|]). exact H.
      * cbn [timed_names In] in H. repeat (destruct H as [H|H]; [discriminate H|]). exact H.
    + intros [(d & H & _)|[(H & _)|[(f & t & more & k & H & _)|(_ & _ & ->)]]]; [|discriminate H| |reflexivity].
      * cbn [flag_names In] in H. repeat (destruct H as [H|H]; [discriminate H|]). destruct H.
      * cbn [timed_names In] in H. repeat (destruct H as [H|H]; [discriminate H|]). destruct H.
  - rewrite SP. clear SP E c0 t0 NE T NS. generalize (to_lower s) as n, (cache_rest r) as parts. clear s r. intros n parts. split.
    + intros H.
      repeat match type of H with
      | (if seqb n ?x then Ok (Some ?d) else _) = _ =>
          destruct (seqb_spec n x) as [->|]; [injection H as <-; left; exists d; split; [cbn [flag_names In]; auto 12|split; [discriminate|reflexivity]]|]
      | (if seqb n ?x then (let* d := get_dur parts in Ok (Some (?f d))) else _) = _ =>
          destruct (seqb_spec n x) as [->|]; [unfold get_dur in H; destruct parts as [|t more]; [discriminate H|];
            cbn [hd_error ok_or bind] in H; destruct (parse_uint 10 u64_max t) as [k|] eqn:K; [|discriminate H]; cbn [ok_or bind] in H; injection H as <-;
            right; right; left; exists f, t, more, k; split; [cbn [timed_names In]; auto 12|auto]|]
      | (if seqb n (lit "max-stale") then _ else _) = _ =>
          destruct (seqb_spec n (lit "max-stale")) as [->|]; [destruct parts as [|t more]; [injection H as <-; right; left; auto|];
            destruct (parse_uint 10 u64_max t) as [k|] eqn:K; [|discriminate H]; cbn [ok_or bind] in H; injection H as <-;
            right; right; left; exists (fun d => MaxStale (Some d)), t, more, k; split; [cbn [timed_names In]; auto 12|auto]|]
      end.
      injection H as <-. right. right. right. split; [|split; [|reflexivity]]; intros x I.
      * cbn [flag_names In] in I. repeat (destruct I as [I|I]; [injection I as <- _; congruence|]). exact I.
      * cbn [timed_names In] in I. repeat (destruct I as [I|I]; [injection I as <- _; congruence|]). exact I.
    + intros [(d & H & N & ->)|[(-> & -> & ->)|[(f & t & more & k & H & -> & K & ->)|(F1 & F2 & ->)]]].
      * cbn [flag_names In] in H. repeat (destruct H as [H|H]; [injection H as <- <-; first [congruence|reflexivity]|]). destruct H.
      * reflexivity.
      * unfold get_dur. cbn [hd_error ok_or bind]. rewrite K. cbn [ok_or bind].
        cbn [timed_names In] in H. repeat (destruct H as [H|H]; [injection H as <- <-; reflexivity|]). destruct H.
      * repeat match goal with |- (if seqb n ?x then _ else _) = _ =>
          destruct (seqb_spec n x) as [->|]; [exfalso; first [eapply F1; cbn [flag_names In]; solve [eauto 12] | eapply F2; cbn [timed_names In]; solve [eauto 12]]|] end.
        reflexivity.
Qed.
Lemma flag_no_eq : forall s d, In (to_lower s, d) flag_names -> ~ In 61 s.
Proof.
  intros s d H. rewrite <- lower_no_eq. revert H. generalize (to_lower s) as n. intros n H. apply no_char_in. cbn [flag_names In] in H.
  repeat (destruct H as [H|H]; [injection H as <- _; reflexivity|]). destruct H.
Qed.
Lemma timed_no_eq : forall s f, In (to_lower s, f) timed_names -> ~ In 61 s.
Proof.
  intros s f H. rewrite <- lower_no_eq. revert H. generalize (to_lower s) as n. intros n H. apply no_char_in. cbn [timed_names In] in H.
  repeat (destruct H as [H|H]; [injection H as <- _; reflexivity|]). destruct H.
Qed.
Lemma cache_piece_read : forall c o, no_edge is_ws c = true -> (directive_from_str c = Ok o <-> cache_piece c o).
Proof.
  intros c o NE. split.
  - destruct (cut_first 61 c) as (s & r & -> & NS & T). intros H. apply cache_chain in H; try assumption.
    destruct H as [(d & H & N & ->)|[(H & P & ->)|[(f & t & more & k & H & P & K & ->)|(F1 & F2 & ->)]]].
    + now constructor.
    + destruct r as [|x r]; [|cbn [cache_rest] in P; now apply split_nonempty in P]. rewrite app_nil_r. now constructor.
    + destruct r as [|x r]; [discriminate P|]. destruct T as [T|(r' & T)]; [discriminate T|]. injection T as -> ->. cbn [cache_rest] in P.
      destruct (cut_first 61 r') as (t' & r2 & -> & NT & T2). rewrite to_lower_app, split_cut in P.
      * injection P as <- _. apply parse_dec_spec in K as [K L]. apply CacheTimed; auto. now apply lower_dec.
      * now rewrite lower_no_eq.
      * now apply eq_tail_lower.
    + now constructor.
  - intros P. revert NE. destruct P as [s r d H N T|s H|s t n r f H D L T|s r NS F1 F2 T]; intros NE.
    + apply cache_chain; [now apply flag_no_eq in H|exact T|exact NE|]. left. now exists d.
    + assert (X : In (to_lower s, MaxStale None) flag_names) by (rewrite H; cbn [flag_names In]; auto 12).
      rewrite <- (app_nil_r s). apply cache_chain; [now apply flag_no_eq in X|now left|now rewrite app_nil_r|]. right. left. auto.
    + apply cache_chain; [now apply timed_no_eq in H|right; eexists; reflexivity|exact NE|]. right. right. left.
      assert (NT : ~ In 61 t).
      { destruct D as (ds & S & _ & F & _). intros I. rewrite Forall_forall in F. destruct S as [->| ->]; [|destruct I as [I|I]; [discriminate I|]]; apply F in I; lia. }
      exists f, (to_lower t), (match to_lower r with [] => [] | _ :: r' => split 61 r' end), n. split; [exact H|]. split.
      * cbn [cache_rest]. rewrite to_lower_app. apply split_cut; [now rewrite lower_no_eq|now apply eq_tail_lower].
      * split; [|reflexivity]. apply parse_dec_spec. split; [now apply lower_dec|exact L].
    + apply cache_chain; auto. right. right. right. auto.
Qed.

(** Cache-Control: each piece means a directive or is skipped. *)
Theorem C94_cache_control : forall h vs l, h_get h (lit "cache-control") = Some vs ->
  (cache_from_headers h = Ok (Some l) <-> exists os, all_spell cache_piece vs os /\ l = entries os).
Proof.
  intros h vs l G. unfold cache_from_headers. rewrite (with_all_iff _ _ CACHE_CONTROL vs _ _ G).
  assert (K : forall ps l, read_directives ps = Ok l <-> exists os, Forall2 cache_piece (map trim ps) os /\ l = entries os).
  { clear. induction ps as [|p ps IH]; intros l; cbn [read_directives map].
    - split; [intros H; inv H; exists []; split; [constructor|reflexivity]|]. intros (os & F & ->). inversion F; subst. reflexivity.
    - assert (P : forall o, directive_from_str p = Ok o <-> cache_piece (trim p) o).
      { intros o. rewrite <- from_str_trim. apply cache_piece_read. apply no_edge_of_trim. unfold trim. now rewrite trim_matches_idem. }
      split.
      + destruct (directive_from_str p) as [o| |] eqn:E; cbn [bind]; try discriminate.
        destruct (read_directives ps) as [es| |] eqn:R; cbn [bind]; intros H; try discriminate. injection H as <-.
        destruct (proj1 (IH es) eq_refl) as (os & F & ->). exists (o :: os). split; [constructor; [now apply P|exact F]|]. destruct o; reflexivity.
      + intros (os & F & ->). apply forall2_cons_l in F as (o & os' & -> & Q & F). apply P in Q. rewrite Q. cbn [bind].
        rewrite (proj2 (IH (entries os'))) by (exists os'; auto). cbn [bind]. destruct o; reflexivity. }
  rewrite K. split; intros (os & F & L); exists os; (split; [|exact L]); apply all_spell_parts; exact F || (apply all_spell_parts in F; exact F).
Qed.
Print Assumptions C94_cache_control.
Example C94_cache_control_example :
  cache_from_headers [(lit "cache-control", [lit "Public=x , max-stale,Max-Stale=+07=z"; lit "foo=1,, min-fresh=5"])]
    = Ok (Some [Public; MaxStale None; MaxStale (Some (from_secs 7)); MinFresh (from_secs 5)]) /\
  cache_from_headers [(lit "cache-control", [lit "max-age= 5"])] = Err 400 /\ cache_from_headers [(lit "cache-control", [lit "max-age =5"])] = Ok (Some []).
Proof. vm_compute. auto. Qed.

(** ** Allow *)
(** Each piece is a method name in any case; the result is their set. *)
Lemma set_insert_spec : forall m s, NoDup s -> NoDup (set_insert m s) /\ forall x, In x (set_insert m s) <-> In x s \/ x = m.
Proof.
  intros m s N. unfold set_insert. destruct (existsb (method_eqb m) s) eqn:D.
  - split; [exact N|]. intros x. split; [auto|]. intros [| ->]; [assumption|]. apply existsb_exists in D as (y & I & Y). apply method_eqb_iff in Y. now subst y.
  - split.
    + constructor; [|exact N]. intros I. assert (T : existsb (method_eqb m) s = true); [|congruence]. apply existsb_exists. exists m. split; [exact I|]. now apply method_eqb_iff.
    + intros x. cbn [In]. split; intros [|]; auto.
Qed.
Theorem C94_allow : forall h vs, h_get h (lit "allow") = Some vs ->
  ((exists s, allow_from_headers h = Ok (Some s)) <-> exists ms, all_spell (fun c m => to_upper c = method_str m) vs ms) /\
  (forall s ms, allow_from_headers h = Ok (Some s) -> all_spell (fun c m => to_upper c = method_str m) vs ms -> NoDup s /\ forall m, In m s <-> In m ms).
Proof.
  intros h vs G.
  assert (K : forall ps s s', NoDup s -> allow_read ps s = Ok s' -> NoDup s' /\ exists ms, Forall2 (fun c m => to_upper c = method_str m) (map trim ps) ms /\ forall m, In m s' <-> In m s \/ In m ms).
  { clear. induction ps as [|p ps IH]; intros s s' N; cbn [allow_read map]; intros H.
    - inv H. split; [exact N|]. exists []. split; [constructor|]. intros m. cbn [In]. tauto.
    - destruct (method_from_str (trim p)) as [m| |] eqn:E; cbn [bind] in H; try discriminate. destruct (set_insert_spec m s N) as [N1 I1].
      destruct (IH _ _ N1 H) as (N2 & ms & F & I2). split; [exact N2|]. exists (m :: ms). split; [constructor; [now apply C07_method_parse_iff|exact F]|].
      intros x. rewrite I2, I1. cbn [In]. intuition. }
  assert (J : forall ps ms, Forall2 (fun c m => to_upper c = method_str m) (map trim ps) ms -> forall s, exists s', allow_read ps s = Ok s').
  { clear. induction ps as [|p ps IH]; intros ms F s; cbn [allow_read map] in *; [eauto|]. apply forall2_cons_l in F as (m & ms' & -> & E & F).
    apply C07_method_parse_iff in E. rewrite E. cbn [bind]. eapply IH, F. }
  assert (U : forall cs ms ms', Forall2 (fun c m => to_upper c = method_str m) cs ms -> Forall2 (fun c m => to_upper c = method_str m) cs ms' -> ms = ms').
  { clear. intros cs ms ms' F. revert ms'. induction F as [|c m cs ms E F IH]; intros ms' F'; [inversion F'; reflexivity|].
    apply forall2_cons_l in F' as (m' & ms'' & -> & E' & F'). f_equal; [|now apply IH]. apply C07_method_parse_iff in E, E'. congruence. }
  split; [split|].
  - intros (s & H). unfold allow_from_headers in H. apply (proj1 (with_all_iff _ _ ALLOW vs (fun vs => allow_read (comma_parts vs) []) _ G)) in H. destruct (K _ _ _ (NoDup_nil _) H) as (_ & ms & F & _).
    exists ms. now apply all_spell_parts.
  - intros (ms & F). apply all_spell_parts in F. destruct (J _ _ F []) as (s & S). exists s. unfold allow_from_headers. now apply (proj2 (with_all_iff _ _ ALLOW vs (fun vs => allow_read (comma_parts vs) []) _ G)).
  - intros s ms H F. unfold allow_from_headers in H. apply (proj1 (with_all_iff _ _ ALLOW vs (fun vs => allow_read (comma_parts vs) []) _ G)) in H. destruct (K _ _ _ (NoDup_nil _) H) as (N & ms' & F' & I).
    apply all_spell_parts in F. rewrite (U _ _ _ F F'). split; [exact N|]. intros m. rewrite I. cbn [In]. tauto.
Qed.
Print Assumptions C94_allow.
Example C94_allow_example : (exists ms, all_spell (fun c m => to_upper c = method_str m) [lit "get , Put"; lit "GET"] ms /\ ms = [M_Get; M_Put; M_Get]) /\
  allow_from_headers [(lit "allow", [lit "get , Put"; lit "GET"])] = Ok (Some [M_Put; M_Get]) /\ allow_from_headers [(lit "allow", [lit "GET,"])] = Err 500.
Proof.
  split; [|vm_compute; auto]. exists [M_Get; M_Put; M_Get]. split; [|reflexivity]. apply all_spell_parts.
  replace (map trim (comma_parts [lit "get , Put"; lit "GET"])) with [lit "get"; lit "Put"; lit "GET"] by (vm_compute; reflexivity). repeat constructor.
Qed.

(** ** Strict-Transport-Security *)
Inductive hsts_item : Type := HAge (n : N) | HSub | HPre | HOther.
(** Everything that is not one of the two lower-case words and does not begin with "max-age=" is ignored. *)
Definition hsts_means (c : str) (i : hsts_item) : Prop :=
  match i with
  | HAge n => exists t, c = lit "max-age=" ++ t /\ dec_text t n /\ n <= u64_max
  | HSub => c = lit "includesubdomains"
  | HPre => c = lit "preload"
  | HOther => c <> lit "includesubdomains" /\ c <> lit "preload" /\ forall t, c <> lit "max-age=" ++ t
  end.
Lemma age_prefix : forall c : str, (exists t, c = lit "max-age=" ++ t /\ split_once 61 c = Some (lit "max-age", t)) \/
  ((forall t, c <> lit "max-age=" ++ t) /\ forall t, split_once 61 c <> Some (lit "max-age", t)).
Proof.
  intros c. destruct (split_once 61 c) as [[k t]|] eqn:E.
  - apply split_once_some in E as [-> N]. destruct (seqb_spec k (lit "max-age")) as [->|D].
    + left. exists t. split; reflexivity.
    + right. split; [|intros t' X; injection X as X _; congruence]. intros t' X. change (lit "max-age=" ++ t') with (lit "max-age" ++ 61 :: t') in X.
      assert (S1 := split_once_app 61 k t N). assert (S2 := split_once_app 61 (lit "max-age") t' eq_refl). rewrite X, S2 in S1. injection S1 as S1 _. congruence.
  - right. split; [|discriminate]. intros t ->. change (lit "max-age=" ++ t) with (lit "max-age" ++ 61 :: t) in E.
    rewrite (split_once_app 61 (lit "max-age") t eq_refl) in E. discriminate.
Qed.
Fixpoint last_age (acc : option duration) (l : list hsts_item) : option duration :=
  match l with [] => acc | HAge n :: l' => last_age (Some (from_secs n)) l' | _ :: l' => last_age acc l' end.
Lemma hsts_read_iff : forall ps age sub pre age' sub' pre', hsts_read ps (age, sub, pre) = Ok (age', sub', pre') <->
  exists items, Forall2 hsts_means (map trim ps) items /\ age' = last_age age items /\
    (sub' = true <-> sub = true \/ In HSub items) /\ (pre' = true <-> pre = true \/ In HPre items).
Proof.
  induction ps as [|p ps IH]; intros age sub pre age' sub' pre'; cbn [hsts_read map].
  - split.
    + intros H. inv H. exists []. split; [constructor|]. cbn [last_age In]. tauto.
    + intros (items & F & A & B & C). inversion F; subst. cbn [last_age In] in *. f_equal. f_equal; [f_equal|].
      * destruct sub, sub'; try reflexivity; [symmetry; apply B; auto|destruct (proj1 B eq_refl) as [X|[]]; exact X].
      * destruct pre, pre'; try reflexivity; [symmetry; apply C; auto|destruct (proj1 C eq_refl) as [X|[]]; exact X].
  - change c_eq with 61.
    assert (D : forall i j, hsts_means (trim p) i -> hsts_means (trim p) j -> i = j).
    { generalize (trim p) as c. intros c i j. destruct i as [n| | |], j as [m| | |]; cbn [hsts_means]; try reflexivity.
      - intros (t & -> & D & _) (t' & E & D' & _). apply app_inv_head in E. subst t'. f_equal.
        assert (X := proj2 (parse_dec_spec (N.max n m) t n) (conj D (N.le_max_l n m))). assert (Y := proj2 (parse_dec_spec (N.max n m) t m) (conj D' (N.le_max_r n m))). congruence.
      - intros (t & -> & _) X. discriminate X.
      - intros (t & -> & _) X. discriminate X.
      - intros (t & -> & _) (_ & _ & X). now elim (X t).
      - intros -> (t & X & _). discriminate X.
      - intros -> X. discriminate X.
      - intros -> (X & _). congruence.
      - intros -> (t & X & _). discriminate X.
      - intros -> X. discriminate X.
      - intros -> (_ & X & _). congruence.
      - intros (_ & _ & X) (t & -> & _). now elim (X t).
      - intros (X & _) ->. congruence.
      - intros (_ & X & _) ->. congruence. }
    assert (STEP : forall i age1 sub1 pre1, hsts_means (trim p) i -> age1 = last_age age [i] -> (sub1 = true <-> sub = true \/ i = HSub) -> (pre1 = true <-> pre = true \/ i = HPre) ->
      (hsts_read ps (age1, sub1, pre1) = Ok (age', sub', pre') <->
       exists items, Forall2 hsts_means (trim p :: map trim ps) items /\ age' = last_age age items /\
         (sub' = true <-> sub = true \/ In HSub items) /\ (pre' = true <-> pre = true \/ In HPre items))).
    { intros i age1 sub1 pre1 M -> S1 P1. rewrite IH. split.
      - intros (items & F & A & B & C). exists (i :: items). split; [constructor; assumption|]. split; [destruct i; exact A|].
        rewrite B, C, S1, P1. cbn [In]. split; tauto.
      - intros (items & F & A & B & C). apply forall2_cons_l in F as (i' & items' & -> & M' & F). rewrite (D i' i M' M) in *. exists items'.
        split; [exact F|]. split; [destruct i; exact A|]. rewrite B, C, S1, P1. cbn [In]. split; tauto. }
    destruct (seqb_spec (trim p) (lit "includesubdomains")) as [E|N1].
    { apply (STEP HSub); [exact E|reflexivity|tauto|]. split; [auto|]. intros [X|X]; [exact X|discriminate X]. }
    destruct (seqb_spec (trim p) (lit "preload")) as [E|N2].
    { apply (STEP HPre); [exact E|reflexivity| |tauto]. split; [auto|]. intros [X|X]; [exact X|discriminate X]. }
    assert (SAME : forall i (b : bool), (i = HSub -> False) -> (b = true <-> b = true \/ i = HSub)) by (intros i b X; split; [auto|intros [Y|Y]; [exact Y|destruct (X Y)]]).
    assert (SAME' : forall i (b : bool), (i = HPre -> False) -> (b = true <-> b = true \/ i = HPre)) by (intros i b X; split; [auto|intros [Y|Y]; [exact Y|destruct (X Y)]]).
    destruct (age_prefix (trim p)) as [(t & E & S)|(NA & NS)].
    + rewrite S. rewrite seqb_refl. destruct (parse_uint 10 u64_max t) as [n|] eqn:PU; cbn [ok_or bind].
      * apply parse_dec_spec in PU as [DT L]. apply (STEP (HAge n)); [exists t; auto|reflexivity|apply SAME; discriminate|apply SAME'; discriminate].
      * split; [discriminate|]. intros (items & F & _). apply forall2_cons_l in F as (i & items' & -> & M & F). exfalso. rewrite E in *. destruct i as [n| | |]; cbn [hsts_means] in M.
        -- destruct M as (t' & E' & DT & L). apply app_inv_head in E'. subst t'. assert (X := proj2 (parse_dec_spec u64_max t n) (conj DT L)). congruence.
        -- congruence.
        -- congruence.
        -- destruct M as (_ & _ & X). now elim (X t).
    + assert (M : hsts_means (trim p) HOther) by (split; [exact N1|split; [exact N2|exact NA]]).
      destruct (split_once 61 (trim p)) as [[k v]|] eqn:S; [|apply (STEP HOther); [exact M|reflexivity|apply SAME; discriminate|apply SAME'; discriminate]].
      destruct (seqb_spec k (lit "max-age")) as [->|]; [now elim (NS v)|]. apply (STEP HOther); [exact M|reflexivity|apply SAME; discriminate|apply SAME'; discriminate].
Qed.
Lemma last_age_some : forall l acc d, last_age acc l = Some d <->
  (exists l1 n l2, l = l1 ++ HAge n :: l2 /\ (forall m, ~ In (HAge m) l2) /\ d = from_secs n) \/ ((forall m, ~ In (HAge m) l) /\ acc = Some d).
Proof.
  induction l as [|i l IH]; intros acc d; cbn [last_age].
  - split; [intros ->; right; split; [intros m []|reflexivity]|]. intros [(l1 & n & l2 & E & _)|[_ ->]]; [destruct l1; discriminate E|reflexivity].
  - assert (SKIP : (forall m, i <> HAge m) -> (last_age acc l = Some d <->
      (exists l1 n l2, i :: l = l1 ++ HAge n :: l2 /\ (forall m, ~ In (HAge m) l2) /\ d = from_secs n) \/ ((forall m, ~ In (HAge m) (i :: l)) /\ acc = Some d))).
    { intros NI. rewrite IH. split.
      - intros [(l1 & n & l2 & -> & N & ->)|[N E]]; [left; exists (i :: l1), n, l2; auto|right; split; [|exact E]]. intros m [X|X]; [now elim (NI m)|now elim (N m)].
      - intros [(l1 & n & l2 & E & N & ->)|[N E]]; [left|right; split; [|exact E]].
        + destruct l1 as [|x l1]; [injection E as E _; now elim (NI n)|]. injection E as _ E. exists l1, n, l2. auto.
        + intros m X. elim (N m). now right. }
    destruct i as [n| | |]; try (apply SKIP; intros m; discriminate).
    rewrite IH. split.
    + intros [(l1 & m & l2 & -> & N & ->)|[N E]]; left; [exists (HAge n :: l1), m, l2; auto|]. exists [], n, l. inv E. auto.
    + intros [(l1 & m & l2 & E & N & ->)|[N E]]; [|now elim (N n); left].
      destruct l1 as [|x l1]; injection E as E1 E2; [right; subst; auto|left; exists l1, m, l2; auto].
Qed.
(** The last age counts; with no age, or with one that is no number, the header is refused. *)
Theorem C94_hsts : forall h vs v s, h_get h (lit "strict-transport-security") = Some (vs ++ [v]) ->
  (hsts_from_headers h = Ok (Some s) <->
   exists l1 n l2, spells 59 hsts_means v (l1 ++ HAge n :: l2) /\ (forall m, ~ In (HAge m) l2) /\ max_age s = from_secs n /\
     (include_subdomains s = true <-> In HSub (l1 ++ l2)) /\ (preload s = true <-> In HPre (l1 ++ l2))).
Proof.
  intros h vs v s H. unfold hsts_from_headers. rewrite (with_last_snoc _ h STRICT_TRANSPORT_SECURITY vs v hsts_parse H). unfold hsts_parse. change c_semi with 59.
  assert (EL : forall x l1 n l2, x <> HAge n -> (In x (l1 ++ HAge n :: l2) <-> In x (l1 ++ l2))).
  { intros x l1 n l2 D. rewrite !in_app_iff. cbn [In]. split; [intros [X|[X|X]]; auto; congruence|tauto]. }
  split.
  - destruct (hsts_read (split 59 v) (None, false, false)) as [[[age sub] pre]| |] eqn:R; cbn [bind]; try discriminate.
    apply hsts_read_iff in R as (items & F & A & B & C). destruct age as [a|]; cbn [bind]; intros X; inv X. symmetry in A.
    apply last_age_some in A as [(l1 & n & l2 & -> & N & ->)|[_ X]]; [|discriminate X]. exists l1, n, l2. cbn [max_age include_subdomains preload].
    split; [apply spells_split; now apply forall2_map_l|]. split; [exact N|]. split; [reflexivity|]. rewrite B, C, !EL by discriminate. split; (split; [intros [X|X]; [discriminate X|exact X]|auto]).
  - intros (l1 & n & l2 & F & N & A & B & C). apply spells_split in F.
    assert (R : hsts_read (split 59 v) (None, false, false) = Ok (Some (from_secs n), include_subdomains s, preload s)).
    { apply hsts_read_iff. exists (l1 ++ HAge n :: l2). split; [now apply forall2_map_l|]. split.
      - symmetry. apply last_age_some. left. exists l1, n, l2. auto.
      - rewrite B, C, !EL by discriminate. split; (split; [auto|intros [X|X]; [discriminate X|exact X]]). }
    rewrite R. cbn [bind]. rewrite <- A. destruct s; reflexivity.
Qed.
Print Assumptions C94_hsts.
Example C94_hsts_example : hsts_from_headers [(lit "strict-transport-security", [lit " max-age=5 ;;max-age=+7; preload;max-age"])] = Ok (Some (Hsts (from_secs 7) false true)) /\
  hsts_from_headers [(lit "strict-transport-security", [lit "max-age=5;max-age=x"])] = Err 400 /\ hsts_from_headers [(lit "strict-transport-security", [lit "preload"])] = Err 400.
Proof. vm_compute. auto. Qed.

(** ** Age *)
(** A decimal number of 64 bits, not among the 1024 largest (those panic); rounded to 53 significant bits. *)
Theorem C94_age : forall h vs v d, h_get h (lit "age") = Some (vs ++ [v]) ->
  (age_from_headers h = Ok (Some d) <-> exists n, dec_text v n /\ n < 2 ^ 64 - 1024 /\ d = from_secs (f64_of_u64 n)) /\
  (age_from_headers h = Panic <-> exists n, dec_text v n /\ 2 ^ 64 - 1024 <= n < 2 ^ 64) /\
  (age_from_headers h = Err 400 <-> forall n, dec_text v n -> 2 ^ 64 <= n).
Proof.
  intros h vs v d H. unfold age_from_headers. erewrite with_last_snoc by exact H.
  assert (U : forall n m, dec_text v n -> dec_text v m -> n = m).
  { intros n m A B. assert (X := proj2 (parse_dec_spec (N.max n m) v n) (conj A (N.le_max_l n m))). assert (Y := proj2 (parse_dec_spec (N.max n m) v m) (conj B (N.le_max_r n m))). congruence. }
  assert (M : u64_max + 1 = 2 ^ 64) by reflexivity.
  assert (S := parse_dec_spec u64_max v). destruct (parse_uint 10 u64_max v) as [n|]; cbn [ok_or bind].
  - destruct (proj1 (S n) eq_refl) as [D L]. assert (O := f64_overflow n L). unfold from_secs_f64. destruct (f64_of_u64 n <? 2 ^ 64) eqn:E; cbn [bind].
    + assert (NL : n < 2 ^ 64 - 1024) by (apply N.ltb_lt in E; destruct (N.lt_ge_cases n (2 ^ 64 - 1024)) as [|G]; [assumption|apply O in G; lia]).
      split; [|split].
      * split; [intros X; inv X; exists n; auto|]. intros (m & D' & _ & ->). now rewrite (U m n D' D).
      * split; [discriminate|]. intros (m & D' & G & _). rewrite (U m n D' D) in G. lia.
      * split; [discriminate|]. intros X. specialize (X n D). lia.
    + assert (NG : 2 ^ 64 - 1024 <= n) by (apply O; apply N.ltb_ge in E; exact E).
      split; [|split].
      * split; [discriminate|]. intros (m & D' & G & _). rewrite (U m n D' D) in G. lia.
      * split; [intros _; exists n; split; [exact D|lia]|reflexivity].
      * split; [discriminate|]. intros X. specialize (X n D). lia.
  - assert (Z : forall n, dec_text v n -> 2 ^ 64 <= n).
    { intros n D. destruct (N.lt_ge_cases n (2 ^ 64)) as [L|]; [|assumption]. assert (L' : n <= u64_max) by lia. assert (X := proj2 (S n) (conj D L')). discriminate X. }
    split; [|split].
    + split; [discriminate|]. intros (n & D & L & _). apply Z in D. lia.
    + split; [discriminate|]. intros (n & D & L). apply Z in D. lia.
    + split; [intros _; exact Z|reflexivity].
Qed.
Print Assumptions C94_age.
Example C94_age_example : age_from_headers [(lit "age", [lit "x"; lit "+0012"])] = Ok (Some (from_secs 12)) /\ age_from_headers [(lit "age", [lit " 12"])] = Err 400 /\
  age_from_headers [(lit "age", [lit "18446744073709550592"])] = Panic /\ age_from_headers [(lit "age", [lit "18446744073709550591"])] = Ok (Some (from_secs 18446744073709549568)).
Proof. vm_compute. auto. Qed.
