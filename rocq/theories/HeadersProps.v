(** Properties C13-C18: the header map. *)
From Verif Require Import Base BaseFacts Headers HeadersFacts.
From Coq Require Import ZifyBool ZifyNat ZifyN.

(** ** Specification: a multimap is a function from names to value lists. *)
Definition multimap := str -> option (list str).
Definition mm_empty : multimap := fun _ => None.
Definition mm_set (m : multimap) (k : str) (v : option (list str)) : multimap :=
  fun k' => if str_eq_dec k' k then v else m k'.
(** The values an argument stands for: text must be ASCII. *)
Definition arg_values (t : to_values) : option (list str) :=
  match t with
  | TvText s => if is_ascii s then Some [s] else None
  | TvValues vs => Some vs
  end.
(** One operation on the multimap and what the caller sees.  Names are folded to lower case; a name
    that is not ASCII panics. *)
Definition mm_step (m : multimap) (o : op) : multimap * outcome (option (list str)) :=
  let s := match o with OpInsert s _ | OpAppend s _ | OpRemove s | OpGet s | OpEdit s _ => s end in
  let k := to_lower s in
  if negb (is_ascii s) then (m, Panic) else
  match o with
  | OpInsert _ t => match arg_values t with
                    | Some vs => (mm_set m k (Some vs), Ok (m k))
                    | None => (m, Err 500)
                    end
  | OpAppend _ t => match arg_values t with
                    | Some vs => (mm_set m k (Some (match m k with Some old => old ++ vs | None => vs end)), Ok None)
                    | None => (m, Err 500)
                    end
  | OpRemove _ => (mm_set m k None, Ok (m k))
  | OpGet _ => (m, Ok (m k))
  | OpEdit _ f => (mm_set m k (option_map f (m k)), Ok (m k))
  end.
Fixpoint mm_run (m : multimap) (ops : list op) : multimap * list (outcome (option (list str))) :=
  match ops with
  | [] => (m, [])
  | o :: ops' => let '(m', r) := mm_step m o in let '(m'', rs) := mm_run m' ops' in (m'', r :: rs)
  end.

Lemma conv_values : forall t, to_header_values t = match arg_values t with Some vs => Ok vs | None => Err 500 end.
Proof. intros [s|vs]; cbn; [unfold value_from_str; destruct (is_ascii s)|]; reflexivity. Qed.

Definition refines (h : headers) (m : multimap) : Prop := NoDup (map fst h) /\ forall k, hm_get h k = m k.

Lemma mm_set_get : forall h m k v, refines h m -> forall k', hm_get (hm_insert h k v) k' = mm_set m k (Some v) k'.
Proof.
  intros h m k v [_ R] k'. unfold mm_set. destruct (str_eq_dec k' k) as [->|N].
  - apply hm_get_insert_same.
  - rewrite hm_get_insert_other by exact N. apply R.
Qed.

Lemma step_refines : forall h m o, refines h m ->
  refines (fst (step h o)) (fst (mm_step m o)) /\ snd (step h o) = snd (mm_step m o).
Proof.
  intros h m o R. assert (R' := R). destruct R' as [D E].
  enough (A : (forall k, hm_get (fst (step h o)) k = fst (mm_step m o) k) /\ snd (step h o) = snd (mm_step m o))
    by (destruct A as [A1 A2]; split; [split; [apply step_nodup, D|exact A1]|exact A2]).
  destruct o as [s t|s t|s|s|s f]; unfold step, mm_step; cbv beta iota zeta;
    (destruct (name_into_cases s) as [[-> ->]|[-> ->]]; cbn [negb]; [|split; [exact E|reflexivity]]).
  - unfold h_insert. rewrite conv_values. destruct (arg_values t) as [vs|]; cbn [fst snd].
    + split; [apply mm_set_get, R|]. rewrite E. reflexivity.
    + split; [exact E|reflexivity].
  - unfold h_append, h_insert, values_append. rewrite conv_values, <- E.
    destruct (hm_get h (to_lower s)) as [old|] eqn:G; destruct (arg_values t) as [vs|]; cbn [fst snd bind];
      (split; [|reflexivity]); first [apply mm_set_get, R | exact E].
  - unfold h_remove. cbn [fst snd]. rewrite E. split; [|reflexivity]. intros k. unfold mm_set.
    destruct (str_eq_dec k (to_lower s)) as [->|N]; [apply hm_get_remove_same, D|].
    rewrite hm_get_remove_other by exact N. apply E.
  - cbn [fst snd]. unfold h_get. rewrite E. split; [exact E|reflexivity].
  - cbn [fst snd]. unfold h_edit, h_get. rewrite E. split; [|reflexivity]. intros k.
    destruct (m (to_lower s)) as [old|] eqn:G; cbn [option_map]; [apply mm_set_get, R|].
    rewrite E. unfold mm_set. destruct (str_eq_dec k (to_lower s)) as [->|N]; [exact G|reflexivity].
Qed.

Lemma run_refines : forall ops h m, refines h m ->
  refines (fst (run h ops)) (fst (mm_run m ops)) /\ snd (run h ops) = snd (mm_run m ops).
Proof.
  induction ops as [|o ops IH]; intros h m R; cbn [run mm_run]; [auto|].
  destruct (step_refines h m o R) as [A B]. destruct (step h o) as [h' r], (mm_step m o) as [m' r'].
  cbn [fst snd] in A, B. destruct (IH h' m' A) as [C D].
  destruct (run h' ops), (mm_run m' ops). cbn [fst snd] in *. subst. auto.
Qed.

(** C13: every history of calls, from the empty map, gives the outputs of the multimap and ends in
    a map that holds what the multimap holds.  [OpEdit] is any in-place edit through [get_mut]. *)
Theorem C13_headers_refine_multimap : forall ops,
  snd (run headers_new ops) = snd (mm_run mm_empty ops) /\
  forall name, h_get (fst (run headers_new ops)) name = fst (mm_run mm_empty ops) name.
Proof.
  intros ops. destruct (run_refines ops headers_new mm_empty) as [[_ A] B].
  - split; [constructor|reflexivity].
  - auto.
Qed.
Print Assumptions C13_headers_refine_multimap.
Example C13_example :
  snd (run headers_new [OpInsert (lit "X-A") (TvText (lit "1")); OpAppend (lit "x-a") (TvText (lit "2"));
    OpEdit (lit "X-a") (fun vs => values_set vs 0 (lit "9")); OpGet (lit "x-A"); OpRemove (lit "X-A"); OpGet (lit "x-a")])
  = [Ok None; Ok None; Ok (Some [lit "1"; lit "2"]); Ok (Some [lit "9"; lit "2"]);
     Ok (Some [lit "9"; lit "2"]); Ok None].
Proof. vm_compute. reflexivity. Qed.

(** C13: a name may be spelled in any case, at any call of any history. *)
Definition rename (s' : str) (o : op) : op :=
  match o with
  | OpInsert _ t => OpInsert s' t | OpAppend _ t => OpAppend s' t | OpRemove _ => OpRemove s'
  | OpGet _ => OpGet s' | OpEdit _ f => OpEdit s' f
  end.
Definition op_name (o : op) : str :=
  match o with OpInsert s _ | OpAppend s _ | OpRemove s | OpGet s | OpEdit s _ => s end.
Theorem C13_names_ignore_case : forall h o s', to_lower s' = to_lower (op_name o) ->
  step h (rename s' o) = step h o.
Proof.
  intros h o s' H. assert (A : name_into s' = name_into (op_name o)).
  { unfold name_into, name_from_str. rewrite <- (is_ascii_to_lower s'), H, is_ascii_to_lower. reflexivity. }
  destruct o; cbn [rename op_name step] in *; rewrite A; reflexivity.
Qed.
Print Assumptions C13_names_ignore_case.
Example C13_case_example : to_lower (lit "HOST") = to_lower (op_name (OpGet (lit "Host"))) /\ lit "HOST" <> lit "Host".
Proof. split; [reflexivity|]. vm_compute. discriminate. Qed.

(** C14: an insert or append that does not succeed leaves the map exactly as it was; and it does not
    succeed exactly when name or text is not ASCII. *)
Theorem C14_failed_operation_changes_nothing : forall h o,
  (forall r, snd (step h o) <> Ok r) -> fst (step h o) = h.
Proof.
  intros h o H. destruct o as [s t|s t|s|s|s f]; cbn [step] in *;
    (destruct (name_into_cases s) as [[_ E]|[_ E]]; rewrite E in *; [|reflexivity]).
  - unfold h_insert in *. destruct (to_header_values t); cbn [fst snd] in *; try reflexivity. destruct (H _ eq_refl).
  - unfold h_append, h_insert in *.
    destruct (hm_get h (to_lower s)); destruct (to_header_values t); cbn [fst snd bind] in *; try reflexivity; destruct (H _ eq_refl).
  - destruct (H _ eq_refl).
  - reflexivity.
  - destruct (H _ eq_refl).
Qed.
Theorem C14_fails_iff_not_ascii : forall h s t,
  ((exists r, snd (step h (OpInsert s t)) = Ok r) <-> is_ascii s = true /\ arg_values t <> None) /\
  ((exists r, snd (step h (OpAppend s t)) = Ok r) <-> is_ascii s = true /\ arg_values t <> None).
Proof.
  intros h s t. cbn [step]. destruct (name_into_cases s) as [[-> ->]|[-> ->]]; cbn [snd].
  2:{ split; (split; [intros [r H]; discriminate H|intros [H _]; discriminate H]). }
  unfold h_append, h_insert. rewrite conv_values.
  destruct (arg_values t), (hm_get h (to_lower s)); cbn [snd bind];
    (split; (split; [intros [r H]; first [discriminate H | split; [reflexivity|discriminate]]
                    |intros [_ H]; first [destruct (H eq_refl) | eexists; reflexivity]])).
Qed.
Print Assumptions C14_failed_operation_changes_nothing.
Print Assumptions C14_fails_iff_not_ascii.
Example C14_example : step [(lit "a", [lit "1"])] (OpAppend (lit "A") (TvText [233])) = ([(lit "a", [lit "1"])], Err 500).
Proof. vm_compute. reflexivity. Qed.

(** C15: [clean h]: every stored name is lower-case ASCII, every stored value is ASCII.
    Arguments built by the checked constructors hold ASCII values; an in-place edit through [get_mut]
    can only store such values, so it maps ASCII values to ASCII values. *)
Definition ascii_values (vs : list str) : Prop := forall v, In v vs -> is_ascii v = true.
Definition clean (h : headers) : Prop :=
  forall n vs, In (n, vs) h -> is_ascii n = true /\ to_lower n = n /\ ascii_values vs.
Definition checked_op (o : op) : Prop :=
  match o with
  | OpInsert _ (TvValues vs) | OpAppend _ (TvValues vs) => ascii_values vs
  | OpEdit _ f => forall vs, ascii_values vs -> ascii_values (f vs)
  | _ => True
  end.

Lemma checked_conv : forall t vs,
  match t with TvValues ws => ascii_values ws | _ => True end -> to_header_values t = Ok vs -> ascii_values vs.
Proof.
  intros t vs C. rewrite conv_values. destruct t as [s|ws]; cbn [arg_values].
  - destruct (is_ascii s) eqn:E; intros H; inv H. intros v [<-|[]]. exact E.
  - intros H; inv H. exact C.
Qed.
Lemma clean_insert : forall h s vs, clean h -> is_ascii s = true -> ascii_values vs ->
  clean (hm_insert h (to_lower s) vs).
Proof.
  intros h s vs C A B n ws H. apply hm_insert_in in H. destruct H as [H|H]; [|apply C, H].
  inv H. rewrite is_ascii_to_lower, to_lower_idem. auto.
Qed.
Lemma ascii_values_app : forall a b, ascii_values a -> ascii_values b -> ascii_values (a ++ b).
Proof. intros a b A B v H. apply in_app_or in H. destruct H; auto. Qed.

Lemma step_clean : forall h o, clean h -> checked_op o -> clean (fst (step h o)).
Proof.
  intros h o C K. destruct o as [s t|s t|s|s|s f]; cbn [step checked_op] in *;
    (destruct (name_into_cases s) as [[A ->]|[_ ->]]; [|exact C]).
  - unfold h_insert. destruct (to_header_values t) eqn:E; cbn [fst]; try exact C.
    apply clean_insert; [assumption..|]. eapply checked_conv; [|exact E]. exact K.
  - unfold h_append, h_insert.
    assert (B : forall vs, to_header_values t = Ok vs -> ascii_values vs) by (intros vs; apply checked_conv; exact K).
    destruct (hm_get h (to_lower s)) as [old|] eqn:G; destruct (to_header_values t); cbn [fst]; try exact C.
    + apply clean_insert; [assumption..|]. unfold values_append. cbn [fst]. apply ascii_values_app; [|auto].
      apply hm_get_in in G. apply C in G. tauto.
    + apply clean_insert; auto.
  - cbn [h_remove fst]. intros n vs H. apply hm_remove_incl in H. apply C, H.
  - exact C.
  - cbn [fst]. unfold h_edit. destruct (hm_get h (to_lower s)) as [old|] eqn:G; [|exact C].
    apply clean_insert; [assumption..|]. apply K. apply hm_get_in in G. apply C in G. tauto.
Qed.

Theorem C15_names_lower_values_ascii : forall ops,
  (forall o, In o ops -> checked_op o) -> clean (fst (run headers_new ops)).
Proof.
  intros ops. assert (C : clean headers_new) by (intros n vs []). revert C.
  generalize headers_new. induction ops as [|o ops IH]; intros h C K; cbn [run]; [exact C|].
  assert (A : clean (fst (step h o))) by (apply step_clean; [exact C|apply K; left; reflexivity]).
  destruct (step h o) as [h' r]. cbn [fst] in A.
  assert (B : clean (fst (run h' ops))) by (apply IH; [exact A|intros o' H; apply K; right; exact H]).
  destruct (run h' ops). exact B.
Qed.
(** The checked constructors really check: what they return is ASCII (and lower case for names). *)
Theorem C15_checked_constructors : forall s n,
  (name_from_str s = Ok n -> is_ascii n = true /\ to_lower n = n) /\
  (name_from_bytes s = Ok n -> is_ascii n = true /\ to_lower n = n) /\
  (value_from_str s = Ok n -> is_ascii n = true) /\ (value_from_bytes s = Ok n -> is_ascii n = true).
Proof.
  intros s n. unfold name_from_str, name_from_bytes, value_from_str, value_from_bytes.
  destruct (is_ascii s) eqn:E; repeat apply conj; intros H; inv H; rewrite ?is_ascii_to_lower, ?to_lower_idem; auto.
Qed.
(** The header-name constants of the crate, which bypass the check, are lower-case ASCII too. *)
Theorem C15_constants_are_lower_case : forall n, In n header_constants -> is_ascii n = true /\ to_lower n = n.
Proof.
  intros n H. assert (A : forallb (fun n => is_ascii n && seqb (to_lower n) n) header_constants = true) by (vm_compute; reflexivity).
  rewrite forallb_forall in A. apply A in H. apply andb_prop in H. destruct H as [H1 H2]. apply seqb_eq in H2. auto.
Qed.
Print Assumptions C15_names_lower_values_ascii.
Print Assumptions C15_checked_constructors.
Print Assumptions C15_constants_are_lower_case.
Example C15_example : (forall o, In o [OpInsert (lit "AB") (TvText (lit "x")); OpEdit (lit "ab") (fun vs => values_set vs 0 (lit "y"))] -> checked_op o)
  /\ fst (run headers_new [OpInsert (lit "AB") (TvText (lit "x"))]) = [(lit "ab", [lit "x"])].
Proof.
  split; [|vm_compute; reflexivity]. intros o [<-|[<-|[]]]; cbn [checked_op]; [exact I|].
  intros vs H v A. destruct vs as [|w vs]; [destruct A|]. cbn [values_set] in A.
  destruct A as [<-|A]; [reflexivity|]. apply H. right. exact A.
Qed.

(** C16 is false of the code: inserting an empty list of values, or moving the values out with
    [HeaderValues::append], leaves a present header without values, and [last] panics on it. *)
Theorem C16_present_header_nonempty_refuted :
  (exists ops vs, h_get (fst (run headers_new ops)) (lit "a") = Some vs /\ values_last vs = Panic /\ values_first vs = Panic) /\
  (exists ops vs, ~ In (OpInsert (lit "a") (TvValues [])) ops /\
     h_get (fst (run headers_new ops)) (lit "a") = Some vs /\ values_last vs = Panic).
Proof.
  split.
  - exists [OpInsert (lit "A") (TvValues [])], []. vm_compute. auto.
  - exists [OpInsert (lit "A") (TvText (lit "1")); OpEdit (lit "a") (fun vs => snd (values_append [] vs))], [].
    repeat split. intros [H|[H|[]]]; inv H.
Qed.
Print Assumptions C16_present_header_nonempty_refuted.

(** C16, the part that holds: histories that never pass an empty list and whose edits do not empty a
    list.  Missing: the two escapes refuted above. *)
Definition nonempty_op (o : op) : Prop :=
  match o with
  | OpInsert _ (TvValues vs) | OpAppend _ (TvValues vs) => vs <> []
  | OpEdit _ f => forall vs, vs <> [] -> f vs <> []
  | _ => True
  end.
Lemma conv_nonempty : forall t vs, match t with TvValues ws => ws <> [] | _ => True end ->
  to_header_values t = Ok vs -> vs <> [].
Proof.
  intros t vs C. rewrite conv_values. destruct t as [s|ws]; cbn [arg_values].
  - destruct (is_ascii s) eqn:E; intros H; inv H. discriminate.
  - intros H; inv H. exact C.
Qed.
Lemma step_nonempty : forall (h : headers) o, (forall n (vs : header_values), In (n, vs) h -> vs <> []) -> nonempty_op o ->
  forall n (vs : header_values), In (n, vs) (fst (step h o)) -> vs <> [].
Proof.
  intros h o C K. destruct o as [s t|s t|s|s|s f]; cbn [step nonempty_op] in *;
    (destruct (name_into_cases s) as [[A ->]|[_ ->]]; [|exact C]).
  - unfold h_insert. destruct (to_header_values t) eqn:E; cbn [fst]; try exact C.
    intros n vs H. apply hm_insert_in in H. destruct H as [H|H]; [inv H|eauto]. eapply conv_nonempty; [|exact E]. exact K.
  - unfold h_append, h_insert, values_append.
    assert (B : forall vs, to_header_values t = Ok vs -> vs <> []) by (intros vs; apply conv_nonempty; exact K).
    intros n vs. destruct (to_header_values t) as [new| |].
    2,3: match goal with |- context [hm_get ?a ?b] => destruct (hm_get a b) end; cbn [fst]; apply C.
    match goal with |- context [match hm_get ?a ?b with _ => _ end] => destruct (hm_get a b) as [old|] eqn:G end; cbn [fst];
      intros H; (apply hm_insert_in in H; destruct H as [H|H]; [inv H|eauto]).
    + intros F. apply app_eq_nil in F. destruct F as [_ F]. exact (B _ eq_refl F).
    + apply B. reflexivity.
  - cbn [h_remove fst]. intros n vs H. apply hm_remove_incl in H. eauto.
  - exact C.
  - cbn [fst]. unfold h_edit. destruct (hm_get h (to_lower s)) as [old|] eqn:G; [|exact C].
    intros n vs H. apply hm_insert_in in H. destruct H as [H|H]; [inv H|eauto].
    apply K. apply hm_get_in in G. eauto.
Qed.
Theorem C16_present_header_nonempty_partial : forall ops name vs,
  (forall o, In o ops -> nonempty_op o) -> h_get (fst (run headers_new ops)) name = Some vs ->
  exists first last, values_first vs = Ok first /\ values_last vs = Ok last /\ In first vs /\ In last vs
    /\ value_from_values vs = Ok first.
Proof.
  intros ops name vs K G. assert (N : vs <> []).
  { apply hm_get_in in G. revert vs G. assert (C : forall n (vs : header_values), In (n, vs) headers_new -> vs <> []) by (intros n vs []).
    revert C K. generalize headers_new. induction ops as [|o ops IH]; intros h C K; cbn [run]; [apply C|].
    assert (A : forall n (vs : header_values), In (n, vs) (fst (step h o)) -> vs <> []) by (apply step_nonempty; [exact C|apply K; left; reflexivity]).
    destruct (step h o) as [h' r]. cbn [fst] in A.
    assert (B := IH h' A (fun o' H => K o' (or_intror H))). destruct (run h' ops). apply B. }
  destruct vs as [|v vs]; [destruct (N eq_refl)|].
  unfold values_first, values_last, value_from_values. rewrite rev_involutive.
  destruct (rev (v :: vs)) as [|l r] eqn:E.
  - apply (f_equal (@length str)) in E. rewrite rev_length in E. discriminate E.
  - exists v, l. repeat split; [left; reflexivity|]. apply in_rev. rewrite E. left. reflexivity.
Qed.
Print Assumptions C16_present_header_nonempty_partial.
Example C16_example :
  (forall o, In o [OpInsert (lit "A") (TvText (lit "1")); OpAppend (lit "a") (TvValues [lit "2"; lit "3"])] -> nonempty_op o) /\
  h_get (fst (run headers_new [OpInsert (lit "A") (TvText (lit "1")); OpAppend (lit "a") (TvValues [lit "2"; lit "3"])])) (lit "a")
    = Some [lit "1"; lit "2"; lit "3"].
Proof. split; [|vm_compute; reflexivity]. intros o [<-|[<-|[]]]; cbn; [exact I|discriminate]. Qed.

(** C16, exactly: after any history a name is present without values exactly when some call left it so (an empty list was
    inserted, or appended to an absent name, or the values were edited away) and every later call left it alone: it was for another
    name, refused, a lookup, an appending of nothing or an edit that keeps an empty list empty. *)
Definition empties (name : str) (before : option header_values) (o : op) : Prop :=
  is_ascii (op_name o) = true /\ to_lower (op_name o) = name /\
  match o with
  | OpInsert _ t => t = TvValues []
  | OpAppend _ t => before = None /\ t = TvValues []
  | OpEdit _ f => exists vs, before = Some vs /\ f vs = []
  | _ => False
  end.
Definition leaves_empty (name : str) (o : op) : Prop :=
  is_ascii (op_name o) = false \/ to_lower (op_name o) <> name \/
  match o with
  | OpInsert _ t | OpAppend _ t => t = TvValues [] \/ exists s, t = TvText s /\ is_ascii s = false
  | OpRemove _ => False
  | OpGet _ => True
  | OpEdit _ f => f [] = []
  end.
Lemma mm_run_app : forall a b m, fst (mm_run m (a ++ b)) = fst (mm_run (fst (mm_run m a)) b).
Proof.
  induction a as [|o a IH]; intros b m; [reflexivity|]. cbn [app mm_run].
  destruct (mm_step m o) as [m' r]. specialize (IH b m'). destruct (mm_run m' (a ++ b)), (mm_run m' a) as [m'' rs]. exact IH.
Qed.
Lemma arg_values_empty : forall t, arg_values t = Some [] <-> t = TvValues [].
Proof.
  intros [s|vs]; cbn; split; intros H.
  - destruct (is_ascii s); discriminate.
  - discriminate.
  - injection H as ->. reflexivity.
  - injection H as ->. reflexivity.
Qed.
Lemma arg_values_none : forall t, arg_values t = None <-> exists s, t = TvText s /\ is_ascii s = false.
Proof.
  intros [s|vs]; cbn; split; intros H.
  - exists s. split; [reflexivity|]. destruct (is_ascii s); [discriminate|reflexivity].
  - destruct H as (s' & E & A). injection E as ->. rewrite A. reflexivity.
  - discriminate.
  - destruct H as (s' & E & _). discriminate.
Qed.
Lemma step_empty : forall m o name,
  fst (mm_step m o) name = Some [] <-> empties name (m name) o \/ (m name = Some [] /\ leaves_empty name o).
Proof.
  intros m o name. unfold empties, leaves_empty.
  assert (Q : mm_step m o = if negb (is_ascii (op_name o)) then (m, Panic) else mm_step m o)
    by (destruct o; unfold mm_step, op_name; cbn; match goal with |- context [is_ascii ?s] => destruct (is_ascii s) end; reflexivity).
  destruct (is_ascii (op_name o)) eqn:A; cbn [negb] in Q.
  2:{ rewrite Q. cbn [fst]. split; [intros H; right; auto|intros [[H _]|[H _]]; [discriminate|exact H]]. }
  clear Q. destruct (str_eq_dec name (to_lower (op_name o))) as [E|N].
  2:{ assert (Q : fst (mm_step m o) name = m name).
      { destruct o; cbn [op_name] in *; unfold mm_step; rewrite A; cbn [negb];
          try match goal with |- context [arg_values ?t] => destruct (arg_values t) end; cbn [fst]; try reflexivity;
          unfold mm_set; match goal with |- context [str_eq_dec ?a ?b] => destruct (str_eq_dec a b) end; congruence. }
      rewrite Q. split; [intros H; right; split; [exact H|]; right; left; congruence|].
      intros [(_ & H & _)|[H _]]; [destruct N; symmetry; exact H|exact H]. }
  assert (S : forall v, mm_set m name v name = v) by (intros v; unfold mm_set; destruct (str_eq_dec name name); congruence).
  destruct o as [s t|s t|s|s|s f]; cbn [op_name] in *; unfold mm_step; rewrite A, <- E; cbn [negb].
  - destruct (arg_values t) as [vs|] eqn:V; cbn [fst].
    + rewrite S. split.
      * intros H. injection H as ->. apply arg_values_empty in V. left. auto.
      * intros [(_ & _ & ->)|[_ [H|[H|[->|(x & -> & H)]]]]]; cbn in V; try congruence. rewrite H in V. discriminate.
    + apply arg_values_none in V. split; [intros H; right; split; [exact H|right; right; right; exact V]|].
      intros [(_ & _ & ->)|[H _]]; [destruct V as (x & V & _); discriminate|exact H].
  - destruct (arg_values t) as [vs|] eqn:V; cbn [fst].
    + rewrite S. destruct (m name) as [old|].
      * split.
        -- intros H. injection H as H. apply app_eq_nil in H. destruct H as [-> ->]. apply arg_values_empty in V. right. auto.
        -- intros [(_ & _ & H & _)|[H [K|[K|[->|(x & -> & K)]]]]]; try congruence; cbn in V; [|rewrite K in V; discriminate].
           injection H as ->. injection V as <-. reflexivity.
      * split.
        -- intros H. injection H as ->. apply arg_values_empty in V. left. auto.
        -- intros [(_ & _ & _ & ->)|[H _]]; [cbn in V; congruence|discriminate].
    + apply arg_values_none in V. split; [intros H; right; split; [exact H|right; right; right; exact V]|].
      intros [(_ & _ & _ & ->)|[H _]]; [destruct V as (x & V & _); discriminate|exact H].
  - cbn [fst]. rewrite S. split; [discriminate|]. intros [(_ & _ & [])|[_ [H|[H|[]]]]]; congruence.
  - cbn [fst]. split; [intros H; right; auto|]. intros [(_ & _ & [])|[H _]]. exact H.
  - cbn [fst]. rewrite S. destruct (m name) as [old|]; cbn [option_map].
    + split.
      * intros H. injection H as H. left. eauto.
      * intros [(_ & _ & vs & K & H)|[H [K|[K|K]]]]; [|congruence|congruence|].
        -- injection K as <-. f_equal. exact H.
        -- injection H as ->. f_equal. exact K.
    + split; [discriminate|]. intros [(_ & _ & vs & K & H)|[H _]]; discriminate.
Qed.
Theorem C16_empty_iff : forall ops name,
  h_get (fst (run headers_new ops)) name = Some [] <->
  exists before o after, ops = before ++ o :: after /\
    empties name (h_get (fst (run headers_new before)) name) o /\ Forall (leaves_empty name) after.
Proof.
  intros ops name.
  assert (G : forall l, h_get (fst (run headers_new l)) name = fst (mm_run mm_empty l) name) by (intros l; apply C13_headers_refine_multimap).
  assert (T : forall l o, fst (mm_run mm_empty (l ++ [o])) = fst (mm_step (fst (mm_run mm_empty l)) o)).
  { intros l o. rewrite mm_run_app. cbn [mm_run]. destruct (mm_step _ o). reflexivity. }
  rewrite G. induction ops as [|o ops IH] using rev_ind.
  { split; [discriminate|]. intros (b & o & a & H & _). destruct b; discriminate. }
  rewrite T, step_empty. split.
  - intros [H|[H L]].
    + exists ops, o, []. split; [reflexivity|]. rewrite G. split; [exact H|constructor].
    + apply IH in H. destruct H as (b & e & a & -> & H & K). exists b, e, (a ++ [o]).
      split; [rewrite <- app_assoc; reflexivity|]. split; [exact H|]. apply Forall_app. auto.
  - intros (b & e & a & E & H & K). destruct a as [|x a] using rev_ind.
    + apply app_inj_tail in E. destruct E as [-> ->]. left. rewrite <- G. exact H.
    + clear IHa. rewrite app_comm_cons, app_assoc in E. apply app_inj_tail in E. destruct E as [-> ->].
      apply Forall_app in K. destruct K as [K1 K2]. right. split; [|inv K2; assumption].
      apply IH. exists b, e, a. auto.
Qed.
Print Assumptions C16_empty_iff.
Example C16_empty_iff_example :
  let ops := [OpInsert (lit "A") (TvText (lit "1")); OpEdit (lit "a") (fun _ => []); OpInsert (lit "b") (TvText (lit "2")); OpGet (lit "a")] in
  h_get (fst (run headers_new ops)) (lit "a") = Some [] /\
  empties (lit "a") (h_get (fst (run headers_new (firstn 1 ops))) (lit "a")) (OpEdit (lit "a") (fun _ => [])) /\
  Forall (leaves_empty (lit "a")) (skipn 2 ops) /\
  h_get (fst (run headers_new (ops ++ [OpAppend (lit "A") (TvText (lit "3"))]))) (lit "a") = Some [lit "3"].
Proof.
  cbv zeta. split; [vm_compute; reflexivity|]. split; [|split; [|vm_compute; reflexivity]].
  - split; [reflexivity|]. split; [reflexivity|]. exists [lit "1"]. split; vm_compute; reflexivity.
  - cbn [skipn]. apply Forall_cons; [right; left; vm_compute; discriminate|]. apply Forall_cons; [right; right; exact I|constructor].
Qed.

(** C17: whatever order hashing produces, iterating [values()] ends, and yields every stored value
    exactly once (as a multiset); iterating one header's values yields them in order. *)
Theorem C17_values_visits_each_once : forall h order, Permutation h order ->
  exists l, (forall fuel, (length (concat (map snd h)) < fuel)%nat -> collect fuel (headers_values order) = Some l)
            /\ Permutation l (concat (map snd h)).
Proof.
  intros h order P. assert (Q : Permutation (concat (map snd h)) (concat (map snd order))).
  { rewrite <- !flat_map_concat_map. apply Permutation_flat_map, P. }
  exists (concat (map snd order)). split; [|apply Permutation_sym, Q].
  intros fuel H. rewrite collect_spec; [reflexivity|].
  unfold remaining, headers_values, iter_new. cbn [it_slot it_inner app].
  apply Permutation_length in Q. unfold header_values in *. lia.
Qed.
Theorem C17_header_values_in_order : forall vs fuel, (length vs < fuel)%nat ->
  collect fuel (iter_new_values vs) = Some vs.
Proof.
  intros vs fuel H. assert (E : remaining (iter_new_values vs) = vs).
  { unfold remaining, iter_new_values. cbn [it_slot it_inner it_cursor skipn]. apply app_nil_r. }
  rewrite collect_spec; rewrite E; auto.
Qed.
(** Names are visited once each: they are distinct after every history and in every order. *)
Theorem C17_names_distinct : forall ops order, Permutation (fst (run headers_new ops)) order ->
  NoDup (headers_names order) /\
  forall n, In n (headers_names order) <-> h_get (fst (run headers_new ops)) n <> None.
Proof.
  intros ops order P. destruct (run_refines ops headers_new mm_empty) as [[D _] _]; [split; [constructor|reflexivity]|].
  unfold headers_names, h_get. split.
  - eapply Permutation_NoDup; [apply Permutation_map, P|exact D].
  - intros n. rewrite hm_get_none. split; intros H.
    + intros A. apply A. eapply Permutation_in; [apply Permutation_sym, Permutation_map, P|exact H].
    + assert (X : In n (map fst (fst (run headers_new ops)))).
      { destruct (in_dec str_eq_dec n (map fst (fst (run headers_new ops)))); tauto. }
      eapply Permutation_in; [apply Permutation_map, P|exact X].
Qed.
(** The size_hint part is false: the upper bound can be too small and the lower bound too large. *)
Theorem C17_size_hint_refuted :
  (exists h l, collect 9 (headers_values h) = Some l /\ snd (size_hint (headers_values h)) = Some 1 /\ length l = 2%nat) /\
  (exists h l, collect 9 (headers_values h) = Some l /\ fst (size_hint (headers_values h)) = 1 /\ length l = 0%nat).
Proof.
  split; [exists [(lit "a", [lit "1"; lit "2"])]|exists [(lit "a", [])]]; eexists; vm_compute; repeat split.
Qed.
(** size_hint is exact at every point of the iteration when every header has one value.
    Missing: multi-valued headers (refuted). *)
Definition after (k : nat) (it : values_iter) : values_iter := Nat.iter k (fun it => snd (next it)) it.
Lemma singles_next : forall it l, it_inner it = Some l -> (forall vs, In vs l -> exists v, vs = [v]) ->
  (it_slot it = None \/ exists v, it_slot it = Some [v] /\ it_cursor it = 1%nat) ->
  let it' := snd (next it) in exists l', it_inner it' = Some l' /\ (forall vs, In vs l' -> exists v, vs = [v]) /\
  (it_slot it' = None \/ exists v, it_slot it' = Some [v] /\ it_cursor it' = 1%nat).
Proof.
  intros [i s c] l. cbn [it_inner it_slot it_cursor]. intros -> S H.
  assert (A : let it' := snd (next_entry l) in exists l', it_inner it' = Some l' /\ (forall vs, In vs l' -> exists v, vs = [v]) /\
    (it_slot it' = None \/ exists v, it_slot it' = Some [v] /\ it_cursor it' = 1%nat)).
  { destruct l as [|vs l]; cbn [next_entry].
    - exists []. cbn. repeat split; auto; intros vs [].
    - destruct (S vs (or_introl eq_refl)) as [v ->]. cbn. exists l.
      split; [reflexivity|split; [intros ws W; apply S; right; exact W|right; eexists; split; reflexivity]]. }
  destruct H as [->|(v & -> & ->)]; cbn [next it_slot it_inner it_cursor nth_error advance]; exact A.
Qed.
Theorem C17_size_hint_partial : forall h k, (forall n vs, In (n, vs) h -> exists v, vs = [v]) ->
  let it := after k (headers_values h) in
  exists l, (forall fuel, (length l < fuel)%nat -> collect fuel it = Some l) /\
  size_hint it = (N.of_nat (length l), Some (N.of_nat (length l))).
Proof.
  intros h k H it.
  assert (A : exists l, it_inner it = Some l /\ (forall vs, In vs l -> exists v, vs = [v]) /\
    (it_slot it = None \/ exists v, it_slot it = Some [v] /\ it_cursor it = 1%nat)).
  { subst it. induction k as [|k IH]; cbn [after Nat.iter nat_rect].
    - exists (map snd h). cbn. split; [reflexivity|split; [|auto]]. intros vs I. apply in_map_iff in I.
      destruct I as ((n & ws) & <- & I). eauto.
    - destruct IH as (l & I1 & I2 & I3). exact (singles_next _ l I1 I2 I3). }
  destruct A as (l & I1 & I2 & I3). exists (remaining it). split.
  - intros fuel F. apply collect_spec, F.
  - unfold size_hint. rewrite I1. assert (E : length (remaining it) = length l).
    { unfold remaining. rewrite I1. replace (match it_slot it with Some vs => skipn (it_cursor it) vs | None => [] end) with (@nil str)
        by (destruct I3 as [->|(v & -> & ->)]; reflexivity).
      cbn [app]. clear - I2. induction l as [|vs l IH]; cbn [concat length]; [reflexivity|].
      destruct (I2 vs (or_introl eq_refl)) as [v ->]. cbn [app length]. f_equal. apply IH. intros ws H; apply I2; right; exact H. }
    rewrite E. reflexivity.
Qed.
Print Assumptions C17_values_visits_each_once.
Print Assumptions C17_header_values_in_order.
Print Assumptions C17_names_distinct.
Print Assumptions C17_size_hint_refuted.
Print Assumptions C17_size_hint_partial.
Example C17_example : collect 4 (headers_values [(lit "b", [lit "3"]); (lit "e", []); (lit "a", [lit "1"; lit "2"])])
  = Some [lit "3"; lit "1"; lit "2"] /\ (forall n vs, In (n, vs) [(lit "b", [lit "3"])] -> exists v, vs = [v]).
Proof. split; [vm_compute; reflexivity|]. intros n vs [H|[]]. inv H. eauto. Qed.

(** C18: equality of a name (made from any text [t]) with a string. *)
Theorem C18_name_equality : forall t n s, name_from_str t = Ok n ->
  name_eq n s = true <-> is_ascii s = true /\ eq_ignore_case s t = true.
Proof.
  intros t n s H. unfold name_eq, name_from_str, eq_ignore_case in *. destruct (is_ascii t) eqn:A; inv H.
  destruct (is_ascii s); [|split; [discriminate|intros [B _]; discriminate B]].
  rewrite (seqb_sym (to_lower t)). tauto.
Qed.
Print Assumptions C18_name_equality.
Example C18_example : exists n, name_from_str (lit "Content-Type") = Ok n /\ name_eq n (lit "CONTENT-type") = true /\ name_eq n (lit "content-typ") = false.
Proof. eexists. vm_compute. auto. Qed.

(** Indexing with a text gives the stored values, and panics exactly when there are none: the name is absent, or the
    text is no header name because it is not ASCII. *)
Theorem C14_index : forall h s,
  (forall vs, h_index h s = Ok vs <-> is_ascii s = true /\ h_get h (to_lower s) = Some vs) /\
  (h_index h s = Panic <-> is_ascii s = false \/ h_get h (to_lower s) = None) /\ (forall e, h_index h s <> Err e).
Proof.
  intros h s. unfold h_index, h_get, name_from_str. destruct (is_ascii s); cbn [bind].
  - destruct (hm_get h (to_lower s)); cbn [unwrap]; (split; [|split]); try congruence; try (split; [intros H; injection H as ->; auto|intros [_ H]; congruence]);
      split; intros H; try discriminate H; auto; destruct H; discriminate.
  - (split; [|split]); try congruence; split; intros H; try discriminate H; auto. destruct H; discriminate.
Qed.
Print Assumptions C14_index.
Example C14_index_example : let h := [(lit "a", [lit "1"])] in h_index h (lit "A") = Ok [lit "1"] /\ h_index h (lit "b") = Panic /\ h_index h [233] = Panic.
Proof. vm_compute. auto. Qed.
