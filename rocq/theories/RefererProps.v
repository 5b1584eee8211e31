(** C73, continued: Referer and Content-Location and the rules of RFC 9110 for what they may hold. *)
From Verif Require Import Base BaseFacts Headers HeadersFacts TypedFacts Message Other OtherProps Query QueryProps.

(** RFC 9110, sections 8.7 and 10.1.3: [absolute-URI] or [partial-URI], which have no fragment; and a Referer must not tell the user name or
    password that stand before an [@] in the authority. *)
Fixpoint authority_of (s : str) : str :=
  match s with [] => [] | c :: s' => if existsb (N.eqb c) [47; 63; 35] then [] else c :: authority_of s' end.
Definition userinfo (text : str) : option str :=
  match split_once 58 text with
  | Some (_, a :: b :: s) => if (a =? 47) && (b =? 47) then option_map fst (split_once 64 (authority_of s)) else None
  | _ => None
  end.
Definition rule_of_referer (text : str) : Prop := ~ In 35 text /\ userinfo text = None.

(** Whoever reads the header learns the fragment of the URL, and all of the rest. *)
Theorem C73_told : forall url (parse : str -> option url) join (show : url -> str) r h b u, url_contract parse join show ->
  h_get (reference_apply show r h u) (reference_name r) = Some [show u] /\
  (In 35 (show u) <-> exists f, url_fragment (mkUrl (show u) None) = Some f) /\
  (forall f, url_fragment (mkUrl (show u) None) = Some f -> exists u', reference_from_headers parse join r b (reference_apply show r h u) = Ok (Some u') /\
     url_fragment (mkUrl (show u') None) = Some f).
Proof.
  intros url parse join show r h b u C. split; [apply get_apply|]. split.
  - unfold url_fragment, cut. cbn [url_text]. destruct (split_once 35 (show u)) as [[x f]|] eqn:E; cbn [snd].
    + apply split_once_some in E as [-> _]. split; [eauto|]. intros _. apply in_or_app. right. now left.
    + apply split_once_none in E. split; [|intros [f F]; discriminate F]. intros I. unfold no_char in E. rewrite forallb_forall in E. specialize (E 35 I). discriminate E.
  - intros f F. exists u. split; [|exact F]. now apply C73_reference_round_trip.
Qed.
Print Assumptions C73_told.
(** "What is written keeps the rules" is false: the URL is written as it is, with its fragment. *)
Theorem C73_rules_refuted : exists (url : Type) (p : str -> option url) (j : url -> str -> option url) (s : url -> str) (u : url),
  url_contract p j s /\ forall h, exists t, h_get (reference_apply s Referer h u) (lit "referer") = Some [t] /\ In 35 t /\ ~ rule_of_referer t.
Proof.
  exists str, toy_parse, (fun _ => toy_parse), toy_show, (lit "a#secret"). split; [exact toy_contract|]. intros h. eexists. split; [apply get_apply|].
  assert (I : In 35 (toy_show (lit "a#secret"))) by (vm_compute; auto 20). split; [exact I|]. intros [R _]. now apply R.
Qed.
Print Assumptions C73_rules_refuted.
Example C73_rules_example : userinfo (lit "https://me:pw@h/p@q?r#s") = Some (lit "me:pw") /\ userinfo (lit "https://h/p@q") = None /\ userinfo (lit "mailto:a@b") = None /\
  url_fragment (mkUrl (lit "https://me:pw@h/p@q?r#s") None) = Some (lit "s") /\ rule_of_referer (lit "https://h/p@q?r").
Proof. repeat apply conj; try (vm_compute; reflexivity). vm_compute. intuition discriminate. Qed.
