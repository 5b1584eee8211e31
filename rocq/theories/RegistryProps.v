(** C78: reason phrases against the IANA registry of HTTP status codes (RFC 7231 wording). *)
From Verif Require Import Base BaseFacts StatusCode.
From Coq Require Import ZifyBool ZifyNat ZifyN.

(** The registry: number and phrase, for the numbers the crate supports. *)
Definition registry : list (N * str) :=
  map (fun e => (fst e, lit (snd e)))
  [(100, "Continue"%string); (101, "Switching Protocols"%string); (103, "Early Hints"%string);
   (200, "OK"%string); (201, "Created"%string); (202, "Accepted"%string); (203, "Non-Authoritative Information"%string);
   (204, "No Content"%string); (205, "Reset Content"%string); (206, "Partial Content"%string); (207, "Multi-Status"%string);
   (226, "IM Used"%string);
   (300, "Multiple Choices"%string); (301, "Moved Permanently"%string); (302, "Found"%string); (303, "See Other"%string);
   (304, "Not Modified"%string); (307, "Temporary Redirect"%string); (308, "Permanent Redirect"%string);
   (400, "Bad Request"%string); (401, "Unauthorized"%string); (402, "Payment Required"%string); (403, "Forbidden"%string);
   (404, "Not Found"%string); (405, "Method Not Allowed"%string); (406, "Not Acceptable"%string);
   (407, "Proxy Authentication Required"%string); (408, "Request Timeout"%string); (409, "Conflict"%string); (410, "Gone"%string);
   (411, "Length Required"%string); (412, "Precondition Failed"%string); (413, "Payload Too Large"%string); (414, "URI Too Long"%string);
   (415, "Unsupported Media Type"%string); (416, "Range Not Satisfiable"%string); (417, "Expectation Failed"%string);
   (418, "I'm a teapot"%string); (421, "Misdirected Request"%string); (422, "Unprocessable Entity"%string); (423, "Locked"%string);
   (424, "Failed Dependency"%string); (425, "Too Early"%string); (426, "Upgrade Required"%string);
   (428, "Precondition Required"%string); (429, "Too Many Requests"%string); (431, "Request Header Fields Too Large"%string);
   (451, "Unavailable For Legal Reasons"%string);
   (500, "Internal Server Error"%string); (501, "Not Implemented"%string); (502, "Bad Gateway"%string); (503, "Service Unavailable"%string);
   (504, "Gateway Timeout"%string); (505, "HTTP Version Not Supported"%string); (506, "Variant Also Negotiates"%string);
   (507, "Insufficient Storage"%string); (508, "Loop Detected"%string); (510, "Not Extended"%string);
   (511, "Network Authentication Required"%string)].

(** Every number of the registry list is supported and has the registered phrase, except four; and printing a code
    gives the number, a colon and that phrase.  Missing: 203, 226, 300 and 416, refuted below. *)
Theorem C78_registered_partial : forall n phrase, In (n, phrase) registry -> ~ In n [203; 226; 300; 416] ->
  exists c, code_try_from n = Ok c /\ canonical_reason c = phrase /\ status_display c = show_dec n ++ lit ": " ++ phrase.
Proof.
  intros n p I X. unfold registry in I. cbn [map fst snd In] in I.
  repeat (destruct I as [I|I];
    [injection I as <- <-; first [elim X; vm_compute; tauto | eexists; split; [reflexivity|split; reflexivity]]|]). destruct I.
Qed.
(** No supported code is left out. *)
Theorem C78_complete : forall c, exists phrase, In (code_u16 c, phrase) registry.
Proof.
  intros c. assert (H : existsb (fun e => fst e =? code_u16 c) registry = true) by (destruct c; vm_compute; reflexivity).
  apply existsb_exists in H as ([n p] & I & E). apply N.eqb_eq in E. cbn [fst] in E. subst n. exists p. exact I.
Qed.
Lemma in_registry : forall n p, existsb (fun e => (fst e =? n) && seqb (snd e) p) registry = true -> In (n, p) registry.
Proof.
  intros n p H. apply existsb_exists in H as ([m q] & I & E). apply andb_true_iff in E as [A B]. apply N.eqb_eq in A. apply seqb_eq in B.
  cbn [fst snd] in A, B. subst. exact I.
Qed.
Theorem C78_registered_refuted : exists l,
  l = [(203, "Non Authoritative Information", "Non-Authoritative Information"); (226, "Im Used", "IM Used");
    (300, "Multiple Choice", "Multiple Choices"); (416, "Requested Range Not Satisfiable", "Range Not Satisfiable")]%string /\
  forall n actual registered, In (n, actual, registered) l ->
  In (n, lit registered) registry /\ exists c, code_try_from n = Ok c /\ canonical_reason c = lit actual /\ lit actual <> lit registered.
Proof.
  eexists. split; [reflexivity|]. intros n a r I. cbn [In] in I.
  repeat (destruct I as [I|I];
    [injection I as <- <- <-; split; [apply in_registry; vm_compute; reflexivity|eexists; split; [reflexivity|split; [reflexivity|discriminate]]]|]). destruct I.
Qed.
(** Phrases tell codes apart, start with a capital and fit on a status line. *)
Definition reason_char (c : N) : bool := (c =? 32) || (c =? 39) || (c =? 45) || is_upper c || is_lower c.
Lemma reason_ok : forall c, match canonical_reason c with x :: r => is_upper x && forallb reason_char r | [] => false end = true.
Proof. destruct c; vm_compute; reflexivity. Qed.
Theorem C78_status_line : forall c, exists x r, canonical_reason c = x :: r /\ is_upper x = true /\ forallb reason_char (x :: r) = true.
Proof.
  intros c. assert (H := reason_ok c). destruct (canonical_reason c) as [|x r]; [discriminate H|]. exists x, r. split; [reflexivity|].
  apply andb_true_iff in H as [H1 H2]. split; [exact H1|]. cbn [forallb]. rewrite H2. unfold reason_char. rewrite H1, !orb_true_r. reflexivity.
Qed.
Definition code_of_phrase (p : str) : option status_code :=
  find (fun c => seqb (canonical_reason c) p) (flat_map (fun e => match code_try_from (fst e) with Ok c => [c] | _ => [] end) registry).
Lemma code_of_reason : forall c, code_of_phrase (canonical_reason c) = Some c.
Proof. destruct c; vm_compute; reflexivity. Qed.
Theorem C78_distinct : forall a b, canonical_reason a = canonical_reason b -> a = b.
Proof. intros a b H. assert (E := code_of_reason a). rewrite H, code_of_reason in E. injection E as E. symmetry. exact E. Qed.
Print Assumptions C78_registered_partial.
Print Assumptions C78_complete.
Print Assumptions C78_registered_refuted.
Print Assumptions C78_status_line.
Print Assumptions C78_distinct.
Example C78_example : status_display S_ImATeapot = lit "418: I'm a teapot" /\ In (429, lit "Too Many Requests") registry.
Proof. split; [vm_compute; reflexivity|]. apply in_registry. vm_compute. reflexivity. Qed.
