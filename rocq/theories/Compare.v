(** Comparing and converting values: content/{encoding_proposal,media_type_proposal,content_encoding,content_type}.rs,
    transfer/{encoding_proposal,transfer_encoding}.rs, mime/mod.rs, status_code.rs. *)
From Verif Require Import Base Mime Float StatusCode Negotiate.

(** [PartialEq] of floats (std): NaN differs from everything, +0 equals -0. *)
Definition feq (x y : float) : bool := match fcmp x y with Some Eq => true | _ => false end.
(** Derived [PartialEq] of [Option<f32>]. *)
Definition weight_eqb (a b : option float) : bool :=
  match a, b with Some x, Some y => feq x y | None, None => true | _, _ => false end.
(** Derived [PartialEq]: src/content/encoding_proposal.rs:10, src/transfer/encoding_proposal.rs:12. *)
Definition proposal_eqb (a b : proposal) : bool := coding_eqb (p_coding a) (p_coding b) && weight_eqb (p_weight a) (p_weight b).
(** src/content/encoding_proposal.rs:104-113, src/transfer/encoding_proposal.rs:102-111. *)
Definition proposal_cmp (a b : proposal) : option comparison := weight_cmp (p_weight a) (p_weight b).
(** [PartialEq<Encoding>]: src/content/encoding_proposal.rs:68-78, src/transfer/encoding_proposal.rs:70-80. *)
Definition proposal_is (p : proposal) (c : coding) : bool := coding_eqb (p_coding p) c.
(** [From<Encoding>]: src/content/encoding_proposal.rs:59-66, src/transfer/encoding_proposal.rs:61-68. *)
Definition proposal_of (c : coding) : proposal := Proposal c None.
(** Assigning through [DerefMut]: src/content/encoding_proposal.rs:87-91, src/transfer/encoding_proposal.rs:89-93. *)
Definition proposal_assign (p : proposal) (c : coding) : proposal := Proposal c (p_weight p).
(** [From<EncodingProposal>] for the header with one coding: src/content/content_encoding.rs:116-130,
    src/transfer/transfer_encoding.rs:113-127. *)
Definition encoding_of (p : proposal) : coding := p_coding p.

(** Derived [PartialEq] of [Vec<(ParamName, ParamValue)>]: src/mime/mod.rs:208, src/mime/mod.rs:243. *)
Fixpoint params_eqb (a b : list (str * str)) : bool :=
  match a, b with
  | [], [] => true
  | (n, v) :: a', (m, w) :: b' => seqb n m && seqb v w && params_eqb a' b'
  | _, _ => false
  end.
(** Derived [PartialEq] of src/mime/mod.rs:31-40; also [ContentType == Mime], src/content/content_type.rs:89-99. *)
Definition mime_eqb (a b : mime) : bool :=
  seqb (essence a) (essence b) && seqb (basetype a) (basetype b) && seqb (subtype a) (subtype b)
  && Bool.eqb (is_utf8 a) (is_utf8 b) && params_eqb (params a) (params b).
(** Derived [PartialEq]: src/content/media_type_proposal.rs:12. *)
Definition media_eqb (a b : media_proposal) : bool := mime_eqb (mp_type a) (mp_type b) && weight_eqb (mp_weight a) (mp_weight b).
(** src/content/media_type_proposal.rs:116-125 *)
Definition media_cmp (a b : media_proposal) : option comparison := weight_cmp (mp_weight a) (mp_weight b).
(** [PartialEq<Mime>]: src/content/media_type_proposal.rs:85-95. *)
Definition media_is (p : media_proposal) (m : mime) : bool := mime_eqb (mp_type p) m.
(** [From<Mime>]: src/content/media_type_proposal.rs:70-77. *)
Definition media_of (m : mime) : media_proposal := MediaProposal m None.
(** [From<&str>] for [Mime] and [ContentType::new] on text: src/mime/mod.rs:192-196, src/content/content_type.rs:42-52. *)
Definition mime_into (s : str) : outcome mime := match mime_parse s with Ok m => Ok m | _ => Panic end.

(** [StatusCode == u16] and back: src/status_code.rs:695-705. *)
Definition status_is (c : status_code) (n : N) : bool := code_u16 c =? n.
