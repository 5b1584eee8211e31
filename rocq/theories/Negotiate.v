(** src/utils/mod.rs (weights), content/{encoding,encoding_proposal,accept_encoding,content_encoding}.rs,
    transfer/{encoding,encoding_proposal,te,transfer_encoding}.rs, content/{media_type_proposal,accept}.rs. *)
From Verif Require Import Base Headers Typed Mime Float.

Notation f32 := f32_format.

(** ** utils/mod.rs *)
(** src/utils/mod.rs:13-31 *)
Definition parse_weight (s : str) : outcome float :=
  match split c_eq s with
  | n :: v :: _ => if seqb n (lit "q") then ok_or 400 (parse_float f32 v) else Err 400
  | _ => Err 400
  end.

(** src/content/encoding_proposal.rs:105-114 and src/content/media_type_proposal.rs:117-126 [partial_cmp]. *)
Definition weight_cmp (a b : option float) : option comparison :=
  match a, b with
  | Some x, Some y => fcmp x y
  | Some _, None => Some Gt
  | None, Some _ => Some Lt
  | None, None => None
  end.

(** src/utils/mod.rs:37-40, the comparison closure on (index, weight). *)
Definition sort_cmp (a b : N * option float) : comparison :=
  match weight_cmp (snd b) (snd a) with
  | None | Some Eq => N.compare (fst b) (fst a)
  | Some o => o
  end.

Section Sort.
  Context {T : Type} (weight : T -> option float).
  (** src/utils/mod.rs:35-42. *)
  Definition item_cmp (a b : N * T) : comparison := sort_cmp (fst a, weight (snd a)) (fst b, weight (snd b)).

  (** src/utils/mod.rs:36 *)
  Fixpoint enumerate (i : N) (l : list T) : list (N * T) :=
    match l with [] => [] | x :: l' => (i, x) :: enumerate (N.succ i) l' end.

  (** [sort_unstable_by]: std promises a sorted permutation for a total order.  Insertion sort stands for it
      here; C48 shows that there is only one sorted permutation. *)
  Fixpoint insert_item (a : N * T) (l : list (N * T)) : list (N * T) :=
    match l with
    | [] => [a]
    | b :: l' => match item_cmp a b with Gt => b :: insert_item a l' | _ => a :: l end
    end.
  (** [sort_unstable_by] (std): one sorted permutation; NegotiateProps.v shows it is the only one. *)
  Fixpoint sort_items (l : list (N * T)) : list (N * T) :=
    match l with [] => [] | a :: l' => insert_item a (sort_items l') end.
  (** src/utils/mod.rs:35-42 *)
  Definition sort_by_weight (l : list T) : list T := map snd (sort_items (enumerate 0 l)).
End Sort.

(** ** The two coding families *)
(** src/content, src/transfer: the same code twice. *)
Inductive family : Type := Content | Transfer.
(** src/content/encoding.rs:7-18, src/transfer/encoding.rs:9-22; [Chunked] exists only in the transfer family. *)
Inductive coding : Type := Gzip | Deflate | Brotli | Zstd | Identity | Chunked.
(** Derived [PartialEq] of src/content/encoding.rs:7-18, src/transfer/encoding.rs:9-22. *)
Definition coding_eqb (a b : coding) : bool :=
  match a, b with
  | Gzip, Gzip | Deflate, Deflate | Brotli, Brotli | Zstd, Zstd | Identity, Identity | Chunked, Chunked => true
  | _, _ => false
  end.
(** The variants of src/content/encoding.rs:7-18 and src/transfer/encoding.rs:9-22. *)
Definition in_family (k : family) (c : coding) : bool :=
  match k, c with Content, Chunked => false | _, _ => true end.
(** src/content/encoding.rs:41-51, src/transfer/encoding.rs:46-57 *)
Definition coding_show (c : coding) : str :=
  match c with
  | Gzip => lit "gzip" | Deflate => lit "deflate" | Brotli => lit "br" | Zstd => lit "zstd"
  | Identity => lit "identity" | Chunked => lit "chunked"
  end.
(** src/content/encoding.rs:22-38, src/transfer/encoding.rs:26-43 *)
Definition coding_from_str (k : family) (s : str) : option coding :=
  let t := trim s in
  if (match k with Transfer => true | Content => false end) && seqb t (lit "chunked") then Some Chunked
  else if seqb t (lit "gzip") then Some Gzip
  else if seqb t (lit "deflate") then Some Deflate
  else if seqb t (lit "br") then Some Brotli
  else if seqb t (lit "zstd") then Some Zstd
  else if seqb t (lit "identity") then Some Identity
  else None.

(** ** encoding_proposal.rs *)
(** src/content/encoding_proposal.rs:11-19, src/transfer/encoding_proposal.rs:13-21. *)
Record proposal : Type := Proposal { p_coding : coding; p_weight : option float }.
(** src/content/encoding_proposal.rs:23-35 and src/transfer/encoding_proposal.rs:25-37 [new]: [ensure!] without a status gives 500. *)
Definition weight_ok (w : option float) : bool :=
  match w with Some x => sign_positive x && fle x (Fin false (one f32)) | None => true end.
(** src/content/encoding_proposal.rs:23-35, src/transfer/encoding_proposal.rs:25-37. *)
Definition proposal_new (c : coding) (w : option float) : outcome proposal :=
  if weight_ok w then Ok (Proposal c w) else Err 500.
(** src/content/encoding_proposal.rs:47-56, src/transfer/encoding_proposal.rs:49-58 [from_str] *)
Definition proposal_from_str (k : family) (s : str) : outcome (option proposal) :=
  match split c_semi s with
  | [] => Panic
  | c :: rest =>
      match coding_from_str k c with
      | None => Ok None
      | Some c =>
          let* w := (match rest with [] => Ok None | w :: _ => let* x := parse_weight w in Ok (Some x) end) in
          let* p := proposal_new c w in Ok (Some p)
      end
  end.
(** src/content/encoding_proposal.rs:117-125 *)
Definition proposal_value (p : proposal) : str :=
  coding_show (p_coding p) ++ match p_weight p with Some w => lit ";q=" ++ show3 f32 w | None => [] end.

(** ** content/accept_encoding.rs, transfer/te.rs *)
Definition accept_name (k : family) : str := match k with Content => lit "accept-encoding" | Transfer => lit "te" end.
(** The loop of src/content/accept_encoding.rs:66-84, src/transfer/te.rs:64-82 and src/content/accept.rs:74-92: empty pieces are skipped, "*" sets the
    flag, everything else is parsed; a piece that parses to nothing (an unknown coding) is skipped. *)
Fixpoint read_skipping {A} (parse : str -> outcome (option A)) (parts : list str) : outcome (list A * bool) :=
  match parts with
  | [] => Ok ([], false)
  | p :: ps =>
      let t := trim p in
      if seqb t [] then read_skipping parse ps
      else if seqb t (lit "*") then let* (es, _) := read_skipping parse ps in Ok (es, true)
      else let* e := parse t in
           let* (es, w) := read_skipping parse ps in
           Ok (match e with Some e => e :: es | None => es end, w)
  end.
(** src/content/accept_encoding.rs:57-87, src/transfer/te.rs:55-85. *)
Definition read_proposals (k : family) (parts : list str) : outcome (list proposal * bool) :=
  read_skipping (proposal_from_str k) parts.
(** src/content/accept_encoding.rs:57-87, src/transfer/te.rs:55-85 *)
Definition accept_from_headers (k : family) (h : headers) : outcome (option (list proposal * bool)) :=
  with_all h (accept_name k) (fun vs => read_proposals k (comma_parts vs)).
(** src/content/accept_encoding.rs:161-180, src/transfer/te.rs:159-178 *)
Definition accept_value (a : list proposal * bool) : str := list_value (lit "*") (map proposal_value (fst a)) (snd a).
(** src/headers/header.rs:15-22 with src/content/accept_encoding.rs:156-181, src/transfer/te.rs:154-179. *)
Definition accept_apply (k : family) (h : headers) (a : list proposal * bool) : headers :=
  apply_value h (accept_name k) (accept_value a).

(** [slice::contains].  src/content/accept_encoding.rs:118-139, src/transfer/te.rs:116-137. *)
Definition available_has (available : list coding) (c : coding) : bool := existsb (coding_eqb c) available.
(** src/content/accept_encoding.rs:118-139, src/transfer/te.rs:116-137; the result also has the sorted entries. *)
Definition negotiate (a : list proposal * bool) (available : list coding) : outcome coding :=
  match find (fun p => available_has available (p_coding p)) (sort_by_weight p_weight (fst a)) with
  | Some p => Ok (p_coding p)
  | None =>
      match snd a, available with
      | true, c :: _ => Ok c
      | _, _ => Err 406
      end
  end.

(** ** content/content_encoding.rs, transfer/transfer_encoding.rs *)
Definition encoding_name (k : family) : str :=
  match k with Content => lit "content-encoding" | Transfer => lit "transfer-encoding" end.
(** src/content/content_encoding.rs:46-62, src/transfer/transfer_encoding.rs:43-59: the last recognised value; [expect] panics when there is
    none. *)
Definition last_coding (k : family) (vs : header_values) : option coding :=
  fold_left (fun acc v => match coding_from_str k v with Some c => Some c | None => acc end) vs None.
(** src/content/content_encoding.rs:46-62, src/transfer/transfer_encoding.rs:43-59. *)
Definition encoding_from_headers (k : family) (h : headers) : outcome (option coding) :=
  with_all h (encoding_name k) (fun vs => unwrap (last_coding k vs)).
(** src/headers/header.rs:15-22 with src/content/content_encoding.rs:70-77, src/transfer/transfer_encoding.rs:67-74. *)
Definition encoding_apply (k : family) (h : headers) (c : coding) : headers :=
  apply_value h (encoding_name k) (coding_show c).

(** ** content/media_type_proposal.rs *)
Record media_proposal : Type := MediaProposal { mp_type : mime; mp_weight : option float }.
(** src/content/media_type_proposal.rs:25-43: a missing weight becomes 1.0. *)
Definition media_new (m : mime) (w : option float) : outcome media_proposal :=
  if weight_ok w then
    Ok (MediaProposal m (match w with None => Some (Fin false (one f32)) | Some x => Some x end))
  else Err 500.
(** src/content/media_type_proposal.rs:60-67 [from_str]: the float error has no status, so it is 500. *)
Definition media_from_str (s : str) : outcome media_proposal :=
  let* m := mime_parse s in
  let* (q, m') := remove_param m (lit "q") in
  let* w := (match q with None => Ok None | Some t => let* x := ok_or 500 (parse_float f32 t) in Ok (Some x) end) in
  media_new m' w.
(** src/content/media_type_proposal.rs:128-136 *)
Definition media_value (p : media_proposal) : str :=
  mime_format (mp_type p) ++ match mp_weight p with Some w => lit ";q=" ++ show3 f32 w | None => [] end.

(** ** content/accept.rs *)
Definition ACCEPT : str := lit "accept".
(** src/content/accept.rs:74-92 *)
Definition read_media (parts : list str) : outcome (list media_proposal * bool) :=
  read_skipping (fun t => let* m := media_from_str t in Ok (Some m)) parts.
(** src/content/accept.rs:66-95 *)
Definition media_from_headers (h : headers) : outcome (option (list media_proposal * bool)) :=
  with_all h ACCEPT (fun vs => read_media (comma_parts vs)).
(** src/content/accept.rs:168-187 *)
Definition media_list_value (a : list media_proposal * bool) : str :=
  list_value (lit "*") (map media_value (fst a)) (snd a).
(** src/headers/header.rs:15-22 with src/content/accept.rs:164-188. *)
Definition media_apply (h : headers) (a : list media_proposal * bool) : headers :=
  apply_value h ACCEPT (media_list_value a).
(** src/content/accept.rs:126-147 *)
Fixpoint find_media (available : list mime) (ps : list media_proposal) : option mime :=
  match ps with
  | [] => None
  | p :: ps' => match find (fun m => subset_eq m (mp_type p)) available with
                | Some m => Some m
                | None => find_media available ps'
                end
  end.
(** src/content/accept.rs:126-147. *)
Definition media_negotiate (a : list media_proposal * bool) (available : list mime) : outcome mime :=
  match find_media available (sort_by_weight mp_weight (fst a)) with
  | Some m => Ok m
  | None => match snd a, available with true, m :: _ => Ok m | _, _ => Err 406 end
  end.
