(** Message bodies: src/body.rs.

    [Box<dyn AsyncBufRead>] is either a stream described by the script of what it does when polled,
    or futures-lite's [Chain] of two bodies.  Any run of any well-behaved reader (one that never claims
    more bytes than the buffer holds and stays at end-of-file once there) is the run of some script.

    Simplified: [bytes_read] is unbounded (the code adds in [u64]); I/O errors are numbers; allocation
    never fails except for the capacity overflow check of [String::with_capacity]. *)
From Verif Require Import Base Utf8 Mime.

(** What an underlying reader does next: not ready, an I/O error, or a non-empty chunk of data.  Readers given to src/body.rs:107-117. *)
Inductive event := EPending | EFail (e : N) | EData (b : N) (bs : list N).

(** [std::task::Poll] of an I/O result. *)
Inductive poll (A : Type) := Pending | Ready (a : A) | Failed (e : N) | Panicked.
Arguments Pending {A}.
Arguments Ready {A} a.
Arguments Failed {A} e.
Arguments Panicked {A}.

(** [struct Body] (src/body.rs:56-62). *)
Inductive body := Body (src : source) (m : option mime) (len : option N) (bytes_read : N)
with source :=
| Stream (evs : list event)
| Chained (b1 b2 : body) (done1 : bool).

(** The field [reader] (src/body.rs:57). *)
Definition body_source (b : body) : source := let '(Body s _ _ _) := b in s.

(** [Body::len] (src/body.rs:467-469), [Body::is_empty] (472-474), [Body::mime] (477-479). *)
Definition body_len (b : body) : option N := let '(Body _ _ l _) := b in l.
(** src/body.rs:472-474. *)
Definition body_is_empty (b : body) : option bool := option_map (fun l => l =? 0) (body_len b).
(** src/body.rs:477-479. *)
Definition body_mime (b : body) : option mime := let '(Body _ m _ _) := b in m.
(** The private field [bytes_read] (src/body.rs:61). *)
Definition body_read (b : body) : N := let '(Body _ _ _ r) := b in r.

(** [Body::set_mime] (src/body.rs:495-497). *)
Definition set_mime (m : option mime) (b : body) : body := let '(Body s _ l r) := b in Body s m l r.

(** [Vec::len], [str::len] (std). *)
Definition nlen {A} (l : list A) : N := N.of_nat (length l).

(** [io::Cursor] over a byte vector, as a script.  src/body.rs:156, 206. *)
Definition chunk (bs : list N) : list event := match bs with [] => [] | b :: bs' => [EData b bs'] end.

(** [Body::empty] (src/body.rs:79-86). *)
Definition body_empty : body := Body (Stream []) (Some MIME_BYTE_STREAM) (Some 0) 0.
(** [Body::from_reader] (src/body.rs:107-117). *)
Definition from_reader (evs : list event) (len : option N) : body :=
  Body (Stream evs) (Some MIME_BYTE_STREAM) len 0.
(** [Body::from_bytes] (src/body.rs:154-161), [From<Vec<u8>>], [From<&[u8]>] (568-578). *)
Definition from_bytes (bs : list N) : body :=
  Body (Stream (chunk bs)) (Some MIME_BYTE_STREAM) (Some (nlen bs)) 0.
(** [Body::from_string] (src/body.rs:204-211), [From<String>], [From<&str>] (556-566). *)
Definition from_string (s : str) : body :=
  Body (Stream (chunk (utf8_encode s))) (Some MIME_PLAIN) (Some (nlen (utf8_encode s))) 0.
(** [Body::from_json] (src/body.rs:251-260) and [Body::from_form] (318-329) after serde has produced
    the bytes. *)
Definition from_json_bytes (bs : list N) : body := Body (Stream (chunk bs)) (Some MIME_JSON) (Some (nlen bs)) 0.
(** src/body.rs:318-329. *)
Definition from_form_text (s : str) : body := set_mime (Some MIME_FORM) (from_string s).

(** Derived [PartialEq] of [Option<Mime>]: [mime.rs] compares essence, basetype, subtype, [is_utf8]
    and the parameter list. *)
Definition pair_dec : forall p q : str * str, {p = q} + {p <> q}.
Proof. decide equality; apply (list_eq_dec N.eq_dec). Defined.
(** Derived [PartialEq] of src/mime/mod.rs:32-40. *)
Definition mime_dec : forall a b : mime, {a = b} + {a <> b}.
Proof.
  decide equality; first [apply bool_dec | apply (list_eq_dec N.eq_dec) | apply (list_eq_dec pair_dec)].
Defined.
(** src/body.rs:521, [==] on [Option<Mime>]. *)
Definition opt_mime_eqb (a b : option mime) : bool :=
  match a, b with
  | None, None => true
  | Some x, Some y => if mime_dec x y then true else false
  | _, _ => false
  end.

(** [Body::chain] (src/body.rs:520-536).  [l1 - self.bytes_read] panics on underflow. *)
Definition chain (b1 b2 : body) : outcome body :=
  let m := if opt_mime_eqb (body_mime b1) (body_mime b2) then body_mime b1 else Some MIME_BYTE_STREAM in
  match body_len b1, body_len b2 with
  | Some l1, Some l2 =>
      if (l1 <? body_read b1) || (l2 <? body_read b2) then Panic
      else let l := (l1 - body_read b1) + (l2 - body_read b2) in
           Ok (Body (Chained b1 b2 false) m (if l <=? u64_max then Some l else None) 0)
  | _, _ => Ok (Body (Chained b1 b2 false) m None 0)
  end.

(** [poll_read] of a script: at most [cap] bytes of the chunk at hand.  Called at src/body.rs:598. *)
Definition stream_read (evs : list event) (cap : nat) : poll (list N) * list event :=
  match evs with
  | [] => (Ready [], [])
  | EPending :: r => (Pending, r)
  | EFail e :: r => (Failed e, r)
  | EData b bs :: r =>
      match cap with
      | O => (Ready [], evs)
      | S k => (Ready (b :: firstn k bs), chunk (skipn k bs) ++ r)
      end
  end.

(** The [match self.length] of [poll_read] (src/body.rs:586-595): [inl] is an early return. *)
Definition limit_buf (len : option N) (rd : N) (cap : nat) : poll (list N) + nat :=
  match len with
  | None => inr cap
  | Some l => if l =? rd then inl (Ready [])
              else if l <? rd then inl Panicked
              else inr (N.to_nat (N.min (l - rd) (N.of_nat cap)))
  end.

(** [<Body as AsyncRead>::poll_read] (src/body.rs:580-602); the chained case is
    futures_lite::io::Chain::poll_read. *)
Fixpoint poll_read (b : body) (cap : nat) {struct b} : poll (list N) * body :=
  match b with
  | Body s m len rd =>
      match limit_buf len rd cap with
      | inl r => (r, b)
      | inr cap' =>
          match src_read s cap' with
          | (Ready bs, s') => (Ready bs, Body s' m len (rd + nlen bs))
          | (Pending, s') => (Pending, Body s' m len rd)
          | (Failed e, s') => (Failed e, Body s' m len rd)
          | (Panicked, s') => (Panicked, Body s' m len rd)
          end
      end
  end
with src_read (s : source) (cap : nat) {struct s} : poll (list N) * source :=
  match s with
  | Stream evs => let '(r, evs') := stream_read evs cap in (r, Stream evs')
  | Chained b1 b2 true => let '(r, b2') := poll_read b2 cap in (r, Chained b1 b2' true)
  | Chained b1 b2 false =>
      match poll_read b1 cap with
      | (Ready [], b1') =>
          match cap with
          | O => (Ready [], Chained b1' b2 false)
          | _ => let '(r, b2') := poll_read b2 cap in (r, Chained b1' b2' true)
          end
      | (r, b1') => (r, Chained b1' b2 false)
      end
  end.

(** [poll_fill_buf] of a script: the chunk at hand, left in place.  Called at src/body.rs:607. *)
Definition stream_fill (evs : list event) : poll (list N) * list event :=
  match evs with
  | [] => (Ready [], [])
  | EPending :: r => (Pending, r)
  | EFail e :: r => (Failed e, r)
  | EData b bs :: _ => (Ready (b :: bs), evs)
  end.
(** [consume] of a script. *)
Definition stream_consume (evs : list event) (amt : nat) : list event :=
  match evs with
  | EData b bs :: r => chunk (skipn amt (b :: bs)) ++ r
  | _ => evs
  end.

(** [<Body as AsyncBufRead>::poll_fill_buf] (src/body.rs:606-608) and [consume] (610-612), with
    futures_lite::io::Chain's in the chained case. *)
Fixpoint poll_fill_buf (b : body) : poll (list N) * body :=
  match b with
  | Body s m len rd => let '(r, s') := src_fill s in (r, Body s' m len rd)
  end
with src_fill (s : source) : poll (list N) * source :=
  match s with
  | Stream evs => let '(r, evs') := stream_fill evs in (r, Stream evs')
  | Chained b1 b2 true => let '(r, b2') := poll_fill_buf b2 in (r, Chained b1 b2' true)
  | Chained b1 b2 false =>
      match poll_fill_buf b1 with
      | (Ready [], b1') => let '(r, b2') := poll_fill_buf b2 in (r, Chained b1' b2' true)
      | (r, b1') => (r, Chained b1' b2 false)
      end
  end.
(** src/body.rs:610-612. *)
Fixpoint consume (b : body) (amt : nat) : body :=
  match b with
  | Body s m len rd => Body (src_consume s amt) m len rd
  end
with src_consume (s : source) (amt : nat) : source :=
  match s with
  | Stream evs => Stream (stream_consume evs amt)
  | Chained b1 b2 true => Chained b1 (consume b2 amt) true
  | Chained b1 b2 false => Chained (consume b1 amt) b2 false
  end.

(** A caller polling with the buffer sizes [caps], and what each poll returned.  Calls of src/body.rs:580-602. *)
Fixpoint reads (b : body) (caps : list nat) : list (poll (list N)) * body :=
  match caps with
  | [] => ([], b)
  | c :: cs => let '(r, b') := poll_read b c in let '(rs, b'') := reads b' cs in (r :: rs, b'')
  end.

(** [futures_lite::io::AsyncReadExt::read_to_end]: poll with non-empty buffers ([S c] bytes) until
    end-of-file or an error; [None] while it has not finished.  The buffer sizes, chosen by the growth
    of the vector, are arbitrary here.  Called at src/body.rs:181 and 229-231, 285. *)
Fixpoint read_to_end (caps : list nat) (b : body) (acc : list N) : option (outcome (list N)) :=
  match caps with
  | [] => None
  | c :: cs =>
      match poll_read b (S c) with
      | (Ready [], _) => Some (Ok acc)
      | (Ready bs, b') => read_to_end cs b' (acc ++ bs)
      | (Pending, b') => read_to_end cs b' acc
      | (Failed e, _) => Some (Err 500)
      | (Panicked, _) => Some Panic
      end
  end.

(** [Body::into_bytes] (src/body.rs:178-184). *)
Definition into_bytes (caps : list nat) (b : body) : option (outcome (list N)) :=
  option_map (with_status 422) (read_to_end caps b []).

(** [isize::MAX] on 64 bits. *)
Definition isize_max : N := 2 ^ 63 - 1.

(** [Body::into_string] (src/body.rs:227-234) on a 64-bit target, where [usize::try_from] cannot fail;
    [String::with_capacity] panics above [isize::MAX].  [read_to_string] is [read_to_end] followed by
    a UTF-8 check. *)
Definition into_string (caps : list nat) (b : body) : option (outcome str) :=
  if isize_max <? match body_len b with Some l => l | None => 0 end then Some Panic
  else option_map (fun r => with_status 422 (let* bs := r in ok_or 500 (utf8_decode bs)))
         (read_to_end caps b []).

(** [Body::into_json] (src/body.rs:283-287): [parse] stands for serde_json; a failed read goes through
    [From<io::Error>] (src/error.rs:200-204, status 500). *)
Definition into_json {T} (parse : list N -> option T) (caps : list nat) (b : body) : option (outcome T) :=
  option_map (fun r => let* bs := r in ok_or 422 (parse bs)) (read_to_end caps b []).

(** [Body::into_form] (src/body.rs:357-360): [parse] stands for serde_urlencoded. *)
Definition into_form {T} (parse : str -> option T) (caps : list nat) (b : body) : option (outcome T) :=
  option_map (fun r => let* s := r in ok_or 422 (parse s)) (into_string caps b).

(** A caller reading through [AsyncBufRead]: fill, take up to [amt] bytes of what is offered, consume
    them.  Calls of src/body.rs:604-613. *)
Fixpoint buf_reads (b : body) (amts : list nat) : list (poll (list N)) * body :=
  match amts with
  | [] => ([], b)
  | a :: rest =>
      match poll_fill_buf b with
      | (Ready bs, b') =>
          let '(rs, b'') := buf_reads (consume b' (Nat.min a (length bs))) rest in
          (Ready (firstn a bs) :: rs, b'')
      | (r, b') => let '(rs, b'') := buf_reads b' rest in (r :: rs, b'')
      end
  end.
