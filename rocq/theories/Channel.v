(** Trailers and upgrades: the channel between a message and whoever sends or receives
    (src/trailers.rs:212-261, src/upgrade/sender.rs, src/upgrade/receiver.rs, and the methods of
    src/request.rs:552-573, src/response.rs:487-536).

    A world holds every channel ([async_channel::bounded(1)]), message, sender, unfinished [send] future
    and receiver that is alive; a schedule is any list of operations on them.  A channel is closed when no
    sending (or no receiving) handle is left, as in async-channel; since a handle can only be cloned from a
    live one it never reopens.  Trailers and upgrades use the same code on separate channels; [T] is
    [Trailers] or [Connection]. *)
From Verif Require Import Base Message.

Section Channels.
Variable T : Type.
(** Does taking the receiver set the flag too?  [recv_upgrade] does (src/response.rs:524), [recv_trailers]
    does not. *)
Variable recv_sets_flag : bool.

(** A message: is it a request (its clones have no channel) and its channel ends.  src/request.rs:40-42, src/response.rs:41-47. *)
Record msg : Type := mkMsg { m_request : bool; m_ends : ends }.

(** The state of all channels; the fields of src/request.rs:40-42, src/response.rs:41-47, src/trailers.rs:218-220, 250-252. *)
Record world : Type := mkWorld {
  fresh : nat;                          (* next unused number, for channels and handles *)
  queues : list (nat * option T);       (* channel -> the message waiting in it, if any *)
  msgs : list (nat * msg);
  senders : list (nat * nat);           (* sender handle -> channel *)
  sends : list (nat * (nat * T));       (* unfinished send future -> channel, value *)
  receivers : list (nat * nat)          (* receiver handle -> channel *)
}.
(** Before any message is created. *)
Definition world0 : world := mkWorld 0 [] [] [] [] [].

(** Lookup in the tables of [world]; not crate code. *)
Fixpoint assoc {A} (l : list (nat * A)) (k : nat) : option A :=
  match l with
  | [] => None
  | (k', a) :: l' => if Nat.eqb k' k then Some a else assoc l' k
  end.
(** Removal from a table of [world]; not crate code. *)
Fixpoint without {A} (l : list (nat * A)) (k : nat) : list (nat * A) :=
  match l with
  | [] => []
  | (k', a) :: l' => if Nat.eqb k' k then without l' k else (k', a) :: without l' k
  end.
(** Update of a table of [world]; not crate code. *)
Definition update {A} (l : list (nat * A)) (k : nat) (a : A) : list (nat * A) := (k, a) :: without l k.

(** Is this end an end of channel [c]?  Not crate code. *)
Definition is_chan (c : nat) (o : option nat) : bool := match o with Some c' => Nat.eqb c' c | None => false end.

(** Handles that keep the sending (receiving) side of channel [c] open.  src/trailers.rs:218-220, src/upgrade/sender.rs:9-11. *)
Definition sender_alive (w : world) (c : nat) : bool :=
  existsb (fun p => is_chan c (e_send (m_ends (snd p)))) (msgs w)
  || existsb (fun p => Nat.eqb (snd p) c) (senders w)
  || existsb (fun p => Nat.eqb (fst (snd p)) c) (sends w).
(** Receiving handles of a channel: those in messages and those in [Receiver] futures (src/trailers.rs:250-252, src/upgrade/receiver.rs:12-14). *)
Definition receiver_alive (w : world) (c : nat) : bool :=
  existsb (fun p => is_chan c (e_recv (m_ends (snd p)))) (msgs w)
  || existsb (fun p => Nat.eqb (snd p) c) (receivers w).

(** The calls: src/request.rs:49-69, 552-573, 887-905; src/response.rs:57-82, 487-536, 585-605; src/trailers.rs:232-234, 258-260; src/upgrade/sender.rs:23-25, src/upgrade/receiver.rs:27-29. *)
Inductive op : Type :=
| NewMsg (is_request : bool)       (* Request::new, Response::new *)
| CloneMsg (m : nat)
| DropMsg (m : nat)
| TakeSender (m : nat)             (* send_trailers / send_upgrade *)
| TakeReceiver (m : nat)           (* recv_trailers / recv_upgrade *)
| StartSend (s : nat) (t : T)      (* Sender::send, which consumes the sender *)
| PollSend (f : nat)
| DropSend (f : nat)               (* drop an unfinished send future *)
| DropSender (s : nat)
| PollRecv (r : nat)               (* poll the Receiver future *)
| DropRecv (r : nat).

(** What a call returns. *)
Inductive res : Type :=
| NoSuch                           (* the handle is not alive: the operation cannot be written *)
| Handle (h : nat)
| Done
| Paniced
| Waiting                          (* Poll::Pending *)
| Sent | Lost                      (* send finished: accepted, or the channel is closed *)
| Got (t : T) | Closed.            (* Poll::Ready(Some t), Poll::Ready(None).  One call; the lines are those at [op]. *)

Definition step (w : world) (o : op) : world * res :=
  match o with
  | NewMsg b =>
      let c := fresh w in let m := S c in
      (mkWorld (S m) ((c, None) :: queues w) ((m, mkMsg b (mkEnds (Some c) (Some c) false)) :: msgs w)
         (senders w) (sends w) (receivers w), Handle m)
  | CloneMsg m =>
      match assoc (msgs w) m with
      | None => (w, NoSuch)
      | Some x =>
          (mkWorld (S (fresh w)) (queues w)
             ((fresh w, mkMsg (m_request x) (clone_ends (m_request x) (m_ends x))) :: msgs w)
             (senders w) (sends w) (receivers w), Handle (fresh w))
      end
  | DropMsg m =>
      match assoc (msgs w) m with
      | None => (w, NoSuch)
      | Some _ => (mkWorld (fresh w) (queues w) (without (msgs w) m) (senders w) (sends w) (receivers w), Done)
      end
  (* The flag is set before the sender is taken: it stays set if [expect] panics. *)
  | TakeSender m =>
      match assoc (msgs w) m with
      | None => (w, NoSuch)
      | Some x =>
          let x' := mkMsg (m_request x) (mkEnds None (e_recv (m_ends x)) true) in
          let w' := mkWorld (S (fresh w)) (queues w) (update (msgs w) m x')
                      (match e_send (m_ends x) with Some c => (fresh w, c) :: senders w | None => senders w end)
                      (sends w) (receivers w) in
          match e_send (m_ends x) with Some _ => (w', Handle (fresh w)) | None => (w', Paniced) end
      end
  | TakeReceiver m =>
      match assoc (msgs w) m with
      | None => (w, NoSuch)
      | Some x =>
          let x' := mkMsg (m_request x) (mkEnds (e_send (m_ends x)) None (e_flag (m_ends x) || recv_sets_flag)) in
          let w' := mkWorld (S (fresh w)) (queues w) (update (msgs w) m x') (senders w) (sends w)
                      (match e_recv (m_ends x) with Some c => (fresh w, c) :: receivers w | None => receivers w end) in
          match e_recv (m_ends x) with Some _ => (w', Handle (fresh w)) | None => (w', Paniced) end
      end
  | StartSend s t =>
      match assoc (senders w) s with
      | None => (w, NoSuch)
      | Some c => (mkWorld (S (fresh w)) (queues w) (msgs w) (without (senders w) s)
                     ((fresh w, (c, t)) :: sends w) (receivers w), Handle (fresh w))
      end
  | PollSend f =>
      match assoc (sends w) f with
      | None => (w, NoSuch)
      | Some (c, t) =>
          let finished := mkWorld (fresh w) (queues w) (msgs w) (senders w) (without (sends w) f) (receivers w) in
          if negb (receiver_alive w c) then (finished, Lost)
          else match assoc (queues w) c with
               | Some None => (mkWorld (fresh w) (update (queues w) c (Some t)) (msgs w) (senders w)
                                 (without (sends w) f) (receivers w), Sent)
               | _ => (w, Waiting)
               end
      end
  | DropSend f =>
      match assoc (sends w) f with
      | None => (w, NoSuch)
      | Some _ => (mkWorld (fresh w) (queues w) (msgs w) (senders w) (without (sends w) f) (receivers w), Done)
      end
  | DropSender s =>
      match assoc (senders w) s with
      | None => (w, NoSuch)
      | Some _ => (mkWorld (fresh w) (queues w) (msgs w) (without (senders w) s) (sends w) (receivers w), Done)
      end
  | PollRecv r =>
      match assoc (receivers w) r with
      | None => (w, NoSuch)
      | Some c =>
          match assoc (queues w) c with
          | Some (Some t) => (mkWorld (fresh w) (update (queues w) c None) (msgs w) (senders w) (sends w) (receivers w), Got t)
          | _ => if sender_alive w c then (w, Waiting) else (w, Closed)
          end
      end
  | DropRecv r =>
      match assoc (receivers w) r with
      | None => (w, NoSuch)
      | Some _ => (mkWorld (fresh w) (queues w) (msgs w) (senders w) (sends w) (without (receivers w) r), Done)
      end
  end.

(** A schedule: every operation with what it returned.  Any sequence of the calls at [op]. *)
Fixpoint run (w : world) (ops : list op) : world * list (op * res) :=
  match ops with
  | [] => (w, [])
  | o :: ops' => let '(w', r) := step w o in let '(w'', rs) := run w' ops' in (w'', (o, r) :: rs)
  end.
End Channels.
Arguments NewMsg {T}.
Arguments CloneMsg {T}.
Arguments DropMsg {T}.
Arguments TakeSender {T}.
Arguments TakeReceiver {T}.
Arguments StartSend {T}.
Arguments PollSend {T}.
Arguments DropSend {T}.
Arguments DropSender {T}.
Arguments PollRecv {T}.
Arguments DropRecv {T}.
Arguments NoSuch {T}.
Arguments Handle {T}.
Arguments Done {T}.
Arguments Paniced {T}.
Arguments Waiting {T}.
Arguments Sent {T}.
Arguments Lost {T}.
Arguments Got {T}.
Arguments Closed {T}.
Arguments world0 {T}.
Arguments mkWorld {T}.
Arguments fresh {T}.
Arguments queues {T}.
Arguments msgs {T}.
Arguments senders {T}.
Arguments sends {T}.
Arguments receivers {T}.
Arguments sender_alive {T}.
Arguments receiver_alive {T}.
Arguments step {T}.
Arguments run {T}.
Arguments assoc {A}.
Arguments without {A}.
Arguments update {A}.
