(** The containers behind the list headers as values: building, iterating, changing in place, sorting, negotiating.
    CacheControl and ServerTiming have no wildcard flag; for them the flag stays [false]. *)
From Verif Require Import Base Headers Typed Mime Float Negotiate Method Other.

Section Container.
  Context {A : Type}.
  (** The entries and the wildcard flag.  src/cache/clear_site_data/mod.rs:48-51, src/conditional/if_match.rs:39-42,
      src/conditional/if_none_match.rs:45-48, src/conditional/vary.rs:39-42, src/content/accept.rs:51-54,
      src/content/accept_encoding.rs:42-45, src/transfer/te.rs:40-43, src/security/timing_allow_origin.rs:61-64,
      src/cache/cache_control/cache_control.rs:34-36, src/trace/server_timing/mod.rs:64-66. *)
  Definition container := (list A * bool)%type.
  (** src/cache/clear_site_data/mod.rs:55-60, src/conditional/if_match.rs:46-51, src/conditional/if_none_match.rs:52-57,
      src/conditional/vary.rs:46-51, src/content/accept.rs:58-63, src/content/accept_encoding.rs:49-54,
      src/transfer/te.rs:47-52, src/security/timing_allow_origin.rs:68-73, src/cache/cache_control/cache_control.rs:40-42,
      src/trace/server_timing/mod.rs:70-72. *)
  Definition c_new : container := ([], false).
  (** src/cache/clear_site_data/mod.rs:86-88, src/conditional/if_match.rs:77-79, src/conditional/if_none_match.rs:83-85,
      src/conditional/vary.rs:88-91, src/content/accept.rs:98-100, src/content/accept_encoding.rs:90-92,
      src/transfer/te.rs:88-90, src/security/timing_allow_origin.rs:105-107, src/cache/cache_control/cache_control.rs:65-67,
      src/trace/server_timing/mod.rs:89-91. *)
  Definition c_push (c : container) (x : A) : container := (fst c ++ [x], snd c).
  (** src/cache/clear_site_data/mod.rs:91-93, src/conditional/if_match.rs:82-84, src/conditional/if_none_match.rs:88-90,
      src/conditional/vary.rs:78-80, src/content/accept.rs:103-105, src/content/accept_encoding.rs:95-97,
      src/transfer/te.rs:93-95, src/security/timing_allow_origin.rs:110-112. *)
  Definition c_wildcard (c : container) : bool := snd c.
  (** src/cache/clear_site_data/mod.rs:96-98, src/conditional/if_match.rs:87-89, src/conditional/if_none_match.rs:93-95,
      src/conditional/vary.rs:83-85, src/content/accept.rs:108-110, src/content/accept_encoding.rs:100-102,
      src/transfer/te.rs:98-100, src/security/timing_allow_origin.rs:115-117. *)
  Definition c_set_wildcard (c : container) (b : bool) : container := (fst c, b).

  (** [slice::Iter] and [vec::IntoIter] (std): what is still to come. *)
  Definition cursor := list A.
  (** [iter], and [into_iter] of the value and of a reference to it.  src/cache/clear_site_data/mod.rs:101-145,
      src/conditional/if_match.rs:92-96, 131-161, src/conditional/if_none_match.rs:98-102, 137-167, src/conditional/vary.rs:94-98, 138-168,
      src/content/accept.rs:150-154, 190-220, src/content/accept_encoding.rs:142-146, 183-213, src/transfer/te.rs:140-144, 181-211,
      src/security/timing_allow_origin.rs:120-124, 159-189, src/cache/cache_control/cache_control.rs:70-74, 103-133,
      src/trace/server_timing/mod.rs:94-98, 128-158. *)
  Definition c_iter (c : container) : cursor := fst c.
  (** [next] of [IntoIter] and [Iter].  src/cache/clear_site_data/mod.rs:156-158, 175-177, src/conditional/if_match.rs:172-174, 191-193,
      src/conditional/if_none_match.rs:178-180, 197-199, src/conditional/vary.rs:179-181, 198-200, src/content/accept.rs:231-233, 250-252,
      src/content/accept_encoding.rs:224-226, 243-245, src/transfer/te.rs:222-224, 241-243,
      src/security/timing_allow_origin.rs:200-202, 219-221, src/cache/cache_control/cache_control.rs:144-146, 163-165,
      src/trace/server_timing/mod.rs:169-171, 188-190. *)
  Definition it_next (it : cursor) : option A * cursor :=
    match it with [] => (None, []) | x :: r => (Some x, r) end.
  (** [size_hint].  src/cache/clear_site_data/mod.rs:161-163, 180-182, 199-201, src/conditional/if_match.rs:177-179, 196-198, 215-217,
      src/conditional/if_none_match.rs:183-185, 202-204, 221-223, src/conditional/vary.rs:184-186, 203-205, 222-224,
      src/content/accept.rs:236-238, 255-257, 274-276, src/content/accept_encoding.rs:229-231, 248-250, 267-269,
      src/transfer/te.rs:227-229, 246-248, 265-267, src/security/timing_allow_origin.rs:205-207, 224-226, 243-245,
      src/cache/cache_control/cache_control.rs:149-151, 168-170, 187-189, src/trace/server_timing/mod.rs:174-176, 193-195, 212-214. *)
  Definition it_size_hint (it : cursor) : nat * option nat := (length it, Some (length it)).
  (** [n] calls of [next]: what they return and the iterator afterwards. *)
  Fixpoint it_take (n : nat) (it : cursor) : list (option A) * cursor :=
    match n with
    | O => ([], it)
    | S n' => let (x, it') := it_next it in let (xs, it'') := it_take n' it' in (x :: xs, it'')
    end.

  (** [slice::IterMut] (std): the entries already lent, as they are now, and those to come. *)
  Definition cursor_mut := (list A * list A)%type.
  (** [iter_mut] and [into_iter] of a mutable reference.  src/cache/clear_site_data/mod.rs:108-112, 142-144,
      src/conditional/if_match.rs:99-103, 158-160, src/conditional/if_none_match.rs:105-109, 164-166, src/conditional/vary.rs:101-105, 165-167,
      src/content/accept.rs:157-161, 217-219, src/content/accept_encoding.rs:149-153, 210-212, src/transfer/te.rs:147-151, 208-210,
      src/security/timing_allow_origin.rs:127-131, 186-188, src/cache/cache_control/cache_control.rs:77-81, 130-132,
      src/trace/server_timing/mod.rs:101-105, 155-157. *)
  Definition c_iter_mut (c : container) : cursor_mut := ([], fst c).
  (** [next] of [IterMut], the caller then changing the lent entry to [f] of it.  src/cache/clear_site_data/mod.rs:194-196,
      src/conditional/if_match.rs:210-212, src/conditional/if_none_match.rs:216-218, src/conditional/vary.rs:217-219,
      src/content/accept.rs:269-271, src/content/accept_encoding.rs:262-264, src/transfer/te.rs:260-262,
      src/security/timing_allow_origin.rs:238-240, src/cache/cache_control/cache_control.rs:182-184, src/trace/server_timing/mod.rs:207-209. *)
  Definition im_next (f : A -> A) (it : cursor_mut) : cursor_mut :=
    match snd it with [] => it | x :: r => (fst it ++ [f x], r) end.
  (** A loop over [iter_mut] that changes the entries it visits and may stop early. *)
  Definition c_update (c : container) (fs : list (A -> A)) : container :=
    let it := fold_left (fun it f => im_next f it) fs (c_iter_mut c) in (fst it ++ snd it, snd c).

  (** The calls that change a container. *)
  Inductive op : Type := Push (x : A) | SetWildcard (b : bool) | Update (fs : list (A -> A)).
  Definition do_op (c : container) (o : op) : container :=
    match o with Push x => c_push c x | SetWildcard b => c_set_wildcard c b | Update fs => c_update c fs end.
  Definition run (ops : list op) : container := fold_left do_op ops c_new.
End Container.
Arguments container : clear implicits.
Arguments op : clear implicits.
Arguments cursor : clear implicits.

(** ** server/allow.rs as a value *)
(** src/server/allow.rs:45-49 *)
Definition allow_new : list method := [].
(** src/server/allow.rs:70-72 *)
Definition allow_insert (s : list method) (m : method) : list method := set_insert m s.
(** src/server/allow.rs:82-84 *)
Definition allow_contains (s : list method) (m : method) : bool := existsb (method_eqb m) s.
(** [iter] and [into_iter]: the set in some order; [next] and [size_hint] are those of the hash set's iterators.
    src/server/allow.rs:75-79, 105-144, 152-163. *)
Definition allow_iter (order : list method) : cursor method := order.

(** ** sorting and negotiating change the container *)
(** src/content/accept_encoding.rs:109-111, src/transfer/te.rs:107-109. *)
Definition c_sort (a : container proposal) : container proposal := (sort_by_weight p_weight (fst a), snd a).
(** src/content/accept_encoding.rs:118-139, src/transfer/te.rs:116-137: the answer, and [self] afterwards. *)
Definition negotiate_mut (a : container proposal) (available : list coding) : outcome coding * container proposal :=
  (negotiate a available, c_sort a).
(** src/content/accept.rs:117-119 *)
Definition m_sort (a : container media_proposal) : container media_proposal := (sort_by_weight mp_weight (fst a), snd a).
(** src/content/accept.rs:126-147 *)
Definition media_negotiate_mut (a : container media_proposal) (available : list mime) : outcome mime * container media_proposal :=
  (media_negotiate a available, m_sort a).
(** Several negotiations in a row on the same value: the answers. *)
Fixpoint answers {A M R : Type} (step : A -> M -> R * A) (a : A) (calls : list M) : list R :=
  match calls with
  | [] => []
  | av :: calls' => let (r, a') := step a av in r :: answers step a' calls'
  end.
