(** Values that are relative to the clock: cache/expires.rs, other/{date,retry_after}.rs, and the other instants
    and lengths that typed headers are made from.  The clock is an argument: every read of [SystemTime::now()]
    is the argument [now]. *)
From Verif Require Import Base HttpDate Cache Other.
Local Open Scope Z_scope.

(** [Duration] as nanoseconds (std). *)
Definition span (d : duration) : Z := Z.of_N (secs d) * NANOS + Z.of_N (nanos d).
(** The [Duration] of that many nanoseconds (std); used for lengths that are not negative. *)
Definition of_span (n : Z) : duration := Dur (Z.to_N (n / NANOS)) (Z.to_N (n mod NANOS)).

Section Clock.
  (** The last instant a [SystemTime] can hold.  The platform decides: on Unix it is [unix_latest] below. *)
  Context (latest : Z).

  (** [SystemTime + Duration] (std): panics when the sum cannot be held. *)
  Definition instant_add (t : systime) (d : duration) : outcome systime :=
    if t + span d <=? latest then Ok (t + span d) else Panic.
  (** [SystemTime::duration_since] (std): how far [a] is after [b], or the error that holds how far it is before. *)
  Definition instant_since (a b : systime) : duration + duration :=
    if b <=? a then inl (of_span (a - b)) else inr (of_span (b - a)).

  (** src/other/retry_after.rs:83-86, src/other/retry_after.rs:107-114: the instant the value stands for. *)
  Definition retry_instant (now : systime) (r : retry) : outcome systime :=
    match r with After d => instant_add now d | At t => Ok t end.
  (** src/other/retry_after.rs:82-89 *)
  Definition retry_since (now : systime) (r : retry) (earlier : systime) : outcome (duration + duration) :=
    let* t := retry_instant now r in Ok (instant_since t earlier).
  (** src/cache/expires.rs:43-46 *)
  Definition expires_new (now : systime) (d : duration) : outcome systime := instant_add now d.
End Clock.

(** [SystemTime] on Unix (std): seconds are an i64. *)
Definition unix_latest : Z := (2 ^ 63 - 1) * NANOS + 999999999.

(** Derived [Ord] of [Duration] (std). *)
Definition duration_cmp (a b : duration) : comparison :=
  match N.compare (secs a) (secs b) with Eq => N.compare (nanos a) (nanos b) | o => o end.
(** The derived [Ord] of src/other/retry_after.rs:35, src/other/retry_after.rs:120: first by the kind of value. *)
Definition retry_cmp (a b : retry) : comparison :=
  match a, b with
  | After d, After e => duration_cmp d e
  | After _, At _ => Lt
  | At _, After _ => Gt
  | At t, At u => Z.compare t u
  end.
(** src/other/date.rs:102-106 *)
Definition date_eqb (d : systime) (t : systime) : bool := d =? t.
(** src/utils/date.rs:400-404: both dates are converted to instants. *)
Definition http_date_eqb (a b : http_date) : outcome bool :=
  let* x := systime_of_date a in let* y := systime_of_date b in Ok (x =? y).
(** src/utils/date.rs:406-410 *)
Definition http_date_cmp (a b : http_date) : outcome comparison :=
  let* x := systime_of_date a in let* y := systime_of_date b in Ok (Z.compare x y).
