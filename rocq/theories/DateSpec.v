(** Specification of the calendar, independent of the code: days are counted one by one from
    Thursday 1 January 1970 in the proleptic Gregorian calendar. *)
From Verif Require Import Base.
Open Scope Z_scope.

Record cdate := mkC { c_year : Z; c_month : Z; c_day : Z; c_wd : Z (* 1 = Monday .. 7 = Sunday *) }.

Definition leap (y : Z) : bool := (y mod 4 =? 0) && (negb (y mod 100 =? 0) || (y mod 400 =? 0)).

Definition month_len (y m : Z) : Z :=
  if m =? 2 then (if leap y then 29 else 28)
  else if (m =? 4) || (m =? 6) || (m =? 9) || (m =? 11) then 30 else 31.

Definition next_day (c : cdate) : cdate :=
  let w := if c_wd c =? 7 then 1 else c_wd c + 1 in
  if c_day c <? month_len (c_year c) (c_month c) then mkC (c_year c) (c_month c) (c_day c + 1) w
  else if c_month c <? 12 then mkC (c_year c) (c_month c + 1) 1 w
  else mkC (c_year c + 1) 1 1 w.

Definition epoch_day : cdate := mkC 1970 1 1 4.

(** The calendar date [n] days after the epoch. *)
Definition day_at (n : nat) : cdate := Nat.iter n next_day epoch_day.

(** A calendar date that exists (weekday not considered). *)
Definition real_date (y m d : Z) : Prop := 1 <= m <= 12 /\ 1 <= d <= month_len y m.

(** ** Date texts of RFC 7231, section 7.1.1.1 *)
Definition day_names : list str :=
  [lit "Mon"; lit "Tue"; lit "Wed"; lit "Thu"; lit "Fri"; lit "Sat"; lit "Sun"].
Definition long_day_names : list str :=
  [lit "Monday"; lit "Tuesday"; lit "Wednesday"; lit "Thursday"; lit "Friday"; lit "Saturday"; lit "Sunday"].
Definition month_names : list str :=
  [lit "Jan"; lit "Feb"; lit "Mar"; lit "Apr"; lit "May"; lit "Jun"; lit "Jul"; lit "Aug"; lit "Sep";
   lit "Oct"; lit "Nov"; lit "Dec"].
Definition name (l : list str) (i : Z) : str := nth (Z.to_nat (i - 1)) l [].

(** Decimal, zero padded to [w] characters. *)
Definition num (w : nat) (n : Z) : str := pad_left w 48%N (show_dec (Z.to_N n)).
(** Space padded day of asctime. *)
Definition num_sp (n : Z) : str := pad_left 2 32%N (show_dec (Z.to_N n)).

Definition time_text (secs : Z) : str :=
  num 2 (secs / 3600) ++ lit ":" ++ num 2 (secs mod 3600 / 60) ++ lit ":" ++ num 2 (secs mod 60).

(** IMF-fixdate, e.g. [Sun, 06 Nov 1994 08:49:37 GMT]; [secs] is the second of the day. *)
Definition imf_text (c : cdate) (secs : Z) : str :=
  name day_names (c_wd c) ++ lit ", " ++ num 2 (c_day c) ++ lit " " ++ name month_names (c_month c) ++ lit " "
  ++ num 4 (c_year c) ++ lit " " ++ time_text secs ++ lit " GMT".
(** RFC 850, e.g. [Sunday, 06-Nov-94 08:49:37 GMT]. *)
Definition rfc850_text (c : cdate) (secs : Z) : str :=
  name long_day_names (c_wd c) ++ lit ", " ++ num 2 (c_day c) ++ lit "-" ++ name month_names (c_month c) ++ lit "-"
  ++ num 2 (c_year c mod 100) ++ lit " " ++ time_text secs ++ lit " GMT".
(** asctime, e.g. [Sun Nov  6 08:49:37 1994]. *)
Definition asctime_text (c : cdate) (secs : Z) : str :=
  name day_names (c_wd c) ++ lit " " ++ name month_names (c_month c) ++ lit " " ++ num_sp (c_day c) ++ lit " "
  ++ time_text secs ++ lit " " ++ num 4 (c_year c).
