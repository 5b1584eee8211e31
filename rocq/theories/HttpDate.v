(** Model of src/utils/date.rs: HTTP dates. *)
From Verif Require Import Base.

(** src/utils/date.rs:8-8 *)
Definition IMF_FIXDATE_LENGTH : nat := 29.
(** src/utils/date.rs:9. *)
Definition RFC850_MAX_LENGTH : nat := 23.
(** src/utils/date.rs:10. *)
Definition ASCTIME_LENGTH : nat := 24.
(** src/utils/date.rs:12. *)
Definition YEAR_9999_SECONDS : Z := 253402300800.
(** src/utils/date.rs:13. *)
Definition SECONDS_IN_DAY : Z := 86400.
(** src/utils/date.rs:14. *)
Definition SECONDS_IN_HOUR : Z := 3600.

(** [std::time::SystemTime]: nanoseconds relative to [UNIX_EPOCH], unbounded.
    Simplification: the platform's own range limit of SystemTime is not modelled. *)
Definition systime := Z.
(** Nanoseconds in a second (std). *)
Definition NANOS : Z := 1000000000.

(** src/utils/date.rs:20-35; fields are u8/u16 values. *)
Record http_date := mkDate {
  second : N; minute : N; hour : N; day : N; month : N; year : N; week_day : N
}.

(** src/utils/date.rs:57-69 *)
Definition is_valid (d : http_date) : bool :=
  (second d <? 60) && (minute d <? 60) && (hour d <? 24)
  && (0 <? day d) && (day d <? 32)
  && (0 <? month d) && (month d <=? 12)
  && (1970 <=? year d) && (year d <=? 9999)
  && (1 <=? week_day d) && (week_day d <? 8).

(** Byte slicing [&s[a..b]] and indexing [s[i]]: out of range is a panic. *)
Definition slice (s : str) (a b : nat) : outcome str :=
  if (a <=? b)%nat && (b <=? length s)%nat then Ok (firstn (b - a) (skipn a s)) else Panic.
(** Byte slicing [&s[a..]] (std). *)
Definition slice_from (s : str) (a : nat) : outcome str := slice s a (length s).
(** Indexing [s[i]] (std). *)
Definition byte_at (s : str) (i : nat) : outcome N := unwrap (nth_error s i).

(** [from_utf8(&s[a..b])?.parse::<uN>()?]; the input is ASCII (checked at src/utils/date.rs:335), so
    [from_utf8] succeeds.  Errors convert into status 500 (src/error.rs:200-204). *)
Definition num_at (max : N) (s : str) (a b : nat) : outcome N :=
  let* t := slice s a b in ok_or 500 (parse_uint 10 max t).

(** A [match] of a byte slice against a table of byte string literals. *)
Fixpoint lookup_str (t : list (str * N)) (s : str) : option N :=
  match t with
  | [] => None
  | (k, v) :: t' => if seqb s k then Some v else lookup_str t' s
  end.

(** src/utils/date.rs:87-101 *)
Definition imf_months : list (str * N) :=
  [(lit " Jan ", 1); (lit " Feb ", 2); (lit " Mar ", 3); (lit " Apr ", 4); (lit " May ", 5);
   (lit " Jun ", 6); (lit " Jul ", 7); (lit " Aug ", 8); (lit " Sep ", 9); (lit " Oct ", 10);
   (lit " Nov ", 11); (lit " Dec ", 12)].
(** src/utils/date.rs:103-112 *)
Definition imf_days : list (str * N) :=
  [(lit "Mon, ", 1); (lit "Tue, ", 2); (lit "Wed, ", 3); (lit "Thu, ", 4); (lit "Fri, ", 5);
   (lit "Sat, ", 6); (lit "Sun, ", 7)].

(** Short-circuiting [||] of conditions that may panic. *)
Definition or_else_cond (a : outcome bool) (b : outcome bool) : outcome bool :=
  let* x := a in if x then Ok true else b.

(** The test [&s[a..b] != k] of src/utils/date.rs:73-79, 140-142, 174-180. *)
Definition neq_slice (s : str) (a b : nat) (k : str) : outcome bool :=
  let* t := slice s a b in Ok (negb (seqb t k)).
(** The test [s[i] != c] of src/utils/date.rs:73-79, 140-142, 174-180. *)
Definition neq_byte (s : str) (i : nat) (c : N) : outcome bool :=
  let* b := byte_at s i in Ok (negb (b =? c)).

(** src/utils/date.rs:72-114 *)
Definition parse_imf_fixdate (s : str) : outcome http_date :=
  let* bad :=
    or_else_cond (Ok (negb (Nat.eqb (length s) IMF_FIXDATE_LENGTH)))
    (or_else_cond (neq_slice s 25 (length s) (lit " GMT"))
    (or_else_cond (neq_byte s 16 32)
    (or_else_cond (neq_byte s 19 58) (neq_byte s 22 58)))) in
  if bad then Err 500 else
  let* sec := num_at u8_max s 23 25 in
  let* min := num_at u8_max s 20 22 in
  let* h := num_at u8_max s 17 19 in
  let* d := num_at u8_max s 5 7 in
  let* ms := slice s 7 12 in
  let* m := ok_or 500 (lookup_str imf_months ms) in
  let* y := num_at u16_max s 12 16 in
  let* ws := slice s 0 5 in
  let* w := ok_or 500 (lookup_str imf_days ws) in
  Ok (mkDate sec min h d m y w).

(** src/utils/date.rs:123-128 *)
Definition rfc850_week_day (s : str) (w : N) (name : str) : outcome (option (N * str)) :=
  let* t := slice s 0 (length name) in
  if seqb t name then
    let* r := slice_from s (length name) in Ok (Some (w, r))
  else Ok None.

(** The [or_else] chain of src/utils/date.rs:129-136. *)
Fixpoint rfc850_chain (s : str) (t : list (str * N)) : outcome (N * str) :=
  match t with
  | [] => Err 500
  | (name, w) :: t' =>
      let* r := rfc850_week_day s w name in
      match r with Some x => Ok x | None => rfc850_chain s t' end
  end.
(** src/utils/date.rs:129-135, the names. *)
Definition rfc850_days : list (str * N) :=
  [(lit "Monday, ", 1); (lit "Tuesday, ", 2); (lit "Wednesday, ", 3); (lit "Thursday, ", 4);
   (lit "Friday, ", 5); (lit "Saturday, ", 6); (lit "Sunday, ", 7)].
(** src/utils/date.rs:151-165 *)
Definition rfc850_months : list (str * N) :=
  [(lit "-Jan-", 1); (lit "-Feb-", 2); (lit "-Mar-", 3); (lit "-Apr-", 4); (lit "-May-", 5);
   (lit "-Jun-", 6); (lit "-Jul-", 7); (lit "-Aug-", 8); (lit "-Sep-", 9); (lit "-Oct-", 10);
   (lit "-Nov-", 11); (lit "-Dec-", 12)].

(** src/utils/date.rs:116-169.  [year += 1900/2000] cannot overflow u16 for a two byte numeral
    (at most 99), see [num_at]; the addition is on unbounded [N]. *)
Definition parse_rfc850_date (s : str) : outcome http_date :=
  if negb (RFC850_MAX_LENGTH <=? length s)%nat then Err 500 else
  let* (w, s) := rfc850_chain s rfc850_days in
  let* bad :=
    or_else_cond (Ok (negb (Nat.eqb (length s) 22)))
    (or_else_cond (neq_byte s 12 58)
    (or_else_cond (neq_byte s 15 58) (neq_slice s 18 22 (lit " GMT")))) in
  if bad then Err 500 else
  let* y0 := num_at u16_max s 7 9 in
  let y := if y0 <? 70 then y0 + 2000 else y0 + 1900 in
  let* sec := num_at u8_max s 16 18 in
  let* min := num_at u8_max s 13 15 in
  let* h := num_at u8_max s 10 12 in
  let* d := num_at u8_max s 0 2 in
  let* ms := slice s 2 7 in
  let* m := ok_or 500 (lookup_str rfc850_months ms) in
  Ok (mkDate sec min h d m y w).

(** src/utils/date.rs:185-199 and 201-210 *)
Definition asctime_months : list (str * N) :=
  [(lit "Jan ", 1); (lit "Feb ", 2); (lit "Mar ", 3); (lit "Apr ", 4); (lit "May ", 5);
   (lit "Jun ", 6); (lit "Jul ", 7); (lit "Aug ", 8); (lit "Sep ", 9); (lit "Oct ", 10);
   (lit "Nov ", 11); (lit "Dec ", 12)].
(** src/utils/date.rs:201-210. *)
Definition asctime_days : list (str * N) :=
  [(lit "Mon ", 1); (lit "Tue ", 2); (lit "Wed ", 3); (lit "Thu ", 4); (lit "Fri ", 5);
   (lit "Sat ", 6); (lit "Sun ", 7)].

(** src/utils/date.rs:171-212 *)
Definition parse_asctime (s : str) : outcome http_date :=
  let* bad :=
    or_else_cond (Ok (negb (Nat.eqb (length s) ASCTIME_LENGTH)))
    (or_else_cond (neq_byte s 10 32)
    (or_else_cond (neq_byte s 13 58)
    (or_else_cond (neq_byte s 16 58) (neq_byte s 19 32)))) in
  if bad then Err 500 else
  let* sec := num_at u8_max s 17 19 in
  let* min := num_at u8_max s 14 16 in
  let* h := num_at u8_max s 11 13 in
  let* x := slice s 8 10 in
  let* x0 := byte_at x 0 in
  let* x' := if x0 =? 32 then slice x 1 2 else Ok x in
  let* d := ok_or 500 (parse_uint 10 u8_max x') in
  let* ms := slice s 4 8 in
  let* m := ok_or 500 (lookup_str asctime_months ms) in
  let* y := num_at u16_max s 20 24 in
  let* ws := slice s 0 4 in
  let* w := ok_or 500 (lookup_str asctime_days ws) in
  Ok (mkDate sec min h d m y w).

(** [Result::or_else] *)
Definition or_else {A} (a b : outcome A) : outcome A :=
  match a with Err _ => b | other => other end.

(** src/utils/date.rs:331-343 *)
Definition date_from_str (s : str) : outcome http_date :=
  if negb (is_ascii s) then Err 500 else
  let x := trim s in
  let* d := or_else (or_else (parse_imf_fixdate x) (parse_rfc850_date x)) (parse_asctime x) in
  if is_valid d then Ok d else Err 500.

(** src/utils/date.rs:263-271: the [for] loop over month lengths starting in March. *)
Fixpoint month_loop (months : list Z) (month remdays : Z) : Z * Z :=
  match months with
  | [] => (month, remdays)
  | len :: ms => let month := (month + 1)%Z in
                 if (remdays <? len)%Z then (month, remdays) else month_loop ms month (remdays - len)%Z
  end.
(** src/utils/date.rs:263. *)
Definition march_months : list Z := [31; 30; 31; 30; 31; 31; 30; 31; 30; 31; 31; 29]%Z.

(** [as u8], src/utils/date.rs:285-294. *)
Definition as_u8 (z : Z) : N := Z.to_N (z mod 256).
(** [as u16], src/utils/date.rs:292. *)
Definition as_u16 (z : Z) : N := Z.to_N (z mod 65536).

(** src/utils/date.rs:226-283: date of a day number (days since 1970-01-01 minus LEAPOCH).
    [/] and [%] on i64 truncate towards zero: [Z.quot], [Z.rem]. Returns (year, month, mday, week_day). *)
Definition LEAPOCH : Z := 11017.
(** src/utils/date.rs:228. *)
Definition DAYS_PER_400Y : Z := 365 * 400 + 97.
(** src/utils/date.rs:229. *)
Definition DAYS_PER_100Y : Z := 365 * 100 + 24.
(** src/utils/date.rs:230. *)
Definition DAYS_PER_4Y : Z := 365 * 4 + 1.
(** src/utils/date.rs:243-274. *)
Definition civil_of_remdays (remdays : Z) : Z * Z * Z :=
  (let c_cycles := Z.quot remdays DAYS_PER_100Y in
  let c_cycles := if c_cycles =? 4 then c_cycles - 1 else c_cycles in
  let remdays := remdays - c_cycles * DAYS_PER_100Y in
  let q_cycles := Z.quot remdays DAYS_PER_4Y in
  let q_cycles := if q_cycles =? 25 then q_cycles - 1 else q_cycles in
  let remdays := remdays - q_cycles * DAYS_PER_4Y in
  let remyears := Z.quot remdays 365 in
  let remyears := if remyears =? 4 then remyears - 1 else remyears in
  let remdays := remdays - remyears * 365 in
  let year := remyears + 4 * q_cycles + 100 * c_cycles in
  let '(month, remdays) := month_loop march_months 0 remdays in
  let mday := remdays + 1 in
  if month + 2 >? 12 then (year + 1, month - 10, mday) else (year, month + 2, mday))%Z.

(** src/utils/date.rs:226-283. *)
Definition civil_of_days (days : Z) : Z * Z * Z * Z :=
  (let qc_cycles := Z.quot days DAYS_PER_400Y in
  let remdays := Z.rem days DAYS_PER_400Y in
  let '(qc_cycles, remdays) :=
    if remdays <? 0 then (qc_cycles - 1, remdays + DAYS_PER_400Y) else (qc_cycles, remdays) in
  let '(y, m, d) := civil_of_remdays remdays in
  let year := 2000 + y + 400 * qc_cycles in
  let week_day := Z.rem (3 + days) 7 in
  let week_day := if week_day <=? 0 then week_day + 7 else week_day in
  (year, m, d, week_day))%Z.

(** src/utils/date.rs:214-295.  The order of the additions making up [year] is regrouped. *)
Definition date_of_systime (t : systime) : outcome http_date :=
  if (t <? 0)%Z then Panic else
  let secs := (t / NANOS)%Z in
  if negb (secs <? YEAR_9999_SECONDS)%Z then Panic else
  let days := (secs / SECONDS_IN_DAY - LEAPOCH)%Z in
  let secs_of_day := (secs mod SECONDS_IN_DAY)%Z in
  let '(y, m, d, w) := civil_of_days days in
  Ok (mkDate (as_u8 (secs_of_day mod 60)) (as_u8 ((secs_of_day mod SECONDS_IN_HOUR) / 60))
             (as_u8 (secs_of_day / SECONDS_IN_HOUR)) (as_u8 d) (as_u8 m) (as_u16 y) (as_u8 w)).

(** src/utils/date.rs:412-414 *)
Definition is_leap_year (y : N) : bool :=
  (y mod 4 =? 0) && (negb (y mod 100 =? 0) || (y mod 400 =? 0)).

(** Unsigned subtraction with overflow check (debug builds panic). *)
Definition usub (a b : N) : outcome N := if a <? b then Panic else Ok (a - b).

(** src/utils/date.rs:301-314 *)
Definition month_ydays (m : N) : outcome N :=
  match m with
  | 1 => Ok 0 | 2 => Ok 31 | 3 => Ok 59 | 4 => Ok 90 | 5 => Ok 120 | 6 => Ok 151
  | 7 => Ok 181 | 8 => Ok 212 | 9 => Ok 243 | 10 => Ok 273 | 11 => Ok 304 | 12 => Ok 334
  | _ => Panic
  end.

(** src/utils/date.rs:297-329.  The u64 sums cannot overflow for u8/u16 fields and are unbounded here. *)
Definition systime_of_date (d : http_date) : outcome systime :=
  let* y1 := usub (year d) 1 in
  let* a := usub y1 1968 in
  let* b := usub y1 1900 in
  let* c := usub y1 1600 in
  let* ab := usub (a / 4) (b / 100) in
  let leap_years := ab + c / 400 in
  let* base := month_ydays (month d) in
  let* ydays := usub (base + day d) 1 in
  let ydays := if is_leap_year (year d) && (2 <? month d) then ydays + 1 else ydays in
  let* yy := usub (year d) 1970 in
  let days := yy * 365 + leap_years + ydays in
  Ok (Z.of_N (second d + minute d * 60 + hour d * 3600 + days * 86400) * NANOS)%Z.

(** src/utils/date.rs:347-371; out of range is [unreachable!()]. *)
Definition week_day_name (w : N) : outcome str :=
  match w with
  | 1 => Ok (lit "Mon") | 2 => Ok (lit "Tue") | 3 => Ok (lit "Wed") | 4 => Ok (lit "Thu")
  | 5 => Ok (lit "Fri") | 6 => Ok (lit "Sat") | 7 => Ok (lit "Sun") | _ => Panic
  end.
(** src/utils/date.rs:357-371. *)
Definition month_name (m : N) : outcome str :=
  match m with
  | 1 => Ok (lit "Jan") | 2 => Ok (lit "Feb") | 3 => Ok (lit "Mar") | 4 => Ok (lit "Apr")
  | 5 => Ok (lit "May") | 6 => Ok (lit "Jun") | 7 => Ok (lit "Jul") | 8 => Ok (lit "Aug")
  | 9 => Ok (lit "Sep") | 10 => Ok (lit "Oct") | 11 => Ok (lit "Nov") | 12 => Ok (lit "Dec")
  | _ => Panic
  end.

(** src/utils/date.rs:345-398: the 29 byte buffer; the additions [b'0' + x as u8] wrap in the model
    nowhere because the digits are small (proved for the dates that occur). *)
Definition two_digits (n : N) : str := [48 + n / 10; 48 + n mod 10].
(** src/utils/date.rs:380-386, the year. *)
Definition four_digits (n : N) : str :=
  [48 + n / 1000; 48 + n / 100 mod 10; 48 + n / 10 mod 10; 48 + n mod 10].
(** src/utils/date.rs:345-398. *)
Definition fmt_date (d : http_date) : outcome str :=
  let* w := week_day_name (week_day d) in
  let* m := month_name (month d) in
  Ok (w ++ lit ", " ++ two_digits (day d) ++ lit " " ++ m ++ lit " " ++ four_digits (year d)
      ++ lit " " ++ two_digits (hour d) ++ lit ":" ++ two_digits (minute d) ++ lit ":"
      ++ two_digits (second d) ++ lit " GMT").

(** src/utils/date.rs:42-47 *)
Definition parse_http_date (s : str) : outcome systime :=
  with_status 400 (let* d := date_from_str s in systime_of_date d).

(** src/utils/date.rs:52-54 *)
Definition fmt_http_date (t : systime) : outcome str :=
  let* d := date_of_systime t in fmt_date d.
