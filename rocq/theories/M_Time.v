(** Model of /repo/src/utils/time.rs and of the parts of the crate [chrono] (0.4.19,
    /repo/Cargo.toml:34) that it calls.  The crate is not part of /repo; its documented
    behaviour is written down as concrete functions. *)
From stdpp Require Import pretty.
From Verif Require Export M_Base M_Headers.
Local Open Scope Z_scope.

(* [std::time::SystemTime], the argument of [to_rfc3339], /repo/src/utils/time.rs:17: whole
   seconds since 1970-01-01T00:00:00Z (negative before) and nanoseconds below 10^9. *)
Record sys_time := SysTime { st_secs : Z; st_nanos : N }.

(** ** The calendar of [chrono] *)

(* Leap years, [YearFlags], used by [DateTime::from], /repo/src/utils/time.rs:18. *)
Definition leap (y : Z) : bool := (y mod 4 =? 0) && (negb (y mod 100 =? 0) || (y mod 400 =? 0)).

(* Month lengths, [Mdf]/[Of], used by [DateTime::from], /repo/src/utils/time.rs:18. *)
Definition month_lengths (l : bool) : list Z :=
  [31; if l then 29 else 28; 31; 30; 31; 30; 31; 31; 30; 31; 30; 31].

(* [YEAR_DELTAS]: the leap days before a year of the 400-year cycle, used by
   [DateTime::from], /repo/src/utils/time.rs:18.  The table is given by its formula. *)
Definition year_delta (y : Z) : Z := (y + 3) / 4 - (y + 99) / 100 + (y + 399) / 400.

(* [internals::cycle_to_yo]: year in the cycle and day of the year from one, used by
   [DateTime::from], /repo/src/utils/time.rs:18. *)
Definition cycle_to_yo (cycle : Z) : Z * Z :=
  let y := cycle / 365 in
  let o := cycle mod 365 in
  if o <? year_delta y then (y - 1, o + (365 - year_delta (y - 1)) + 1)
  else (y, o - year_delta y + 1).

(* Month and day of a day of the year ([Of::to_mdf]), used by [DateTime::from],
   /repo/src/utils/time.rs:18.  The crate's table is replaced by a walk along the months. *)
Fixpoint month_day (m o : Z) (lens : list Z) : Z * Z :=
  match lens with
  | [] => (m, o)
  | len :: lens' => if o <=? len then (m, o) else month_day (m + 1) (o - len) lens'
  end.

(* [NaiveDate]: year, month and day, used by [DateTime::from], /repo/src/utils/time.rs:18. *)
Definition date : Type := (Z * Z * Z)%type.

(* [NaiveDate::from_num_days_from_ce_opt] for days since 1970-01-01, used by
   [DateTime::from], /repo/src/utils/time.rs:18.  The range of the crate (about 262000 years
   either way) is not modelled. *)
Definition date_of_days (days : Z) : date :=
  let n := days + 719163 + 365 in
  let '(y, o) := cycle_to_yo (n mod 146097) in
  let '(m, d) := month_day 1 o (month_lengths (leap y)) in
  (n / 146097 * 400 + y, m, d).

(* Days before a month in its year, [Mdf::to_of], used by [parse_from_rfc3339],
   /repo/src/utils/time.rs:24. *)
Definition days_before (l : bool) (m : Z) : Z :=
  fold_right Z.add 0 (take (Z.to_nat (m - 1)) (month_lengths l)).

(* [NaiveDate::num_days_from_ce] relative to 1970-01-01, used by [parse_from_rfc3339],
   /repo/src/utils/time.rs:24. *)
Definition days_of_date (x : date) : Z :=
  let '(y, m, d) := x in
  let y0 := y - 1 in
  let excess := if y0 <? 0 then 1 + (- y0) / 400 else 0 in
  let y1 := y0 + excess * 400 in
  - excess * 146097 + y1 * 1461 / 4 - y1 / 100 + y1 / 100 / 4 + (days_before (leap y) m + d) - 719163.

(* [NaiveDate::from_ymd_opt], used by [parse_from_rfc3339], /repo/src/utils/time.rs:24. *)
Definition date_ok (x : date) : bool :=
  let '(y, m, d) := x in
  (1 <=? m) && (m <=? 12) && (1 <=? d) &&
  match month_lengths (leap y) !! Z.to_nat (m - 1) with Some len => d <=? len | None => false end.

(** ** [to_rfc3339] *)

(* Two digits, [{:02}] for numbers below a hundred, used by [to_rfc3339],
   /repo/src/utils/time.rs:19. *)
Definition z2 (n : Z) : bytes := pad2 (Z.to_N n).

(* Year as printed by [Debug] of [NaiveDate] ([{:04}], or with a sign and at least four digits
   outside 0..9999), used by [to_rfc3339], /repo/src/utils/time.rs:19. *)
Definition show_year (y : Z) : bytes :=
  if (0 <=? y) && (y <=? 9999) then pad4 (Z.to_N y)
  else let ds := B (pretty (Z.to_N (Z.abs y))) in
       (if y <? 0 then B "-" else B "+") ++ replicate (4 - length ds) "0"%char ++ ds.

(* [n] decimal digits of a number, [{:03}], [{:06}], [{:09}], used by [to_rfc3339],
   /repo/src/utils/time.rs:19. *)
Fixpoint pad (k : nat) (n : N) : bytes :=
  match k with
  | O => []
  | S k' => pad k' (n / 10) ++ [dig (n mod 10)]
  end.

(* Fraction of a second as printed by [Debug] of [NaiveTime], used by [to_rfc3339],
   /repo/src/utils/time.rs:19. *)
Definition show_nanos (n : N) : bytes :=
  if (n =? 0)%N then []
  else if (n mod 1000000 =? 0)%N then B "." ++ pad 3 (n / 1000000)
  else if (n mod 1000 =? 0)%N then B "." ++ pad 6 (n / 1000)
  else B "." ++ pad 9 n.

(* [write_local_minus_utc] with a colon and without [Z], used by [to_rfc3339],
   /repo/src/utils/time.rs:19: seconds of the offset are dropped. *)
Definition show_offset (off : Z) : bytes :=
  (if off <? 0 then B "-" else B "+") ++ z2 (Z.abs off / 3600) ++ B ":" ++ z2 (Z.abs off / 60 mod 60).

(* [{:?}] of [NaiveTime] without the fraction ([%T]), used by [to_rfc3339] and the format
   string, /repo/src/utils/time.rs:14,19. *)
Definition show_clock (sod : Z) : bytes :=
  z2 (sod / 3600) ++ B ":" ++ z2 (sod / 60 mod 60) ++ B ":" ++ z2 (sod mod 60).

(* [to_rfc3339], /repo/src/utils/time.rs:17-20; [off] is the offset of the local time zone
   from UTC at that time, in seconds. *)
Definition to_rfc3339 (off : Z) (t : sys_time) : bytes :=
  let local := st_secs t + off in
  let '(y, m, d) := date_of_days (local / 86400) in
  show_year y ++ B "-" ++ z2 m ++ B "-" ++ z2 d ++ B "T" ++ show_clock (local mod 86400) ++
  show_nanos (st_nanos t) ++ show_offset off.

(** ** [parse_from_rfc3339] *)

(* [scan::number] of exactly [n] digits, used by [parse_from_rfc3339],
   /repo/src/utils/time.rs:24. *)
Definition scan_number (n : nat) (s : bytes) : option (Z * bytes) :=
  match take_n n s with
  | Some (ds, s') => if forallb is_digit ds then Some (Z.of_N (dec_val ds), s') else None
  | None => None
  end.

(* [scan::nanosecond]: one or more digits; the value does not matter for what is printed,
   used by [parse_from_rfc3339], /repo/src/utils/time.rs:24. *)
Definition scan_fraction (s : bytes) : option bytes :=
  match s with
  | "."%char :: s' => match span is_digit s' with ([], _) => None | (_, rest) => Some rest end
  | _ => Some s
  end.

(* [scan::timezone_offset_zulu], used by [parse_from_rfc3339], /repo/src/utils/time.rs:24. *)
Definition scan_offset (s : bytes) : option (Z * bytes) :=
  match s with
  | "z"%char :: s' | "Z"%char :: s' => Some (0, s')
  | c :: s1 =>
      if aeq c "+" || aeq c "-" then
        match scan_number 2 s1 with None => None | Some (hh, s2) =>
        match strip_prefix (B ":") s2 with None => None | Some s3 =>
        match scan_number 2 s3 with None => None | Some (mi, s4) =>
        if mi <=? 59 then Some ((if aeq c "-" then -1 else 1) * (hh * 3600 + mi * 60), s4) else None
        end end end
      else None
  | [] => None
  end.

(* [T] or [t] between date and time, used by [parse_from_rfc3339],
   /repo/src/utils/time.rs:24. *)
Definition scan_t (s : bytes) : option bytes :=
  match s with "T"%char :: s' | "t"%char :: s' => Some s' | _ => None end.

(* [DateTime::parse_from_rfc3339] followed by the conversion to UTC, /repo/src/utils/time.rs:24:
   seconds since 1970, and whether it is a leap second (written 60). *)
Definition parse_rfc3339 (s : bytes) : option (Z * bool) :=
  match scan_number 4 s with None => None | Some (y, s) =>
  match strip_prefix (B "-") s with None => None | Some s =>
  match scan_number 2 s with None => None | Some (m, s) =>
  match strip_prefix (B "-") s with None => None | Some s =>
  match scan_number 2 s with None => None | Some (d, s) =>
  match scan_t s with None => None | Some s =>
  match scan_number 2 s with None => None | Some (hh, s) =>
  match strip_prefix (B ":") s with None => None | Some s =>
  match scan_number 2 s with None => None | Some (mi, s) =>
  match strip_prefix (B ":") s with None => None | Some s =>
  match scan_number 2 s with None => None | Some (ss, s) =>
  match scan_fraction s with None => None | Some s =>
  match scan_offset s with None => None | Some (off, s) =>
  match s with
  | _ :: _ => None
  | [] =>
      if date_ok (y, m, d) && (hh <=? 23) && (mi <=? 59) && (ss <=? 60) && (-86400 <? off) && (off <? 86400)
      then Some (days_of_date (y, m, d) * 86400 + hh * 3600 + mi * 60 + Z.min ss 59 - off, ss =? 60)
      else None
  end end end end end end end end end end end end end end.

(* Names of the days of the week ([%a]), /repo/src/utils/time.rs:14. *)
Definition day_names : list bytes := [B "Mon"; B "Tue"; B "Wed"; B "Thu"; B "Fri"; B "Sat"; B "Sun"].

(* Names of the months ([%b]), /repo/src/utils/time.rs:14. *)
Definition month_names : list bytes :=
  [B "Jan"; B "Feb"; B "Mar"; B "Apr"; B "May"; B "Jun"; B "Jul"; B "Aug"; B "Sep"; B "Oct"; B "Nov"; B "Dec"].

(* [format(LAST_MODIFIED_TIME_FORMAT)], /repo/src/utils/time.rs:14,25; 1970-01-01 was a
   Thursday.  A leap second is shown as second 60. *)
Definition show_last_modified (secs : Z) (is_leap : bool) : bytes :=
  let days := secs / 86400 in
  let sod := secs mod 86400 in
  let '(y, m, d) := date_of_days days in
  default [] (day_names !! Z.to_nat ((days + 3) mod 7)) ++ B ", " ++ z2 d ++ B " " ++
  default [] (month_names !! Z.to_nat (m - 1)) ++ B " " ++ show_year y ++ B " " ++
  z2 (sod / 3600) ++ B ":" ++ z2 (sod / 60 mod 60) ++ B ":" ++ z2 (sod mod 60 + if is_leap then 1 else 0) ++ B " GMT".

(* [rfc3339_to_last_modified], /repo/src/utils/time.rs:23-26. *)
Definition rfc3339_to_last_modified (s : bytes) : option bytes :=
  match parse_rfc3339 s with
  | Some (secs, l) => Some (show_last_modified secs l)
  | None => None
  end.

(* [map_opt_rfc3339_to_last_modified], /repo/src/utils/time.rs:29-33; the outer [None] is the
   error. *)
Definition map_opt_rfc3339_to_last_modified (s : option bytes) : option (option bytes) :=
  match s with
  | None => Some None
  | Some s => match rfc3339_to_last_modified s with Some r => Some (Some r) | None => None end
  end.
