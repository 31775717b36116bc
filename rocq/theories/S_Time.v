(** Specification: the Gregorian calendar, told day by day, and dates in HTTP headers. *)
From Verif Require Import M_Base S_Path S_Headers.
Local Open Scope Z_scope.

(* A day of the calendar. *)
Record cal := Cal { c_year : Z; c_month : Z; c_day : Z }.

(* Every fourth year has a leap day, except every hundredth, except every four-hundredth. *)
Definition leap_year (y : Z) : Prop := (4 | y) /\ (~ (100 | y) \/ (400 | y)).

(* Length of a month. *)
Inductive month_has (y : Z) : Z -> Z -> Prop :=
| mh_short m : m = 4 \/ m = 6 \/ m = 9 \/ m = 11 -> month_has y m 30
| mh_feb_leap : leap_year y -> month_has y 2 29
| mh_feb : ~ leap_year y -> month_has y 2 28
| mh_long m : m = 1 \/ m = 3 \/ m = 5 \/ m = 7 \/ m = 8 \/ m = 10 \/ m = 12 -> month_has y m 31.

(* The day after. *)
Inductive next_day : cal -> cal -> Prop :=
| nd_same y m d len : month_has y m len -> 1 <= d < len -> next_day (Cal y m d) (Cal y m (d + 1))
| nd_month y m len : month_has y m len -> m < 12 -> next_day (Cal y m len) (Cal y (m + 1) 1)
| nd_year y : next_day (Cal y 12 31) (Cal (y + 1) 1 1).

(* [later n a b]: [b] is [n] days after [a]. *)
Inductive later : nat -> cal -> cal -> Prop :=
| later_0 a : later 0 a a
| later_S n a b c : later n a b -> next_day b c -> later (S n) a c.

(* The day [n] days after 1970-01-01, or [-n] days before it. *)
Definition day_number (n : Z) (x : cal) : Prop :=
  if 0 <=? n then later (Z.to_nat n) (Cal 1970 1 1) x else later (Z.to_nat (- n)) x (Cal 1970 1 1).

(* Weekdays in turn; 1970-01-01 was a Thursday. *)
Definition weekdays : list bytes := [B "Thu"; B "Fri"; B "Sat"; B "Sun"; B "Mon"; B "Tue"; B "Wed"].

(* Three-letter names of the months. *)
Definition months : list bytes :=
  [B "Jan"; B "Feb"; B "Mar"; B "Apr"; B "May"; B "Jun"; B "Jul"; B "Aug"; B "Sep"; B "Oct"; B "Nov"; B "Dec"].

(* The text [l] is the number [n] in decimal with exactly [k] digits. *)
Definition digits_of (k : nat) (n : Z) (l : bytes) : Prop :=
  length l = k /\ 0 <= n /\ denotes l (Z.to_N n).

(* An HTTP date (RFC 9110, section 5.6.7) denoting the second [t] since 1970. *)
Inductive http_date : bytes -> Z -> Prop :=
| http_date_intro days wd x dd mon yyyy h hh mi mm s ss :
    day_number days x -> weekdays !! Z.to_nat (days mod 7) = Some wd -> months !! Z.to_nat (c_month x - 1) = Some mon ->
    digits_of 2 (c_day x) dd -> digits_of 4 (c_year x) yyyy ->
    0 <= h < 24 -> 0 <= mi < 60 -> 0 <= s < 60 ->
    digits_of 2 h hh -> digits_of 2 mi mm -> digits_of 2 s ss ->
    http_date (wd ++ B ", " ++ dd ++ B " " ++ mon ++ B " " ++ yyyy ++ B " " ++ hh ++ B ":" ++ mm ++ B ":" ++ ss ++ B " GMT")
      (days * 86400 + h * 3600 + mi * 60 + s).

(* A point in time as RFC 3339 writes it: local time and its distance from UTC. *)
Inductive rfc3339 : bytes -> Z -> Prop :=
| rfc3339_intro days x yyyy mo dd h hh mi mm s ss frac sign oh ohh om omm :
    day_number days x -> digits_of 4 (c_year x) yyyy -> digits_of 2 (c_month x) mo -> digits_of 2 (c_day x) dd ->
    0 <= h < 24 -> 0 <= mi < 60 -> 0 <= s < 60 ->
    digits_of 2 h hh -> digits_of 2 mi mm -> digits_of 2 s ss ->
    frac = [] \/ (exists ds, frac = B "." ++ ds /\ ds <> [] /\ Forall (fun c => c ∈ digits) ds) ->
    0 <= oh < 24 -> 0 <= om < 60 -> digits_of 2 oh ohh -> digits_of 2 om omm -> sign = B "+" \/ sign = B "-" ->
    rfc3339 (yyyy ++ B "-" ++ mo ++ B "-" ++ dd ++ B "T" ++ hh ++ B ":" ++ mm ++ B ":" ++ ss ++ frac ++ sign ++ ohh ++ B ":" ++ omm)
      (days * 86400 + h * 3600 + mi * 60 + s - (if bool_decide (sign = B "-") then -1 else 1) * (oh * 3600 + om * 60)).
