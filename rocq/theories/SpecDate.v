(** * Vocabulary of the claims about dates *)
From Coq Require Import List NArith ZArith.
From Verif Require Import PyStr ModelDate.
Import ListNotations.
Open Scope Z_scope.

(** ** The Gregorian calendar, told day by day *)
Definition leap_year (y : Z) : Prop := (4 | y) /\ (~ (100 | y) \/ (400 | y)).
Inductive month_length : Z -> Z -> Z -> Prop :=
| ml_31 y m : In m [1; 3; 5; 7; 8; 10; 12] -> month_length y m 31
| ml_30 y m : In m [4; 6; 9; 11] -> month_length y m 30
| ml_29 y : leap_year y -> month_length y 2 29
| ml_28 y : ~ leap_year y -> month_length y 2 28.
(** [nth_day y m d n]: the date comes [n] days after 1 January of year 1. *)
Inductive nth_day : Z -> Z -> Z -> Z -> Prop :=
| nd_first : nth_day 1 1 1 0
| nd_day y m d n l : nth_day y m d n -> month_length y m l -> d < l -> nth_day y m (d + 1) (n + 1)
| nd_month y m d n : nth_day y m d n -> month_length y m d -> m < 12 -> nth_day y (m + 1) 1 (n + 1)
| nd_year y n : nth_day y 12 31 n -> nth_day (y + 1) 1 1 (n + 1).

(** A date and time of day that exist, in the years 1 to 9999. *)
Definition real_date (d : datetime) : Prop :=
  1 <= dt_year d <= 9999 /\
  (exists l, month_length (dt_year d) (dt_month d) l /\ 1 <= dt_day d <= l) /\
  0 <= dt_hour d < 24 /\ 0 <= dt_minute d < 60 /\ 0 <= dt_second d < 60.
(** [instant d s]: it is [s] seconds after the beginning of year 1. *)
Definition instant (d : datetime) (s : Z) : Prop :=
  exists n, nth_day (dt_year d) (dt_month d) (dt_day d) n /\
    s = n * 86400 + dt_hour d * 3600 + dt_minute d * 60 + dt_second d.
(** The beginning of 1970 *)
Definition epoch : datetime := DT 1970 1 1 0 0 0.

(** ** Texts *)
Definition two (z : Z) : str := [48 + Z.to_N (z / 10); 48 + Z.to_N (z mod 10)]%N.
Definition spec_months : list str :=
  [lit "Jan"; lit "Feb"; lit "Mar"; lit "Apr"; lit "May"; lit "Jun";
   lit "Jul"; lit "Aug"; lit "Sep"; lit "Oct"; lit "Nov"; lit "Dec"].
Definition month_name (m : Z) : str := nth (Z.to_nat (m - 1)) spec_months [].
(** the weekday of the day [n] days after 1 January of year 1, a Monday *)
Definition short_day (n : Z) : str :=
  nth (Z.to_nat (n mod 7)) [lit "Mon"; lit "Tue"; lit "Wed"; lit "Thu"; lit "Fri"; lit "Sat"; lit "Sun"] [].
Definition long_day (n : Z) : str :=
  nth (Z.to_nat (n mod 7)) [lit "Monday"; lit "Tuesday"; lit "Wednesday"; lit "Thursday"; lit "Friday"; lit "Saturday"; lit "Sunday"] [].
Definition clock (d : datetime) : str :=
  (two (dt_hour d) ++ lit ":" ++ two (dt_minute d) ++ lit ":" ++ two (dt_second d))%list.
(** Sun, 06 Nov 1994 08:49:37 GMT *)
Definition rfc1123 (n : Z) (d : datetime) (zone : str) : str :=
  (short_day n ++ lit ", " ++ two (dt_day d) ++ lit " " ++ month_name (dt_month d) ++ lit " "
   ++ zdec (dt_year d) ++ lit " " ++ clock d ++ lit " " ++ zone)%list.
(** Sun, 06-Nov-1994 08:49:37 GMT *)
Definition netscape (n : Z) (d : datetime) (zone : str) : str :=
  (short_day n ++ lit ", " ++ two (dt_day d) ++ lit "-" ++ month_name (dt_month d) ++ lit "-"
   ++ zdec (dt_year d) ++ lit " " ++ clock d ++ lit " " ++ zone)%list.
(** Sunday, 06-Nov-94 08:49:37 GMT *)
Definition rfc850 (n : Z) (d : datetime) (zone : str) : str :=
  (long_day n ++ lit ", " ++ two (dt_day d) ++ lit "-" ++ month_name (dt_month d) ++ lit "-"
   ++ two (dt_year d mod 100) ++ lit " " ++ clock d ++ lit " " ++ zone)%list.
(** Sun Nov  6 08:49:37 1994 *)
Definition asctime (n : Z) (d : datetime) : str :=
  (short_day n ++ lit " " ++ month_name (dt_month d) ++ lit " "
   ++ (if dt_day d <? 10 then lit " " ++ zdec (dt_day d) else zdec (dt_day d))
   ++ lit " " ++ clock d ++ lit " " ++ zdec (dt_year d))%list.

(** Zones and how many seconds they are ahead of UTC (RFC 822, 5.1) *)
Inductive zone_ahead : str -> Z -> Prop :=
| za_name z h : In (z, h) [(lit "GMT", 0); (lit "UT", 0); (lit "Z", 0); (lit "EST", -5); (lit "EDT", -4); (lit "CST", -6);
    (lit "CDT", -5); (lit "MST", -7); (lit "MDT", -6); (lit "PST", -8); (lit "PDT", -7)] -> zone_ahead z (h * 3600)
| za_plus h m : 0 <= h < 100 -> 0 <= m < 60 -> zone_ahead (lit "+" ++ two h ++ two m) (h * 3600 + m * 60)
| za_minus h m : 0 <= h < 100 -> 0 <= m < 60 -> zone_ahead (lit "-" ++ two h ++ two m) (- (h * 3600 + m * 60)).

(** The date read is the given one seen from UTC, or nothing where that is not in
    the years 1 to 9999. *)
Definition seen_from_utc (d : datetime) (ahead : Z) (r : option datetime) : Prop :=
  forall s, instant d s ->
  match r with
  | Some d' => real_date d' /\ instant d' (s - ahead)
  | None => forall d', real_date d' -> ~ instant d' (s - ahead)
  end.
