(** * HTTP dates

    verktyg/http/basic.py [parse_date], [_dump_date], [http_date];
    verktyg/http/cookies.py [cookie_date]; the date headers of verktyg/responses.py.
    The parts of the standard library they rest on are modelled as well:
    email.utils.parsedate_tz and datetime of Python 3.11. *)
From Coq Require Import Arith List NArith ZArith Bool.
From Verif Require Import PyStr ModelHeaders ModelUtils.
Import ListNotations.
Open Scope N_scope.

(** ** datetime

    A naive datetime without microseconds, which no text of a date carries. *)
Record datetime := DT { dt_year : Z; dt_month : Z; dt_day : Z; dt_hour : Z; dt_minute : Z; dt_second : Z }.

Section calendar.
  Open Scope Z_scope.
  (* Modules/_datetimemodule.c is_leap, days_in_month, days_before_month, days_before_year, ymd_to_ord *)
  Definition is_leap (y : Z) : bool := (y mod 4 =? 0) && (negb (y mod 100 =? 0) || (y mod 400 =? 0)).
  Definition days_in_month (y m : Z) : Z :=
    if m =? 2 then (if is_leap y then 29 else 28)
    else if (m =? 4) || (m =? 6) || (m =? 9) || (m =? 11) then 30 else 31.
  Definition days_before_month (leap : bool) (m : Z) : Z :=
    (match m with
     | 1 => 0 | 2 => 31 | 3 => 59 | 4 => 90 | 5 => 120 | 6 => 151
     | 7 => 181 | 8 => 212 | 9 => 243 | 10 => 273 | 11 => 304 | _ => 334
     end) + (if (2 <? m) && leap then 1 else 0).
  Definition days_before_year (y : Z) : Z :=
    let y := y - 1 in y * 365 + y / 4 - y / 100 + y / 400.
  Definition ymd_to_ord (y m d : Z) : Z := days_before_year y + days_before_month (is_leap y) m + d.
  (* ord_to_ymd *)
  Definition ord_to_ymd (ordinal : Z) : Z * Z * Z :=
    let n := ordinal - 1 in
    let n400 := n / 146097 in let n := n mod 146097 in
    let n100 := n / 36524 in let n := n mod 36524 in
    let n4 := n / 1461 in let n := n mod 1461 in
    let n1 := n / 365 in let n := n mod 365 in
    let year := n400 * 400 + 1 + n100 * 100 + n4 * 4 + n1 in
    if (n1 =? 4) || (n100 =? 4) then (year - 1, 12, 31)
    else
      let leap := (n1 =? 3) && (negb (n4 =? 24) || (n100 =? 3)) in
      let month := (n + 50) / 32 in
      let preceding := days_before_month leap month in
      if n <? preceding
      then let month := month - 1 in
           (year, month, n - (preceding - days_in_month year month) + 1)
      else (year, month, n - preceding + 1).

  (* the constructor: ValueError or OverflowError is None *)
  Definition valid_date (d : datetime) : bool :=
    (1 <=? dt_year d) && (dt_year d <=? 9999) && (1 <=? dt_month d) && (dt_month d <=? 12)
    && (1 <=? dt_day d) && (dt_day d <=? days_in_month (dt_year d) (dt_month d))
    && (0 <=? dt_hour d) && (dt_hour d <=? 23) && (0 <=? dt_minute d) && (dt_minute d <=? 59)
    && (0 <=? dt_second d) && (dt_second d <=? 59).
  Definition new_datetime (y m d h mi s : Z) : option datetime :=
    let x := DT y m d h mi s in if valid_date x then Some x else None.

  (** seconds since the start of the day before the first day *)
  Definition seconds (d : datetime) : Z :=
    ymd_to_ord (dt_year d) (dt_month d) (dt_day d) * 86400
    + dt_hour d * 3600 + dt_minute d * 60 + dt_second d.
  Definition of_seconds (s : Z) : datetime :=
    let '(y, m, d) := ord_to_ymd (s / 86400) in
    let r := s mod 86400 in
    DT y m d (r / 3600) (r mod 3600 / 60) (r mod 60).
  (* add_datetime_timedelta with whole seconds; OverflowError is None *)
  Definition minus_seconds (d : datetime) (off : Z) : option datetime :=
    let d' := of_seconds (seconds d - off) in
    if valid_date d' then Some d' else None.
  (* date.weekday: Monday is 0 *)
  Definition weekday (d : datetime) : Z :=
    (ymd_to_ord (dt_year d) (dt_month d) (dt_day d) + 6) mod 7.

  (* time.gmtime of a whole number of seconds since 1970.  Simplification: any
     number is taken, where the C library has limits far beyond year 9999. *)
  Definition gmtime (t : Z) : datetime := of_seconds (719163 * 86400 + t).
End calendar.

(** ** Writing *)
Definition day_names : list str :=
  [lit "Mon"; lit "Tue"; lit "Wed"; lit "Thu"; lit "Fri"; lit "Sat"; lit "Sun"].
Definition month_names : list str :=
  [lit "Jan"; lit "Feb"; lit "Mar"; lit "Apr"; lit "May"; lit "Jun";
   lit "Jul"; lit "Aug"; lit "Sep"; lit "Oct"; lit "Nov"; lit "Dec"].
(* '%02d' of a number that is not negative *)
Definition pad2 (z : Z) : str :=
  let s := zdec z in if (length s <? 2)%nat then 48 :: s else s.
(* verktyg/http/basic.py:739-747, the text of a time tuple *)
Definition date_text (d : datetime) (delim : str) : str :=
  nth (Z.to_nat (weekday d)) day_names [] ++ lit ", " ++ pad2 (dt_day d) ++ delim ++
  nth (Z.to_nat (dt_month d - 1)) month_names [] ++ delim ++ zdec (dt_year d) ++ lit " " ++
  pad2 (dt_hour d) ++ lit ":" ++ pad2 (dt_minute d) ++ lit ":" ++ pad2 (dt_second d) ++ lit " GMT".
(** What may be given to http_date, apart from nothing at all: a datetime, aware
    (with its offset from UTC in seconds) or naive, or a number of seconds.
    Simplification: no floats; a time tuple is written as it is, like a naive
    datetime. *)
Inductive date_arg := DDatetime (d : datetime) (utcoffset : option Z) | DNumber (t : Z).
(* verktyg/http/basic.py:731-747 [_dump_date] *)
Definition dump_date (a : date_arg) (delim : str) : res str :=
  match a with
  | DDatetime d None => Ok (date_text d delim)
  | DDatetime d (Some off) =>
      match minus_seconds d off with
      | Some d' => Ok (date_text d' delim)
      | None => Raise (OtherError 7) (* OverflowError *)
      end
  | DNumber t => Ok (date_text (gmtime t) delim)
  end.
(* verktyg/http/basic.py:750-762 [http_date]; verktyg/http/cookies.py:140-153 [cookie_date] *)
Definition http_date (a : date_arg) : res str := dump_date a (lit " ").
Definition cookie_date (a : date_arg) : res str := dump_date a (lit "-").

(** ** Reading: email._parseaddr._parsedate_tz *)
Definition lower_days : list str :=
  [lit "mon"; lit "tue"; lit "wed"; lit "thu"; lit "fri"; lit "sat"; lit "sun"].
Definition lower_months : list str :=
  [lit "jan"; lit "feb"; lit "mar"; lit "apr"; lit "may"; lit "jun"; lit "jul"; lit "aug";
   lit "sep"; lit "oct"; lit "nov"; lit "dec"; lit "january"; lit "february"; lit "march";
   lit "april"; lit "may"; lit "june"; lit "july"; lit "august"; lit "september"; lit "october";
   lit "november"; lit "december"].
Definition timezones : list (str * Z) :=
  [(lit "UT", 0); (lit "UTC", 0); (lit "GMT", 0); (lit "Z", 0); (lit "AST", -400); (lit "ADT", -300);
   (lit "EST", -500); (lit "EDT", -400); (lit "CST", -600); (lit "CDT", -500); (lit "MST", -700);
   (lit "MDT", -600); (lit "PST", -800); (lit "PDT", -700)]%Z.

Fixpoint index_of (s : str) (l : list str) : option Z :=
  match l with
  | [] => None
  | x :: l' => if eqs s x then Some 0%Z else option_map Z.succ (index_of s l')
  end.
(* month number from a name in lower case *)
Definition month_of (s : str) : option Z :=
  match index_of s lower_months with
  | None => None
  | Some i => let m := (i + 1)%Z in Some (if (12 <? m)%Z then (m - 12)%Z else m)
  end.
(* the name of the day is skipped *)
Definition skip_day (data : list str) : list str :=
  match data with
  | [] => []
  | d :: l =>
      if ends [44] d || existsb (eqs (lower d)) lower_days then l
      else match rsplit1 44 d with Some (_, r) => r :: l | None => data end
  end.
(* RFC 850 dates *)
Definition open_dashes (data : list str) : list str :=
  match data with
  | [a; b; c] => match split_on 45 a with [x; y; z] => [x; y; z; b; c] | _ => data end
  | _ => data
  end.
(* a zone written behind the time *)
Definition sign_at (c : N) (s : str) : option (option (str * str)) :=
  match split1 c s with
  | None => None
  | Some ([], _) => Some None
  | Some (a, b) => Some (Some (a, c :: b))
  end.
Definition cut_zone (data : list str) : list str :=
  match data with
  | [a; b; c; s] =>
      match (match sign_at 43 s with None => sign_at 45 s | r => r end) with
      | Some (Some (t, z)) => [a; b; c; t; z]
      | _ => [a; b; c; s; []]
      end
  | _ => data
  end.
(* s[:-1] if s[-1] is a comma *)
Definition no_comma (s : str) : res str :=
  match rev s with
  | [] => Raise IndexError
  | c :: r => Ok (if c =? 44 then rev r else s)
  end.
Definition first_is_digit (s : str) : res bool :=
  match s with [] => Raise IndexError | c :: _ => Ok (is_digit_c c) end.
Definition colon_inside (s : str) : bool :=
  match split1 58 s with Some (_ :: _, _) => true | _ => false end.
Definition split_time (tm : str) : option (str * str * str) :=
  match split_on 58 tm with
  | [h; m] => Some (h, m, lit "0")
  | [h; m; s] => Some (h, m, s)
  | [x] =>
      if mem 46 x
      then match split_on 46 x with
           | [h; m] => Some (h, m, lit "0")
           | [h; m; s] => Some (h, m, s)
           | _ => None
           end
      else None
  | _ => None
  end.
(* the offset in seconds; None, for an unknown zone, is turned into 0 by parsedate_tz *)
Definition zone_seconds (tz : str) : Z :=
  let tz := upper tz in
  let off :=
    match find (fun kv => eqs tz (fst kv)) timezones with
    | Some kv => snd kv
    | None => match py_int tz with Some z => z | None => 0%Z end
    end in
  if (off <? 0)%Z then (- ((- off) / 100 * 3600 + (- off) mod 100 * 60))%Z
  else (off / 100 * 3600 + off mod 100 * 60)%Z.
Definition century (y : Z) : Z :=
  (if y <? 100 then (if 68 <? y then y + 1900 else y + 2000) else y)%Z.
Record parsed := Parsed { g_year : Z; g_month : Z; g_day : Z; g_hour : Z; g_minute : Z; g_second : Z; g_off : Z }.
(* from [dd, mm, yy, tm, tz] = data on; lower and upper case as in PyStr, exact up to U+00FF *)
Definition parse_fields (dd mm yy tm tz : str) : res (option parsed) :=
  match dd, mm, yy with
  | [], _, _ | _, [], _ | _, _, [] => Ok None
  | _, _, _ =>
      let mm := lower mm in
      let months := match month_of mm with
                    | Some m => Some (m, dd)
                    | None => match month_of (lower dd) with Some m => Some (m, mm) | None => None end
                    end in
      match months with
      | None => Ok None
      | Some (m, dd) =>
          do dd <- no_comma dd;
          let (yy, tm) := if colon_inside yy then (tm, yy) else (yy, tm) in
          do yy' <- no_comma yy;
          if (match yy' with [] => ends [44] yy | _ => false end) then Ok None
          else
            do dig <- first_is_digit yy';
            let (yy, tz) := if dig : bool then (yy', tz) else (tz, yy') in
            do tm <- no_comma tm;
            match split_time tm with
            | None => Ok None
            | Some (h, mi, s) =>
                match py_int yy, py_int dd, py_int h, py_int mi, py_int s with
                | Some y, Some d, Some h, Some mi, Some s =>
                    Ok (Some (Parsed (century y) m d h mi s (zone_seconds tz)))
                | _, _, _, _, _ => Ok None
                end
            end
      end
  end.
Definition parsedate_tz (s : str) : res (option parsed) :=
  match split_ws s with
  | [] => Ok None
  | data =>
      match cut_zone (open_dashes (skip_day data)) with
      | dd :: mm :: yy :: tm :: tz :: _ => parse_fields dd mm yy tm tz
      | _ => Ok None
      end
  end.
(* verktyg/http/basic.py:694-728 [parse_date] *)
Definition parse_date (value : option str) : res (option datetime) :=
  match value with
  | None | Some [] => Ok None
  | Some v =>
      do t <- parsedate_tz (strip v);
      match t with
      | None => Ok None
      | Some t =>
          let year := g_year t in
          let year := (if (0 <=? year) && (year <=? 68) then year + 2000
                       else if (69 <=? year) && (year <=? 99) then year + 1900 else year)%Z in
          match new_datetime year (g_month t) (g_day t) (g_hour t) (g_minute t) (g_second t) with
          | None => Ok None
          | Some d => Ok (minus_seconds d (g_off t))
          end
      end
  end.

(** ** Date headers of responses *)
(* verktyg/responses.py:864-910 [age], [date], [expires], [last_modified]:
   header_property(name, None, parse_date, http_date) *)
Definition date_property (name : str) : hprop (option datetime) :=
  mk_hprop name None
    (fun s => match parse_date (Some s) with Ok d => Some d | Raise _ => None end)
    (fun v => match v with
              | Some d => match http_date (DDatetime d None) with Ok t => Ok (HStr t) | Raise e => Raise e end
              | None => Raise TypeError (* the current time: not modelled *)
              end) false.
Definition age_property : hprop (option datetime) := date_property (lit "Age").

(* verktyg/responses.py:912-930 [_get_retry_after], [_set_retry_after]; [now] is utcnow() *)
Definition get_retry_after (now : datetime) (h : headers) : res (option datetime) :=
  match h_getitem h (lit "retry-after") with
  | Raise _ => Ok None
  | Ok v =>
      if isdigit v
      then match py_int v with
           | None => Raise ValueError
           | Some n => match minus_seconds now (- n) with Some d => Ok (Some d) | None => Raise (OtherError 7) end
           end
      else parse_date (Some v)
  end.
Inductive retry_value := RDate (d : datetime) | RSeconds (n : Z) | RNone.
Definition set_retry_after (h : headers) (v : retry_value) : headers * option exn :=
  match v with
  | RNone => match h_getitem h (lit "retry-after") with Ok _ => keep h (Ok (h_remove h (lit "retry-after"))) | Raise _ => (h, None) end
  | RDate d => match http_date (DDatetime d None) with
               | Ok t => keep h (h_set h (lit "Retry-After") (HStr t) [])
               | Raise e => (h, Some e)
               end
  | RSeconds n => keep h (h_set h (lit "Retry-After") (HStr (zdec n)) [])
  end.
