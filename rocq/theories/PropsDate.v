(** * Theorems: dates (C69, C78, C79, C80) *)
From Coq Require Import Arith List NArith ZArith Bool Lia.
From Verif Require Import PyStr PyStrFacts SpecHeaders ModelHeaders ModelUtils ModelDate SpecDate ProofUtils ProofDate.
From Verif Require SpecRange ProofRange.
Import ListNotations.
Open Scope N_scope.

(** ** C69: HTTP dates *)

(** A date of the years 1 to 9999 is written with its day of the week, as counted
    day by day from Monday 1 January of year 1; cookie_date only uses dashes. *)
Theorem C69_written : forall d n, real_date d -> nth_day (dt_year d) (dt_month d) (dt_day d) n ->
  http_date (DDatetime d None) = Ok (rfc1123 n d (lit "GMT")) /\
  cookie_date (DDatetime d None) = Ok (netscape n d (lit "GMT")).
Proof.
  intros d n R H. destruct (date_text_spec d n R H) as [E1 E2]. unfold http_date, cookie_date, dump_date.
  rewrite E1, E2. auto.
Qed.
Print Assumptions C69_written.
(** Every such date has a day number, so the theorem above covers all of them. *)
Theorem C69_calendar : forall d, real_date d -> exists n, nth_day (dt_year d) (dt_month d) (dt_day d) n /\
  forall n', nth_day (dt_year d) (dt_month d) (dt_day d) n' -> n' = n.
Proof.
  intros d R. destruct (real_day d R) as [n H]. exists n. split; [exact H|]. intros n' H'.
  apply nth_day_ord in H as (_ & _ & _ & E). apply nth_day_ord in H' as (_ & _ & _ & E'). lia.
Qed.
Print Assumptions C69_calendar.
(** From year 1000 on the text is 29 characters long. *)
Theorem C69_width : forall d t, real_date d -> (1000 <= dt_year d)%Z ->
  http_date (DDatetime d None) = Ok t -> length t = 29%nat.
Proof. exact date_width. Qed.
Print Assumptions C69_width.
(** Missing for the full claim: earlier years, see below. *)
Theorem C69_width_refuted : exists d t, real_date d /\ http_date (DDatetime d None) = Ok t /\ length t <> 29%nat.
Proof.
  exists (DT 999 12 31 0 0 0). eexists. split; [apply valid_spec; reflexivity|].
  split; [vm_compute; reflexivity|]. discriminate.
Qed.
Print Assumptions C69_width_refuted.
(** What is written is read back, from year 100 on. *)
Theorem C69_round_partial : forall d t, real_date d -> (100 <= dt_year d)%Z ->
  http_date (DDatetime d None) = Ok t \/ cookie_date (DDatetime d None) = Ok t ->
  parse_date (Some t) = Ok (Some d).
Proof.
  intros d t R Hy H. destruct (real_day d R) as [n Hn]. destruct (C69_written d n R Hn) as [E1 E2].
  rewrite E1, E2 in H. destruct H as [H|H].
  - assert (rfc1123 n d (lit "GMT") = t) as <- by congruence.
    rewrite (parse_rfc1123 n d _ _ R Hy gmt_zero), (minus_zero d R). reflexivity.
  - assert (netscape n d (lit "GMT") = t) as <- by congruence.
    rewrite (parse_netscape n d _ _ R Hy gmt_zero), (minus_zero d R). reflexivity.
Qed.
Print Assumptions C69_round_partial.
(** Before that years are read as years of the 20th or 21st century. *)
Theorem C69_round_refuted : exists d t d', real_date d /\ http_date (DDatetime d None) = Ok t /\
  parse_date (Some t) = Ok (Some d') /\ d' <> d.
Proof.
  exists (DT 99 3 1 12 30 0). eexists. eexists. split; [apply valid_spec; reflexivity|].
  split; [vm_compute; reflexivity|]. split; [vm_compute; reflexivity|]. discriminate.
Qed.
Print Assumptions C69_round_refuted.
(** A number of seconds since 1970 is written as the date that comes so many
    seconds after the beginning of 1970. *)
Theorem C69_number : forall t d s, instant epoch s -> real_date d -> instant d (s + t) ->
  http_date (DNumber t) = http_date (DDatetime d None) /\ cookie_date (DNumber t) = cookie_date (DDatetime d None).
Proof.
  intros t d s Hs R I. unfold http_date, cookie_date, dump_date. rewrite (gmtime_spec t d s Hs R I). auto.
Qed.
Print Assumptions C69_number.
(** Every second from the beginning of year 1 on has one date. *)
Theorem C69_instants : forall s, (0 <= s)%Z -> exists d, (1 <= dt_year d)%Z /\ instant d s /\
  ((dt_year d <= 9999)%Z -> real_date d).
Proof. exact instant_exists. Qed.
Print Assumptions C69_instants.
(** An aware datetime is written as it is seen from UTC. *)
Theorem C69_aware : forall d off, real_date d -> exists r, seen_from_utc d off r /\
  http_date (DDatetime d (Some off)) =
  match r with Some d' => http_date (DDatetime d' None) | None => Raise (OtherError 7) end.
Proof.
  intros d off R. exists (minus_seconds d off). split; [apply minus_spec, R|].
  unfold http_date, dump_date. destruct (minus_seconds d off); reflexivity.
Qed.
Print Assumptions C69_aware.
(** Dates in the three formats of HTTP, and in that of cookies, are read as seen
    from UTC, whatever their day of the week says. *)
Theorem C69_formats : forall d n z o, real_date d -> (100 <= dt_year d)%Z -> zone_ahead z o ->
  exists r, seen_from_utc d o r /\
  parse_date (Some (rfc1123 n d z)) = Ok r /\
  parse_date (Some (netscape n d z)) = Ok r /\
  ((1969 <= dt_year d <= 2068)%Z -> parse_date (Some (rfc850 n d z)) = Ok r) /\
  parse_date (Some (asctime n d)) = Ok (Some d).
Proof.
  intros d n z o R Hy Z. exists (minus_seconds d o). split; [apply minus_spec, R|].
  split; [exact (parse_rfc1123 n d z o R Hy Z)|]. split; [exact (parse_netscape n d z o R Hy Z)|].
  split; [intros H; exact (parse_rfc850 n d z o R H Z)|]. rewrite <- (minus_zero d R). exact (parse_asctime n d R Hy).
Qed.
Print Assumptions C69_formats.
(** The Date, Expires and Last-Modified properties of a response hold every date. *)
Theorem C69_property : forall name h d, real_date d -> (100 <= dt_year d)%Z ->
  exists h', hp_set (date_property name) h (Some d) = (h', None) /\ hp_get (date_property name) h' = Some d.
Proof. exact date_property_round. Qed.
Print Assumptions C69_property.

Example C69_example :
  http_date (DDatetime (DT 1994 11 6 8 49 37) None) = Ok (lit "Sun, 06 Nov 1994 08:49:37 GMT") /\
  cookie_date (DDatetime (DT 2000 2 29 0 0 0) None) = Ok (lit "Tue, 29-Feb-2000 00:00:00 GMT") /\
  http_date (DNumber 784111777) = Ok (lit "Sun, 06 Nov 1994 08:49:37 GMT") /\
  http_date (DDatetime (DT 2000 1 1 1 0 0) (Some 7200%Z)) = Ok (lit "Fri, 31 Dec 1999 23:00:00 GMT") /\
  http_date (DDatetime (DT 1 1 1 1 0 0) (Some 7200%Z)) = Raise (OtherError 7) /\
  parse_date (Some (lit "Sunday, 06-Nov-94 08:49:37 GMT")) = Ok (Some (DT 1994 11 6 8 49 37)) /\
  parse_date (Some (lit "Sun Nov  6 08:49:37 1994")) = Ok (Some (DT 1994 11 6 8 49 37)) /\
  parse_date (Some (lit "Tue, 29 Feb 2000 23:30:00 -0130")) = Ok (Some (DT 2000 3 1 1 0 0)) /\
  parse_date (Some (lit "Mon, 29 Feb 1900 00:00:00 GMT")) = Ok None.
Proof. vm_compute. repeat split; reflexivity. Qed.
Example C69_example_real : real_date (DT 2000 2 29 23 30 0) /\ zone_ahead (lit "-0130") (-5400) /\
  rfc1123 1 (DT 2000 2 29 23 30 0) (lit "-0130") = lit "Tue, 29 Feb 2000 23:30:00 -0130".
Proof.
  split; [apply valid_spec; reflexivity|]. split; [|reflexivity]. apply (za_minus 1 30); lia.
Qed.

(** ** C78: reading a date never fails *)

(** Whatever the text, parse_date returns None or a date that exists. *)
Theorem C78_total : forall v, exists r, parse_date v = Ok r /\ forall d, r = Some d -> real_date d.
Proof. exact parse_date_total. Qed.
Print Assumptions C78_total.
Example C78_example :
  parse_date (Some (lit ",")) = Ok None /\ parse_date (Some (lit "1 jan ,  1:")) = Ok None /\
  parse_date (Some (lit "x,1-feb- 12:00 z")) = Ok None /\
  parse_date (Some (lit "Mon, 1 Jan 10000 00:00 GMT")) = Ok None /\
  parse_date (Some (lit "Mon, 31 Dec 9999 23:30 -0100")) = Ok None /\
  parse_date (Some (lit "1 jan 2000 23:30 anything at all")) = Ok (Some (DT 2000 1 1 23 30 0)) /\
  parse_date None = Ok None.
Proof. vm_compute. repeat split; reflexivity. Qed.

(** ** C79: the Age property *)

(** The claim is refuted: Age is a number of seconds, but the property is one for
    dates.  It reads as None whatever the number, and setting it stores a date. *)
Theorem C79_read_refuted : forall h n, h_getitem h (lit "Age") = Ok (dec n) -> hp_get age_property h = None.
Proof.
  intros h n H. unfold hp_get. cbn [age_property date_property p_name]. rewrite H. cbn [p_load p_default age_property date_property].
  rewrite (parse_number (dec n)); [reflexivity|]. split; [apply dec_nonnil|apply dec_digits].
Qed.
Print Assumptions C79_read_refuted.
Theorem C79_write_refuted : forall h d n, real_date d -> nth_day (dt_year d) (dt_month d) (dt_day d) n ->
  exists h', hp_set age_property h (Some d) = (h', None) /\
    set_effect (lit "Age") (rfc1123 n d (lit "GMT")) h h'.
Proof. exact age_written. Qed.
Print Assumptions C79_write_refuted.
Example C79_example :
  hp_get age_property [(lit "Server", lit "x"); (lit "age", lit "3600")] = None /\
  hp_set age_property [] (Some (DT 2000 1 1 0 0 0)) = ([(lit "Age", lit "Sat, 01 Jan 2000 00:00:00 GMT")], None).
Proof. vm_compute. split; reflexivity. Qed.

(** ** C80: the Retry-After property *)

(** Set to a number of seconds it reads as the date so many seconds from now; a
    date after year 9999 is an OverflowError. *)
Theorem C80_seconds : forall now h n, real_date now -> (0 <= n)%Z ->
  exists h' r, set_retry_after h (RSeconds n) = (h', None) /\ set_effect (lit "Retry-After") (zdec n) h h' /\
    seen_from_utc now (- n) r /\
    get_retry_after now h' = match r with Some d => Ok (Some d) | None => Raise (OtherError 7) end.
Proof. exact retry_seconds. Qed.
Print Assumptions C80_seconds.
(** Set to a date it reads as that date, whenever it is read. *)
Theorem C80_date : forall now h d, real_date d -> (100 <= dt_year d)%Z ->
  exists h' n, nth_day (dt_year d) (dt_month d) (dt_day d) n /\
    set_retry_after h (RDate d) = (h', None) /\ set_effect (lit "Retry-After") (rfc1123 n d (lit "GMT")) h h' /\
    get_retry_after now h' = Ok (Some d).
Proof. exact retry_date. Qed.
Print Assumptions C80_date.
(** Set to None the header is gone, and so is the property. *)
Theorem C80_none : forall now h, exists h', set_retry_after h RNone = (h', None) /\
  without (lit "retry-after") h h' /\ get_retry_after now h' = Ok None.
Proof.
  intros now h. destruct (retry_none_total h) as [h' H]. exists h'. split; [exact H|]. exact (retry_none now h h' H).
Qed.
Print Assumptions C80_none.
(** The claim that reading never fails is refuted: a superscript digit counts as a
    digit, and a large number of seconds leaves the calendar. *)
Theorem C80_read_refuted : exists now h1 h2, real_date now /\
  get_retry_after now h1 = Raise ValueError /\ get_retry_after now h2 = Raise (OtherError 7).
Proof.
  exists (DT 2020 1 1 0 0 0), [(lit "Retry-After", [178])], [(lit "Retry-After", lit "999999999999")].
  split; [apply valid_spec; reflexivity|]. split; vm_compute; reflexivity.
Qed.
Print Assumptions C80_read_refuted.
(** These are the only failures: the header holds a superscript digit, or is a number
    of seconds after which the calendar ends. *)
Theorem C80_read_partial : forall now h e, real_date now -> get_retry_after now h = Raise e ->
  exists v, h_getitem h (lit "retry-after") = Ok v /\
    ((exists c, In c v /\ In c [178; 179; 185]) \/
     (e = OtherError 7 /\ (forall c, In c v -> 48 <= c <= 57) /\
      forall s d, instant now s -> real_date d -> ~ instant d (s + Z.of_N (digits_val v)))).
Proof. exact retry_fails. Qed.
Print Assumptions C80_read_partial.
(** The failures, exactly: ValueError for digits in the sense of [str.isdigit] that [int]
    refuses, OverflowError for a number of seconds after which the calendar ends. *)
Theorem C80_read_exact : forall now h e, real_date now -> (get_retry_after now h = Raise e <->
  exists v, h_getitem h (lit "retry-after") = Ok v /\
    ((e = ValueError /\ SpecRange.false_digits v) \/
     (e = OtherError 7 /\ SpecRange.digits v /\
      forall s d, instant now s -> real_date d -> ~ instant d (s + Z.of_N (digits_val v))))).
Proof.
  intros now h e R. unfold get_retry_after. destruct (h_getitem h (lit "retry-after")) as [v|].
  2:{ split; [discriminate|]. intros (v & X & _). discriminate. }
  destruct (isdigit v) eqn:D.
  - destruct (ProofRange.isdigit_facts v D) as [[A B]|[A B]]; rewrite B.
    + pose proof (minus_spec now (- Z.of_N (digits_val v)) R) as S. destruct (minus_seconds now _) as [d'|].
      * split; [discriminate|]. intros (v' & X & [[_ F]|(_ & _ & N)]); assert (v' = v) by congruence; subst v'.
        -- apply ProofRange.false_not_digits in F. contradiction.
        -- exfalso. assert (I : instant now (seconds now - 86400)) by (apply (real_instant now _ R); lia).
           destruct (S _ I) as [Rd Id]. apply (N _ d' I Rd). rewrite Z.sub_opp_r in Id. exact Id.
      * split.
        -- intros X. exists v. split; [reflexivity|]. right. split; [congruence|]. split; [exact A|].
           intros s d Hs Hd. specialize (S s Hs d Hd). rewrite Z.sub_opp_r in S. exact S.
        -- intros (v' & X & [[_ F]|(-> & _)]); [|reflexivity]. assert (v' = v) by congruence; subst v'.
           apply ProofRange.false_not_digits in F. contradiction.
    + split.
      * intros X. exists v. split; [reflexivity|]. left. split; [congruence|exact A].
      * intros (v' & X & [[-> _]|(_ & F & _)]); [reflexivity|]. assert (v' = v) by congruence; subst v'.
        apply ProofRange.false_not_digits in A. contradiction.
  - destruct (parse_date_total (Some v)) as (r & -> & _). split; [discriminate|].
    intros (v' & X & [[_ F]|(_ & F & _)]); assert (v' = v) by congruence; subst v'.
    + apply ProofRange.false_isdigit in F. congruence.
    + apply ProofRange.digits_isdigit in F. congruence.
Qed.
Print Assumptions C80_read_exact.
Example C80_example :
  let h := [(lit "retry-AFTER", lit "x"); (lit "A", lit "1"); (lit "Retry-After", lit "2")] in
  let now := DT 2019 12 31 23 59 58 in
  get_retry_after now h = Ok None /\
  set_retry_after h (RSeconds 125) = ([(lit "Retry-After", lit "125"); (lit "A", lit "1")], None) /\
  get_retry_after now [(lit "Retry-After", lit "125")] = Ok (Some (DT 2020 1 1 0 2 3)) /\
  set_retry_after [] (RDate now) = ([(lit "Retry-After", lit "Tue, 31 Dec 2019 23:59:58 GMT")], None) /\
  set_retry_after h RNone = ([(lit "A", lit "1")], None) /\
  get_retry_after now [(lit "Retry-After", lit "0007")] = Ok (Some (DT 2020 1 1 0 0 5)).
Proof. vm_compute. repeat split; reflexivity. Qed.
(** Finding: a negative number of seconds is stored and reads as None. *)
Example C80_finding_negative :
  set_retry_after [] (RSeconds (-5)) = ([(lit "Retry-After", lit "-5")], None) /\
  get_retry_after (DT 2020 1 1 0 0 0) [(lit "Retry-After", lit "-5")] = Ok None.
Proof. vm_compute. split; reflexivity. Qed.
