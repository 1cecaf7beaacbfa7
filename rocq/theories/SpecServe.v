(** Words for the answers of the shared data middleware. *)
From Coq Require Import List NArith ZArith.
From Verif Require Import PyStr ModelDate SpecDate SpecHeaders SpecEtag ModelServe.
Import ListNotations.
Open Scope N_scope.

Definition bytes_of (s : source) : str := match s with OnDisk b _ _ => b | InPackage b _ _ => b end.
Definition time_of (s : source) : datetime := match s with OnDisk _ t _ => t | InPackage _ t _ => t end.
Definition micros_of (s : source) : Z := match s with OnDisk _ _ u => u | InPackage _ _ u => u end.
Definition on_disk (s : source) : Prop := exists b t u, s = OnDisk b t u.
(** The number of bytes announced: what a disk says, and nothing for a package. *)
Definition size_said (s : source) : Z := match s with OnDisk b _ _ => Z.of_nat (length b) | InPackage _ _ _ => 0%Z end.
(** A time a computer can have: a date of the calendar that is not in the first
    century (those read back wrongly), with microseconds below a second. *)
Definition timely (s : source) : Prop :=
  real_date (time_of s) /\ (100 <= dt_year (time_of s))%Z /\ (0 <= micros_of s < 1000000)%Z.

(** Adler's checksum of bytes: one more than their sum, and the sum of these
    sums, each modulo the largest prime below 65536. *)
Fixpoint total (l : str) : N := match l with [] => 0 | c :: r => c + total r end.
Fixpoint weighted (l : str) : N := match l with [] => 0 | c :: r => N.of_nat (S (length r)) * c + weighted r end.
Definition adler (l : str) : N :=
  (N.of_nat (length l) + weighted l) mod 65521 * 65536 + (1 + total l) mod 65521.

(** The text of a file's tag. *)
Definition tag_says (secs size : Z) (name_bytes : str) (t : str) : Prop :=
  t = lit "wzsdm-" ++ zdec secs ++ lit "-" ++ zdec size ++ lit "-" ++ dec (adler name_bytes).

(** The date that comes so many seconds after 1970, and the text of a date in headers. *)
Definition moment (secs : Z) (d : datetime) : Prop :=
  real_date d /\ exists s, instant epoch s /\ instant d (s + secs).
Definition date_line (d : datetime) (v : str) : Prop :=
  exists n, nth_day (dt_year d) (dt_month d) (dt_day d) n /\ v = rfc1123 n d (lit "GMT").

(** An answer that says the file is unchanged: nothing is sent, and the file is closed. *)
Definition unchanged (r : reply) : Prop :=
  r_status r = lit "304 Not Modified" /\ r_body r = None /\ r_closed r = true.
(** An answer that sends the whole file and leaves it open for the server. *)
Definition sends (r : reply) (s : source) : Prop :=
  r_status r = lit "200 OK" /\ r_body r = Some (bytes_of s) /\ r_closed r = false.

(** The clock and the file's time are such that every date that has to be written exists. *)
Definition dates_exist (m : sdm) (now : Z) (s : source) : Prop :=
  timely s /\ (exists d, moment now d) /\ (exists d, moment (now + m_timeout m) d).

(** The tag of a file that is called [name], given how seconds are counted and names encoded. *)
Definition tag_now (mktime : datetime -> Z) (fs_encode : str -> res str) (name : str) (s : source) (t : str) : Prop :=
  exists b, fs_encode name = Ok b /\ tag_says (mktime (time_of s)) (size_said s) b t.

(** The headers about caching that go with every answer if caching is on. *)
Definition cache_lines (m : sdm) (t : str) (h : list (str * str)) : Prop :=
  values_of (lit "ETag") h [34 :: t ++ [34]] /\
  values_of (lit "Cache-Control") h [lit "max-age=" ++ zdec (m_timeout m) ++ lit ", public"].
(** The headers that describe the file. *)
Definition file_lines (guess_type : str -> option str) (m : sdm) (name : str) (s : source) (h : list (str * str)) : Prop :=
  (exists ty, values_of (lit "Content-Type") h [ty] /\
     ((guess_type name = Some ty /\ ty <> []) \/ ((guess_type name = None \/ guess_type name = Some []) /\ ty = m_fallback m))) /\
  values_of (lit "Content-Length") h [zdec (size_said s)] /\
  (exists v, values_of (lit "Last-Modified") h [v] /\ date_line (time_of s) v).
(** A header with the date of so many seconds after 1970. *)
Definition dates_line (name : str) (secs : Z) (h : list (str * str)) : Prop :=
  exists v d, values_of name h [v] /\ moment secs d /\ date_line d v.
