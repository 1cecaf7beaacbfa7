(** * Vocabulary of the content negotiation claims *)
From Coq Require Import List NArith QArith.
From Verif Require Import PyStr ModelAccept SpecRange.
Import ListNotations.
Open Scope N_scope.

(** A text of the form [t/s] with a single slash. *)
Definition slashed (t s : str) : str := t ++ [47] ++ s.
Definition media_text (v t s : str) : Prop :=
  v = slashed t s /\ ~ In 47 t /\ ~ In 47 s.
Definition well_formed (v : str) : Prop := exists t s, media_text v t s.

(** The media range [r] admits the media type [v]: it is */*, or type/* with the
    type of [v], or [v] itself. *)
Definition media_matches (r v : str) : Prop :=
  exists t s, media_text v t s /\
    (r = slashed star star \/ r = slashed t star \/ r = slashed t s).
(** The form */subtype, which no standard gives a meaning. *)
Definition star_subtype (r v : str) : Prop :=
  exists t s, media_text v t s /\ r = slashed star s.

(** The language range [r] admits the language tag [v]. *)
Definition language_matches (r v : str) : Prop :=
  r = star \/ r = v \/ exists rest, v = r ++ [45] ++ rest.
Definition charset_matches (r v : str) : Prop := r = star \/ r = v.

(** A number from zero to one. *)
Definition within01 (x : fl) : Prop := exists q : Q, x = Fin q /\ (0 <= q /\ q <= 1)%Q.
(** [y] is the number of [0, 1] closest to [x]. *)
Definition closest (x y : fl) : Prop :=
  match x with
  | NaN => False
  | NInf => y = f_zero
  | PInf => y = f_one
  | Fin q =>
      (q < 0 -> y = f_zero)%Q /\ (1 < q -> y = f_one)%Q /\ (0 <= q /\ q <= 1 -> y = Fin q)%Q
  end.

(** The offered representation [r] is admitted by the ranges of an Accept
    header: some range admits its content type, or it has none. *)
Definition admitted (accept : list range) (r : repr) : Prop :=
  match r_content_type r with
  | None => True
  | Some v => exists o, In o accept /\
                (media_matches (rg_value o) (v_text v) \/ star_subtype (rg_value o) (v_text v))
  end.

(** A media type without a star: what a server offers. *)
Definition concrete (v : str) : Prop :=
  exists t s, media_text v t s /\ t <> star /\ s <> star.
(** How specific a media range is. *)
Inductive rank (r : str) : nat -> Prop :=
| rank_any : media_text r star star -> rank r 0
| rank_type : forall t, media_text r t star -> t <> star -> rank r 1
| rank_exact : forall t s, media_text r t s -> t <> star -> s <> star -> rank r 2.

(** The range [o] of the header is the one that decides how much the client
    wants the media type [v]: it admits [v], every other range that admits [v]
    is less specific, or as specific and of no higher quality. *)
Definition decides (accept : list range) (v : str) (o : range) : Prop :=
  In o accept /\ media_matches (rg_value o) v /\
  forall o', In o' accept -> media_matches (rg_value o') v ->
    forall n n', rank (rg_value o) n -> rank (rg_value o') n' ->
      (n' < n)%nat \/ n' = n /\ fle (rg_q o') (rg_q o) = true.

(** The content type of an offered representation *)
Definition offers (l : list repr) (v : str) : Prop :=
  exists r w, In r l /\ r_content_type r = Some w /\ v_text w = v.

(** [o] is a media range of one of the three forms, of a quality from zero to one. *)
Definition proper_range (o : range) : Prop :=
  (exists n, rank (rg_value o) n) /\ within01 (rg_q o).

(** A header in which, among the ranges that admit something offered, a more
    specific range never has a lower quality than a less specific one. *)
Definition in_order (l : list repr) (accept : list range) : Prop :=
  forall o o' v v' n n',
    In o accept -> In o' accept -> offers l v -> offers l v' ->
    media_matches (rg_value o) v -> media_matches (rg_value o') v' ->
    rank (rg_value o) n -> rank (rg_value o') n' -> (n < n')%nat ->
    fle (rg_q o) (rg_q o') = true.

(** What is offered: content types without a star and without a quality of their
    own, no character sets, all of the same server side quality [qs], and either
    all or none with a language. *)
Definition plain_offer (l : list repr) (qs : Q) : Prop :=
  (forall r, In r l ->
     (exists v, r_content_type r = Some v /\ concrete (v_text v) /\ v_qs v = None)
     /\ r_charset r = None /\ r_qs r = Fin qs)
  /\ ((forall r, In r l -> r_language r = None) \/ (forall r, In r l -> r_language r <> None)).

(** ** The text of an Accept header *)

(** A token: words of ASCII letters and digits joined by hyphens. *)
Definition word_of (w : str) : Prop := w <> [] /\ Forall (fun c => is_ascii_alnum c = true) w.
Definition token (t : str) : Prop :=
  exists w ws, word_of w /\ Forall word_of ws /\ t = w ++ flat_map (fun x => 45 :: x) ws.
(** What may stand as a media range: a token or a star, a slash, and something
    that begins with a letter, a digit or a star. *)
Definition media_like (v : str) : Prop :=
  exists t c rest, v = t ++ [47] ++ c :: rest /\
    (token t \/ t = star) /\ (is_ascii_alnum c = true \/ c = 42).
(** What may stand as a language or character set range. *)
Definition plain_like (v : str) : Prop :=
  (exists c rest, v = c :: rest /\ is_ascii_alnum c = true) \/ v = star \/ v = star ++ [10].

(** One range of a header: a value and parameters. *)
Record item := mk_item { i_value : str; i_params : list (str * str) }.
(** Text without white space, commas, semicolons. *)
Definition bare (s : str) : Prop :=
  Forall (fun c => is_space c = false /\ c <> 44 /\ c <> 59) s.
(** [t] writes the range: value;key=value;key=value, with white space anywhere
    around the pieces. *)
Definition item_written (t : str) (it : item) : Prop :=
  exists vt pts, t = join [59] (vt :: pts) /\ written vt (i_value it) /\
    Forall2 (fun pt kv => exists kt wt, pt = kt ++ [61] ++ wt /\
               written kt (fst kv) /\ written wt (snd kv)) pts (i_params it).
Definition header_written (h : str) (its : list item) : Prop :=
  exists ts, its <> [] /\ h = join [44] ts /\ Forall2 item_written ts its.
Definition item_ok (it : item) : Prop :=
  bare (i_value it) /\
  Forall (fun kv => bare (fst kv) /\ ~ In 61 (fst kv) /\ bare (snd kv)) (i_params it) /\
  NoDup (map fst (i_params it)).
(** The text of its quality: 1.0 if there is none. *)
Definition q_text (it : item) (q : str) : Prop :=
  In (lit "q", q) (i_params it) \/ (~ In (lit "q") (map fst (i_params it)) /\ q = lit "1.0").
