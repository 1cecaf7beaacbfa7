(** * Content negotiation: verktyg/accept

    Functions of verktyg/accept/_base.py, content_type.py, language.py,
    charset.py and __init__.py, one by one. *)
From Coq Require Import List NArith ZArith QArith Bool.
From Verif Require Import PyStr Regex.
Import ListNotations.
Open Scope N_scope.

(** ** Floats

    A float is not-a-number, an infinity, or a finite number.  A finite float
    stands for the rational number it denotes, so comparisons are exact.
    Reading a float from text and multiplying two floats round, and are left as
    parameters of the section below.  Simplified: the two zeros are one. *)
Inductive fl := NaN | NInf | PInf | Fin (q : Q).

(* a < b *)
Definition flt (a b : fl) : bool :=
  match a, b with
  | NaN, _ => false | _, NaN => false
  | NInf, NInf => false | NInf, _ => true
  | _, NInf => false
  | PInf, _ => false | _, PInf => true
  | Fin x, Fin y => negb (Qle_bool y x)
  end.
(* a == b *)
Definition feq (a b : fl) : bool :=
  match a, b with
  | NInf, NInf => true | PInf, PInf => true
  | Fin x, Fin y => Qeq_bool x y
  | _, _ => false
  end.
(* a <= b *)
Definition fle (a b : fl) : bool := flt a b || feq a b.

Definition f_one : fl := Fin 1.
Definition f_zero : fl := Fin 0.

(* [min(a, b)]: the first unless the second is smaller; [max(a, b)]: the first
   unless the second is greater *)
Definition fmin (a b : fl) : fl := if flt b a then b else a.
Definition fmax (a b : fl) : fl := if flt a b then b else a.

(* verktyg/accept/_base.py:57, verktyg/accept/__init__.py:144
   [max(min(float(q), 1.0), 0.0)] *)
Definition clamp (x : fl) : fl := fmax (fmin x f_one) f_zero.

(** The exception class [NotAcceptable] (verktyg/exceptions.py) *)
Definition NotAcceptable : exn := OtherError 406.
Definition is_not_acceptable (e : exn) : bool :=
  match e with OtherError 406 => true | _ => false end.

(** ** Ranges *)

(* verktyg/accept/_base.py:52-63 [Range]; [params] is kept as given *)
Record range := mk_range { rg_value : str; rg_q : fl; rg_params : dict str }.

(* verktyg/accept/_base.py:17-24 [_token_re_str] *)
Definition token_re : re :=
  RSeq (RPlus true (RSet is_ascii_alnum))
       (RStar true (RSeq (RChr 45) (RPlus true (RSet is_ascii_alnum)))).
(* verktyg/accept/_base.py:27-33 [_value_re]; the alternation binds last:
   a token at the start, or a star at the end.  [match] starts at the start of
   the text, so the caret says nothing more. *)
Definition value_re : re := RAlt token_re (RSeq (RChr 42) REnd).
(* verktyg/accept/_base.py:36-49, content_type.py:35-48
   [_content_type_value_re]; not anchored at the end *)
Definition content_type_value_re : re :=
  RSeq (RAlt token_re (RChr 42))
  (RSeq (RChr 47)
        (RAlt (RSeq (ROpt (RSeq token_re (RChr 46)))
              (RSeq token_re (ROpt (RSeq (RChr 43) token_re))))
              (RChr 42))).

(* The three subclasses: content_type.py:51-54, language.py:15-17,
   charset.py:13-15 *)
Inductive kind := KContentType | KLanguage | KCharset.

Definition valid_value (k : kind) (v : str) : bool :=
  match re_match (match k with KContentType => content_type_value_re | _ => value_re end) v with
  | Some _ => true | None => false end.
(* language.py:16-17, charset.py:14-15: any parameter is refused *)
Definition valid_params (k : kind) (ps : dict str) : bool :=
  match k, ps with
  | KContentType, _ => true
  | _, [] => true
  | _, _ => false
  end.

(** ** Acceptability of one value *)

(* verktyg/accept/_base.py:136-142 [Acceptability].  The match quality is a
   pair of integers: the pair of booleans of content types (content_type.py:77-81,
   true is 1), the pair of language tags (language.py:30-32), and for character
   sets the one boolean (charset.py:25-27) followed by a constant.  The value
   itself is not kept: no comparison looks at it. *)
Record acc := mk_acc { a_match : Z * Z; a_q : fl; a_qs : option fl }.

(* verktyg/accept/_base.py:180-188 [Value] *)
Record value := mk_value { v_text : str; v_qs : option fl }.

(* Python compares tuples position by position *)
Definition match_gt (a b : Z * Z) : bool :=
  (snd b <? snd a)%Z && (fst b =? fst a)%Z || (fst b <? fst a)%Z.
Definition match_eq (a b : Z * Z) : bool := (fst a =? fst b)%Z && (snd a =? snd b)%Z.

Definition b2z (b : bool) : Z := if b then 1%Z else 0%Z.

(* [x, y = value.split('/')] (content_type.py:56-64, 104-112): ValueError unless
   there are exactly two parts *)
Definition two_parts (v : str) : res (str * str) :=
  match split_on 47 v with
  | [x; y] => Ok (x, y)
  | _ => Raise ValueError
  end.

Definition star : str := [42].

(* content_type.py:114-132 [ContentType._acceptability_for_option] *)
Definition content_type_option (v : value) (o : range) : res acc :=
  do ot <- two_parts (rg_value o);
  do vt <- two_parts (v_text v);
  do tm <- (if eqs (fst ot) (fst vt) then Ok true
            else if eqs (fst ot) star then Ok false
            else Raise NotAcceptable);
  do sm <- (if eqs (snd ot) (snd vt) then Ok true
            else if eqs (snd ot) star then Ok false
            else Raise NotAcceptable);
  Ok (mk_acc (b2z tm, b2z sm) (rg_q o) (v_qs v)).

(* [len(list(value.split('-')))] *)
Definition subtags (s : str) : Z := Z.of_nat (length (split_on 45 s)).

(* language.py:54-70 [Language._acceptability_for_option] *)
Definition language_option (v : value) (o : range) : res acc :=
  do st <- (if eqs (v_text v) (rg_value o) then Ok (subtags (rg_value o), 0%Z)
            else if starts (rg_value o ++ [45]) (v_text v)
                 then Ok (subtags (rg_value o), (subtags (v_text v) - subtags (rg_value o))%Z)
            else if eqs (rg_value o) star then Ok (0%Z, subtags (v_text v))
            else Raise NotAcceptable);
  Ok (mk_acc ((- snd st)%Z, fst st) (rg_q o) (v_qs v)).

(* verktyg/accept/_base.py:190-201 [Value._acceptability_for_option], used by
   [Charset] (charset.py:37-38) *)
Definition charset_option (v : value) (o : range) : res acc :=
  do exact <- (if eqs (rg_value o) star then Ok false
               else if eqs (v_text v) (rg_value o) then Ok true
               else Raise NotAcceptable);
  Ok (mk_acc (b2z exact, 0%Z) (rg_q o) (v_qs v)).

(** ** Representations *)

(* verktyg/accept/__init__.py:125-144 [Representation].  [r_self] tells objects
   apart: bindings and exception handlers are representations with an action. *)
Record repr := mk_repr {
  r_self : nat;
  r_content_type : option value;
  r_language : option value;
  r_charset : option value;
  r_qs : fl }.

(* verktyg/accept/__init__.py:28-39 [Acceptability].  The character set field
   holds a bound method, not an acceptability (line 181): the method of the
   value given here. *)
Record acceptability := mk_acceptability {
  t_content_type : option acc;
  t_language : option acc;
  t_charset : option value;
  t_qs : fl }.

Section floats.
  (* [float(text)], None where it raises ValueError *)
  Variable float_of : str -> option fl.
  (* the product of two floats *)
  Variable fmul : fl -> fl -> fl.

  (* verktyg/accept/_base.py:229-246 [split_accept_string], one range *)
  Fixpoint accept_params (l : list str) (d : dict str) : res (dict str) :=
    match l with
    | [] => Ok d
    | p :: l' =>
        match split1 61 p with
        | None => Raise ValueError
        | Some (k, v) => accept_params l' (dset d (strip k) (strip v))
        end
    end.
  Definition split_accept_range (s : str) : res (str * str * dict str) :=
    match split_on 59 s with
    | [] => Ok ([], lit "1.0", [])        (* split never gives no part *)
    | a :: ps =>
        do d <- accept_params ps [];
        Ok (strip a,
            match dget d (lit "q") with Some q => q | None => lit "1.0" end,
            ddel d (lit "q"))
    end.

  (* verktyg/accept/_base.py:53-63 [Range.__init__] *)
  Definition new_range (k : kind) (v q : str) (ps : dict str) : res range :=
    if valid_value k v then
      match float_of q with
      | None => Raise ValueError
      | Some x => if valid_params k ps then Ok (mk_range v (clamp x) ps) else Raise ValueError
      end
    else Raise ValueError.

  (* content_type.py:140-143, language.py:73-74, charset.py:41-42 and
     _base.py:99-105 [Accept.__init__]: the generator is consumed range by
     range, so an early error hides a later one; both are ValueErrors *)
  Fixpoint parse_ranges (k : kind) (l : list str) : res (list range) :=
    match l with
    | [] => Ok []
    | s :: l' =>
        do p <- split_accept_range s;
        do r <- new_range k (fst (fst p)) (snd (fst p)) (snd p);
        do rs <- parse_ranges k l';
        Ok (r :: rs)
    end.
  Definition parse_accept (k : kind) (s : str) : res (list range) :=
    parse_ranges k (split_on 44 s).

  (* verktyg/accept/_base.py:148-152 [Acceptability.quality] *)
  Definition quality (a : acc) : fl :=
    match a_qs a with Some qs => fmul (a_q a) qs | None => a_q a end.

  (* verktyg/accept/_base.py:154-164 [__eq__], 166-176 [__gt__], the other being
     an acceptability *)
  Definition acc_eq (a b : acc) : bool :=
    match_eq (a_match a) (a_match b) && feq (quality a) (quality b).
  Definition acc_gt (a b : acc) : bool :=
    match_gt (a_match a) (a_match b) || flt (quality b) (quality a).

  (* verktyg/accept/_base.py:203-218 [Value.acceptability] *)
  Fixpoint best_option (f : range -> res acc) (l : list range) (best : option acc)
    : res (option acc) :=
    match l with
    | [] => Ok best
    | o :: l' =>
        match f o with
        | Raise e => if is_not_acceptable e then best_option f l' best else Raise e
        | Ok m =>
            best_option f l'
              (match best with
               | None => Some m
               | Some b => if acc_gt m b then Some m else Some b
               end)
        end
    end.
  Definition value_acceptability (f : range -> res acc) (l : list range) : res acc :=
    do b <- best_option f l None;
    match b with None => Raise NotAcceptable | Some m => Ok m end.

  (* [_gt] of verktyg/accept/__init__.py:56-61 on two acceptabilities or Nones:
     [a <= b] is [not a > b] (functools.total_ordering); [None <= b] is answered
     by the reflected [b >= None], which is true *)
  Definition opt_gt (a b : option acc) : bool :=
    match a, b with
    | None, _ => false
    | Some _, None => true
    | Some x, Some y => acc_gt x y
    end.
  (* [a == b] where either may be None *)
  Definition opt_eq (a b : option acc) : bool :=
    match a, b with
    | None, None => true
    | Some x, Some y => acc_eq x y
    | _, _ => false
    end.

  (* verktyg/accept/__init__.py:55-79 [Acceptability.__gt__]; ordering a bound
     method against a bound method or None raises TypeError *)
  Definition top_gt (a b : acceptability) : res bool :=
    if opt_gt (t_content_type a) (t_content_type b) then Ok true else
    if opt_gt (t_language a) (t_language b) then Ok true else
    match t_charset a, t_charset b with
    | None, None => Ok (negb (fle (t_qs a) (t_qs b)))
    | _, _ => Raise TypeError
    end.
  (* verktyg/accept/__init__.py:41-53 [Acceptability.__eq__]; reached only when
     [__gt__] has answered false, so neither has a character set *)
  Definition top_eq (a b : acceptability) : bool :=
    opt_eq (t_content_type a) (t_content_type b)
    && opt_eq (t_language a) (t_language b)
    && feq (t_qs a) (t_qs b).
  (* functools.total_ordering: [a >= b] is [a > b or a == b] *)
  Definition top_ge (a b : acceptability) : res bool :=
    do g <- top_gt a b;
    if g then Ok true else Ok (top_eq a b).

  (* verktyg/accept/__init__.py:146-191 [Representation.acceptability]; the
     language's acceptability is asked of the content type (line 175) *)
  Definition repr_acceptability (r : repr) (accept language charset : list range)
    : res acceptability :=
    do c <- match r_content_type r with
            | None => Ok None
            | Some v => do a <- value_acceptability (content_type_option v) accept; Ok (Some a)
            end;
    do l <- match r_language r with
            | None => Ok None
            | Some _ =>
                match r_content_type r with
                | None => Raise AttributeError
                | Some v => do a <- value_acceptability (content_type_option v) accept; Ok (Some a)
                end
            end;
    Ok (mk_acceptability c l (r_charset r) (r_qs r)).

  (* verktyg/accept/__init__.py:104-122, the loop of [select_representation] *)
  Fixpoint select_loop (l : list repr) (accept language charset : list range)
      (best : option (acceptability * repr)) : res (option (acceptability * repr)) :=
    match l with
    | [] => Ok best
    | r :: l' =>
        match repr_acceptability r accept language charset with
        | Raise e =>
            if is_not_acceptable e then select_loop l' accept language charset best
            else Raise e
        | Ok a =>
            match best with
            | None => select_loop l' accept language charset (Some (a, r))
            | Some (h, _) =>
                do g <- top_ge a h;
                select_loop l' accept language charset (if g then Some (a, r) else best)
            end
        end
    end.
  Definition select (l : list repr) (accept language charset : list range) : res repr :=
    do b <- select_loop l accept language charset None;
    match b with None => Raise NotAcceptable | Some (_, r) => Ok r end.

  (* verktyg/accept/__init__.py:82-122 [select_representation] with the texts of
     the three headers, or None *)
  Definition header_or (d : str) (h : option str) : str :=
    match h with Some s => s | None => d end.
  Definition select_representation (l : list repr) (accept language charset : option str)
    : res repr :=
    do a <- parse_accept KContentType (header_or (lit "*/*") accept);
    do b <- parse_accept KLanguage (header_or star language);
    do c <- parse_accept KCharset (header_or star charset);
    select l a b c.

  (* verktyg/accept/__init__.py:126-144 [Representation.__init__] from texts and
     an already converted qs *)
  Definition new_repr (content_type language charset : option str) (qs : option fl) : repr :=
    let val := option_map (fun s => mk_value s None) in
    mk_repr 0 (val content_type) (val language) (val charset)
            (clamp (match qs with Some x => x | None => f_one end)).
End floats.
