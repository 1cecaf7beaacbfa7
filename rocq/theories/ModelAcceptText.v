(** * Accept objects as texts, and asking whether a value is among them *)
From Coq Require Import List NArith ZArith Bool.
From Verif Require Import PyStr ModelAccept.
Import ListNotations.
Open Scope N_scope.

Section text.
  (* the text ['%s' % x] of a float *)
  Variable show : fl -> str.
  (* the product of two floats *)
  Variable fmul : fl -> fl -> fl.

  (* [';%s=%s' % param] *)
  Definition param_text (kv : str * str) : str := 59 :: fst kv ++ 61 :: snd kv.
  (* verktyg/accept/_base.py:80-93 [Range.__str__], [Range.to_header] *)
  Definition range_header (r : range) : str :=
    rg_value r
    ++ (if feq (rg_q r) f_one then [] else lit ";q=" ++ show (rg_q r))
    ++ flat_map param_text (rg_params r).
  (* verktyg/accept/_base.py:124-130 [Accept.__str__], [Accept.to_header] *)
  Definition accept_header (l : list range) : str := join [44] (map range_header l).

  (* content_type.py:101-102, language.py:45-52, charset.py:37-38: the method
     [_acceptability_for_option] of the three classes of values *)
  Definition kind_option (k : kind) : value -> range -> res acc :=
    match k with
    | KContentType => content_type_option
    | KLanguage => language_option
    | KCharset => charset_option
    end.
  (* verktyg/accept/_base.py:203-218 [Value.acceptability] *)
  Definition acceptability_of (k : kind) (v : value) (l : list range) : res acc :=
    value_acceptability fmul (kind_option k v) l.
  (* verktyg/accept/_base.py:110-116 [Accept.__contains__]; the value is of the
     class that goes with the header *)
  Definition accept_contains (k : kind) (l : list range) (v : value) : res bool :=
    match acceptability_of k v l with
    | Ok _ => Ok true
    | Raise e => if is_not_acceptable e then Ok false else Raise e
    end.
  (* verktyg/accept/_base.py:118-122 [Accept.__getitem__] *)
  Definition accept_getitem (k : kind) (l : list range) (v : value) : res acc :=
    match acceptability_of k v l with
    | Ok a => Ok a
    | Raise e => if is_not_acceptable e then Raise KeyError else Raise e
    end.
End text.

(* content_type.py:134-137 [ContentType.to_header]; _base.py:222-226
   [Value.to_header] for the other two *)
Definition value_header (k : kind) (v : value) : res str :=
  match k with
  | KContentType => do p <- two_parts (v_text v); Ok (fst p ++ 47 :: snd p)
  | _ => Ok (v_text v)
  end.

(* content_type.py:91-93, language.py:40-42, charset.py:32-34 [exact_match] of
   the acceptabilities of the three classes *)
Definition exact_match (k : kind) (a : acc) : bool :=
  match k with
  | KContentType => negb (fst (a_match a) =? 0)%Z && negb (snd (a_match a) =? 0)%Z
  | KLanguage => (fst (a_match a) =? 0)%Z
  | KCharset => negb (fst (a_match a) =? 0)%Z
  end.
