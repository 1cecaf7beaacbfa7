(** Model of the texts of HTTP errors and of the classes made by [HTTPException.wrap]
    (verktyg/exceptions.py:120-156). *)
From Coq Require Import Arith List NArith ZArith Bool.
From Verif Require Import PyStr ModelHeaders ModelResponse ModelUtils.
Import ListNotations.
Open Scope N_scope.

(** exceptions.py:147-150 [HTTPException.name], by the code of the class *)
Definition e_name (code : option Z) : str :=
  match code with
  | Some z => match phrase z with Some p => p | None => lit "Unknown Error" end
  | None => lit "Unknown Error"
  end.
(** exceptions.py:152-153 [HTTPException.__str__] of an instance of the class: the format
    [%d] takes an int only.  Codes set on the instance are not modelled. *)
Definition e_str (c : eclass) : res str :=
  match k_code c with
  | Some z => Ok (zdec z ++ lit ": " ++ e_name (k_code c))
  | None => Raise TypeError
  end.
(** exceptions.py:155-156 [HTTPException.__repr__] *)
Definition e_repr (c : eclass) : res str :=
  do s <- e_str c;
  Ok (lit "<" ++ k_name c ++ lit " '" ++ s ++ lit "'>").
(** exceptions.py:132-145 [HTTPException.wrap] of an exception class that is not itself an
    HTTP error; [name] is the argument.  The attributes are looked up in [cls] first, so the
    code and the text are those of [cls]. *)
Definition e_wrap (cls exception : eclass) (name : option str) : eclass :=
  let n := match name with Some (x :: s) => x :: s | _ => k_name cls ++ k_name exception end in
  mk_eclass n (k_code cls) (n :: k_above cls ++ k_above exception).
