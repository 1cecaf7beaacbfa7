(** * Vocabulary: how the arguments of a converter are written *)
From Coq Require Import List NArith ZArith Bool.
From Verif Require Import PyStr ModelRoute ModelConvArgs.
Import ListNotations.
Open Scope N_scope.

(** [word_text word w]: one or more characters of words, [word] telling which of those
    beyond ASCII are such. *)
Definition word_char (word : N -> bool) (c : N) : Prop :=
  48 <= c <= 57 \/ 65 <= c <= 90 \/ 97 <= c <= 122 \/ c = 95 \/ (128 <= c /\ word c = true).
Definition word_text (word : N -> bool) (w : str) : Prop := w <> [] /\ Forall (word_char word) w.

(** [denotes word is_float t v]: [t] is a way to write the value [v]. *)
Inductive denotes (word : N -> bool) (is_float : str -> bool) : str -> cval -> Prop :=
| DNone : denotes word is_float (lit "None") CNone
| DTrue : denotes word is_float (lit "True") (CBool true)
| DFalse : denotes word is_float (lit "False") (CBool false)
(* a whole number in decimal digits *)
| DInt n : denotes word is_float (dec n) (CInt (Z.of_N n))
(* digits, a dot and digits *)
| DReal a b : is_float (dec a ++ 46 :: dec b) = true ->
    denotes word is_float (dec a ++ 46 :: dec b) (CFloat (dec a ++ 46 :: dec b))
(* a string in quotation marks of either kind, without that mark in it *)
| DQuoted q s : q = 34 \/ q = 39 -> ~ In q s ->
    is_float (q :: s ++ [q]) = false ->
    denotes word is_float (q :: s ++ [q]) (CStr s)
(* a word that is no number and has no digits beyond ASCII in it *)
| DWord w : word_text word w -> Forall (fun c => 128 <= c -> is_decimal c = false) w ->
    py_int w = None -> is_float w = false ->
    w <> lit "None" -> w <> lit "True" -> w <> lit "False" ->
    denotes word is_float w (CStr w).

(** A name: a word that does not begin with a digit. *)
Definition arg_name (word : N -> bool) (n : str) : Prop :=
  word_text word n /\ match n with c :: _ => is_decimal c = false | [] => False end.

(** An argument as written: its name, if it has one, and the text of its value *)
Record arg := Arg { a_name : option str; a_text : str; a_value : cval }.
Definition write_arg (a : arg) : str :=
  match a_name a with Some n => n ++ 61 :: a_text a | None => a_text a end.
Definition good_arg (word : N -> bool) (is_float : str -> bool) (a : arg) : Prop :=
  denotes word is_float (a_text a) (a_value a) /\
  match a_name a with Some n => arg_name word n | None => True end.
(** Arguments with a comma and a space between them *)
Fixpoint write_args (l : list arg) : str :=
  match l with
  | [] => []
  | [a] => write_arg a
  | a :: l' => write_arg a ++ lit ", " ++ write_args l'
  end.
(** The values without a name, in their order *)
Fixpoint positional (l : list arg) : list cval :=
  match l with
  | [] => []
  | a :: l' => match a_name a with None => a_value a :: positional l' | Some _ => positional l' end
  end.
(** The last value that the name [n] is given *)
Fixpoint named (l : list arg) (n : str) : option cval :=
  match l with
  | [] => None
  | a :: l' =>
      match named l' n, a_name a with
      | Some v, _ => Some v
      | None, Some n' => if eqs n n' then Some (a_value a) else None
      | None, None => None
      end
  end.

(** ** Converters with arguments *)
(** All the arguments have names, which are among [names], and are whole numbers. *)
Definition named_numbers (names : list str) (l : list arg) : Prop :=
  Forall (fun a => (exists n, a_name a = Some n /\ In n names) /\ exists k : N, a_value a = CInt (Z.of_N k)) l.
(** The number that the name [n] was given *)
Definition number_of (l : list arg) (n : str) : option Z :=
  match named l n with Some (CInt z) => Some z | _ => None end.
(** All the arguments have names among [names] and are whole numbers, truth values or
    None. *)
Definition named_bounds (names : list str) (l : list arg) : Prop :=
  Forall (fun a => (exists n, a_name a = Some n /\ In n names) /\
    ((exists k : N, a_value a = CInt (Z.of_N k)) \/ (exists b, a_value a = CBool b) \/ a_value a = CNone)) l.
(** The bound that the name [n] was given: True is one, False is zero, None is none. *)
Definition bound_of (l : list arg) (n : str) : option Z :=
  match named l n with
  | Some (CInt z) => Some z
  | Some (CBool true) => Some 1%Z
  | Some (CBool false) => Some 0%Z
  | _ => None
  end.
(** None of the arguments has a name and all are strings *)
Definition plain_strings (l : list arg) (items : list str) : Prop :=
  map a_name l = map (fun _ => None) l /\ map a_value l = map CStr items.

(** ** Which arguments fit the parameters [names] *)
(** Not more values without a name than parameters, no other names, and no parameter that
    is given a value by its place and by its name. *)
Definition fits (names : list str) (l : list arg) : Prop :=
  (length (positional l) <= length names)%nat /\
  (forall a n, In a l -> a_name a = Some n -> In n names) /\
  (forall i n, nth_error names i = Some n -> (i < length (positional l))%nat -> named l n = None).
(** The values without a name get the names of the parameters, in order. *)
Fixpoint name_them (names : list str) (l : list arg) : list arg :=
  match l with
  | [] => []
  | a :: l' =>
      match a_name a, names with
      | None, n :: names' => Arg (Some n) (a_text a) (a_value a) :: name_them names' l'
      | _, _ => a :: name_them names l'
      end
  end.
