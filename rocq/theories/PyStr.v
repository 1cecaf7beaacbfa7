(** Python values used by the model: strings, exceptions, integers, dicts.

    A Python [str] is the list of its code points, [bytes] the list of its
    byte values; both are [list N].  This file models builtins of the Python
    language and its standard library, not code of /repo; the places in /repo
    that use them cite them. *)
From Coq Require Import String Ascii.
From Coq Require Import List NArith ZArith Bool.
Export String.StringSyntax.
Import ListNotations.
Open Scope N_scope.

Notation str := (list N).

(** String literal. Coq string literals are read as ASCII/Latin-1 bytes. *)
Fixpoint lit (s : string) : str :=
  match s with
  | EmptyString => []
  | String a r => N_of_ascii a :: lit r
  end.

(** The Python exceptions that occur in the model. *)
Inductive exn :=
| ValueError | TypeError | KeyError | IndexError | AttributeError
| StopIteration | UnicodeError | LookupError | RuntimeError | AssertionError
| OtherError (n : nat).

(** The result of a Python call: a value or a raised exception. *)
Inductive res (A : Type) :=
| Ok (a : A)
| Raise (e : exn).
Arguments Ok {A} a.
Arguments Raise {A} e.

Definition bind {A B} (x : res A) (f : A -> res B) : res B :=
  match x with Ok a => f a | Raise e => Raise e end.
Notation "'do' x <- a ; b" := (bind a (fun x => b))
  (at level 200, x pattern, a at level 100, b at level 200, right associativity).

Definition is_ok {A} (x : res A) : bool :=
  match x with Ok _ => true | Raise _ => false end.

(** ** Characters *)
Definition mem (c : N) (s : str) : bool := existsb (N.eqb c) s.

Definition between (a b c : N) : bool := (a <=? c) && (c <=? b).
Definition is_ascii_digit (c : N) : bool := between 48 57 c.
Definition is_ascii_upper (c : N) : bool := between 65 90 c.
Definition is_ascii_lower (c : N) : bool := between 97 122 c.
Definition is_ascii_alpha (c : N) : bool := is_ascii_upper c || is_ascii_lower c.
Definition is_ascii_alnum (c : N) : bool := is_ascii_alpha c || is_ascii_digit c.

(** [str.isspace] / [\s] in a [str] pattern: the Unicode white space set. *)
Definition is_space (c : N) : bool :=
  between 9 13 c || between 28 32 c || (c =? 133) || (c =? 160) || (c =? 5760)
  || between 8192 8202 c || (c =? 8232) || (c =? 8233) || (c =? 8239)
  || (c =? 8287) || (c =? 12288).

(** white space of [bytes] methods and [\s] in a [bytes] pattern. *)
Definition is_bspace (c : N) : bool := between 9 13 c || (c =? 32).

(** [str.lower] per character: exact for ASCII and Latin-1 (the repertoire of
    WSGI strings); characters above U+00FF are treated as having no case
    (simplification). *)
Definition lower_c (c : N) : N :=
  if is_ascii_upper c then c + 32
  else if between 192 222 c && negb (c =? 215) then c + 32
  else c.
Definition lower (s : str) : str := map lower_c s.

(** [str.upper] on ASCII letters only (simplification: other characters are
    unchanged). Used for CGI variable names and HTTP methods. *)
Definition upper_c (c : N) : N := if is_ascii_lower c then c - 32 else c.
Definition upper (s : str) : str := map upper_c s.

(** ** Comparison and search *)
Fixpoint eqs (a b : str) : bool :=
  match a, b with
  | [], [] => true
  | x :: a', y :: b' => (x =? y) && eqs a' b'
  | _, _ => false
  end.

(** [s.startswith(p)] *)
Fixpoint starts (p s : str) : bool :=
  match p, s with
  | [], _ => true
  | x :: p', y :: s' => (x =? y) && starts p' s'
  | _, [] => false
  end.

(** [s.endswith(p)] *)
Definition ends (p s : str) : bool := starts (rev p) (rev s).

(** [p in s] for strings *)
Fixpoint contains (p s : str) : bool :=
  starts p s || match s with [] => false | _ :: s' => contains p s' end.

(** ** Stripping *)
Fixpoint lstrip_by (f : N -> bool) (s : str) : str :=
  match s with
  | [] => []
  | c :: s' => if f c then lstrip_by f s' else s
  end.
Definition rstrip_by (f : N -> bool) (s : str) : str := rev (lstrip_by f (rev s)).
Definition strip_by (f : N -> bool) (s : str) : str := rstrip_by f (lstrip_by f s).
Definition strip (s : str) : str := strip_by is_space s.

(** ** Splitting and joining *)

(** [s.split(c)] for a one character separator. *)
Fixpoint split_on (c : N) (s : str) : list str :=
  match s with
  | [] => [[]]
  | x :: s' =>
      if x =? c then [] :: split_on c s'
      else match split_on c s' with
           | h :: t => (x :: h) :: t
           | [] => [[x]]          (* unreachable: split never yields no part *)
           end
  end.

(** [s.split(c, 1)]: [None] when [c] does not occur, else the two halves. *)
Fixpoint split1 (c : N) (s : str) : option (str * str) :=
  match s with
  | [] => None
  | x :: s' =>
      if x =? c then Some ([], s')
      else match split1 c s' with
           | Some (a, b) => Some (x :: a, b)
           | None => None
           end
  end.

(** [s.rsplit(c, 1)]: [None] when [c] does not occur. *)
Definition rsplit1 (c : N) (s : str) : option (str * str) :=
  match split1 c (rev s) with
  | Some (a, b) => Some (rev b, rev a)
  | None => None
  end.

(** [s.split()]: split on runs of white space, no empty parts. *)
Fixpoint split_ws_aux (cur : str) (s : str) : list str :=
  match s with
  | [] => match cur with [] => [] | _ => [rev cur] end
  | c :: s' =>
      if is_space c
      then match cur with [] => split_ws_aux [] s' | _ => rev cur :: split_ws_aux [] s' end
      else split_ws_aux (c :: cur) s'
  end.
Definition split_ws (s : str) : list str := split_ws_aux [] s.

(** [sep.join(parts)] *)
Fixpoint join (sep : str) (l : list str) : str :=
  match l with
  | [] => []
  | [x] => x
  | x :: l' => x ++ sep ++ join sep l'
  end.

(** [s.replace(old, new)] for non-empty [old]: leftmost, non-overlapping.
    [skip] counts the characters of the current occurrence still to be passed over. *)
Fixpoint replace_aux (old new : str) (skip : nat) (s : str) : str :=
  match s with
  | [] => []
  | c :: s' =>
      match skip with
      | S k => replace_aux old new k s'
      | O => if starts old s
             then new ++ replace_aux old new (length old - 1) s'
             else c :: replace_aux old new 0 s'
      end
  end.
Definition replace (old new s : str) : str := replace_aux old new 0 s.

(** ** Integers *)

(** [str(n)] for [n >= 0]: decimal digits, most significant first. *)
Fixpoint digits_aux (fuel : nat) (n : N) (acc : str) : str :=
  match fuel with
  | O => acc
  | S f =>
      let acc' := (48 + n mod 10) :: acc in
      if n / 10 =? 0 then acc' else digits_aux f (n / 10) acc'
  end.
Definition dec (n : N) : str := digits_aux (S (N.size_nat n)) n [].

(** [str(z)] *)
Definition zdec (z : Z) : str :=
  match z with
  | Zneg p => 45 :: dec (Npos p)
  | _ => dec (Z.to_N z)
  end.

(** Value of a digit string. *)
Definition digits_val (s : str) : N := fold_left (fun a c => 10 * a + (c - 48)) s 0.

(** Digits with single underscores between them, as accepted by [int()]
    (PEP 515).  Returns the digits without the underscores.
    Simplification: only ASCII digits are digits. *)
Fixpoint int_digits (s : str) : option str :=
  match s with
  | [] => None
  | c :: s' =>
      if is_ascii_digit c then
        match s' with
        | [] => Some [c]
        | d :: s'' =>
            if d =? 95 then option_map (cons c) (int_digits s'')
            else option_map (cons c) (int_digits s')
        end
      else None
  end.

(** [int(s)]; [None] is ValueError. *)
Definition py_int (s : str) : option Z :=
  match strip s with
  | [] => None
  | c :: r =>
      if c =? 45 then option_map (fun d => Z.opp (Z.of_N (digits_val d))) (int_digits r)
      else if c =? 43 then option_map (fun d => Z.of_N (digits_val d)) (int_digits r)
      else option_map (fun d => Z.of_N (digits_val d)) (int_digits (c :: r))
  end.

(** [s.isdigit()]: exact up to U+00FF (ASCII digits and the superscripts
    one, two, three); other Unicode digits are not considered (simplification). *)
Definition is_digit_c (c : N) : bool :=
  is_ascii_digit c || (c =? 178) || (c =? 179) || (c =? 185).
Definition isdigit (s : str) : bool :=
  match s with [] => false | _ => forallb is_digit_c s end.

(** ** Dicts: insertion ordered association lists *)
Section Dict.
  Context {V : Type}.
  Definition dict := list (str * V).
  Fixpoint dget (d : dict) (k : str) : option V :=
    match d with
    | [] => None
    | (k', v) :: d' => if eqs k k' then Some v else dget d' k
    end.
  (** [d[k] = v]: in place if present, else appended. *)
  Fixpoint dset (d : dict) (k : str) (v : V) : dict :=
    match d with
    | [] => [(k, v)]
    | (k', v') :: d' => if eqs k k' then (k', v) :: d' else (k', v') :: dset d' k v
    end.
  Definition ddel (d : dict) (k : str) : dict :=
    filter (fun kv => negb (eqs k (fst kv))) d.
  Definition dhas (d : dict) (k : str) : bool :=
    match dget d k with Some _ => true | None => false end.
End Dict.
Arguments dict V : clear implicits.

(** [s.count(c)] *)
Definition count (c : N) (s : str) : nat := List.length (filter (N.eqb c) s).

(** [sum] of lengths *)
Definition total_len {A} (l : list (list A)) : nat := fold_right (fun x a => length x + a)%nat 0%nat l.
