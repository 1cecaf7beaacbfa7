(** Vocabulary for the claims about streams. *)
From Coq Require Import List NArith ZArith Bool.
From Verif Require Import PyStr ModelStream.
Import ListNotations.
Open Scope N_scope.

(** A connection on which nothing was read yet. *)
Definition fresh (data : str) (plan : list step) : under := mkUnder [] data plan.

(** Arguments a caller of a file-like object may use: no negative size except -1, and
    -1 only for read. *)
Definition sane (c : call) : Prop :=
  match c with
  | Read (Some z) => (-1 <= z)%Z
  | ReadLine (Some z) => (0 <= z)%Z
  | Exhaust k => (0 < k)%Z
  | _ => True
  end.

(** All the data a list of results handed to the caller. *)
Definition handed (rs : list (res (list str))) : str :=
  concat (map (fun r => match r with Ok ds => concat ds | Raise _ => [] end) rs).

(** The call ended normally: with a result, or by announcing the end of the iteration. *)
Definition normal (r : res (list str)) : Prop :=
  match r with Ok _ => True | Raise e => e = StopIteration end.

(** The caller asks for at least one byte. *)
Definition asks_for_data (c : call) : Prop :=
  match c with
  | Read (Some z) => z <> 0%Z
  | ReadLine (Some z) => z <> 0%Z
  | ReadLines _ | Exhaust _ => False
  | _ => True
  end.
(** The answer tells the caller that the body is over. *)
Definition says_end (r : res (list str)) : Prop :=
  r = Ok [[]] \/ r = Raise StopIteration.

(** The connection does not fail. *)
Definition reliable (plan : list step) : Prop := forall s, In s plan -> exists k, s = Gives k.
(** The connection fails with input/output errors or ValueError only. *)
Definition io_failures (plan : list step) : Prop :=
  forall k f, In (Fails k f) plan -> f = FIOError \/ f = FValueError.
(** It hands over something whenever there is something. *)
Definition progressing (plan : list step) : Prop := forall s, In s plan -> exists k, s = Gives (S k).

(** ** Lines: ended by a newline, a carriage return, or both *)
Definition no_break (s : str) : Prop := ~ In 10 s /\ ~ In 13 s.
Inductive lines_of : str -> list str -> Prop :=
| lines_none : lines_of [] []
| lines_last l : l <> [] -> no_break l -> lines_of l [l]
| lines_lf body rest ls : no_break body -> lines_of rest ls ->
    lines_of (body ++ 10 :: rest) ((body ++ [10]) :: ls)
| lines_crlf body rest ls : no_break body -> lines_of rest ls ->
    lines_of (body ++ 13 :: 10 :: rest) ((body ++ [13; 10]) :: ls)
| lines_cr body rest ls : no_break body -> (forall r, rest <> 10 :: r) -> lines_of rest ls ->
    lines_of (body ++ 13 :: rest) ((body ++ [13]) :: ls).

(** Lines ended by a newline; the last one may lack it. *)
Inductive lf_lines : str -> list str -> Prop :=
| lf_none : lf_lines [] []
| lf_last l : l <> [] -> ~ In 10 l -> lf_lines l [l]
| lf_line body rest ls : ~ In 10 body -> lf_lines rest ls -> lf_lines (body ++ 10 :: rest) ((body ++ [10]) :: ls).

(** ** Pieces between separators, from left to right *)
Definition occurs (sep text : str) : Prop := exists a b, text = a ++ sep ++ b.
Inductive pieces_of (sep : str) : str -> list str -> Prop :=
| pieces_last text : ~ occurs sep text -> pieces_of sep text [text]
| pieces_cons p rest ps :
    (forall a b, p ++ sep ++ rest = a ++ sep ++ b -> (length p <= length a)%nat) ->
    pieces_of sep rest ps ->
    pieces_of sep (p ++ sep ++ rest) (p :: ps).

(** No occurrence of the separator lies across a chunk boundary. *)
Definition no_straddle (sep : str) (chunks : list str) : Prop :=
  forall pre post a b, chunks = pre ++ post -> concat chunks = a ++ sep ++ b ->
    (length a + length sep <= length (concat pre))%nat \/ (length (concat pre) <= length a)%nat.
