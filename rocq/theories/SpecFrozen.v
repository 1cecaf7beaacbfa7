(** What may be done around an immutable object, and what a dict made from keys holds. *)
From Coq Require Import Arith List NArith ZArith Bool.
From Verif Require Import PyStr ModelCallback SpecCallback ModelMultiObject SpecMultiObject ModelFrozen.
Import ListNotations.
Open Scope N_scope.

(** A call of a mutating method other than the one left open (C05), or hash(o) *)
Definition frozen_call {A} (c : container) (x : fop A) : Prop :=
  match x with FHash => True | FCall name _ => In name (mutators c) /\ name <> open_mutator c end.

Section Around.
  Context {V : Type}.
  (** The methods of a multi dict that the immutable class leaves usable *)
  Definition only_reads (c : call V) : Prop :=
    match c with CGetList _ | CLists | CListValues | CToDictLists | CGetState => True | _ => False end.
  (** The object i is an immutable one: nothing else is called on it. *)
  Definition spares (i : nat) (a : action V) : Prop :=
    match a with Call j c => j = i -> only_reads c | _ => True end.
  (** Every action is possible when its turn comes. *)
  Fixpoint all_possible (dup : V -> V) (P : call V -> Prop) (s : store V) (l : list (action V)) : Prop :=
    match l with [] => True | a :: l' => possible P s a /\ all_possible dup P (act dup s a) l' end.
End Around.

(** The texts of a list without repetitions, in the order of their first occurrences *)
Inductive distinct : list str -> list str -> Prop :=
| dist_nil : distinct [] []
| dist_seen l k r : distinct l r -> In k l -> distinct (l ++ [k]) r
| dist_new l k r : distinct l r -> ~ In k l -> distinct (l ++ [k]) (r ++ [k]).
(** How often a text occurs *)
Fixpoint times (k : str) (l : list str) : nat :=
  match l with [] => 0 | x :: l' => (if eqs x k then 1 else 0) + times k l' end.
