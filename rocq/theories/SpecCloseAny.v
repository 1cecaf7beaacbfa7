(** Specification vocabulary for closing functions that may raise. *)
From Coq Require Import Arith List NArith ZArith Bool.
From Verif Require Import PyStr ModelResponse ModelClose.
Import ListNotations.

(** Of the functions [l] those that run, if they run in order until one raises, and what it
    raises. *)
Definition until (fails : callback -> option exn) (l got : list callback) (x : option exn) : Prop :=
  match x with
  | None => got = l /\ forall c, In c l -> fails c = None
  | Some e => exists l1 c l2, l = l1 ++ c :: l2 /\ got = l1 ++ [c] /\ (forall d, In d l1 -> fails d = None) /\ fails c = Some e
  end.
(** The last of two exceptions, where there is one. *)
Definition last_of (old new : option exn) : option exn := match new with Some e => Some e | None => old end.
(** How it ends for the server: the exception, or the end of the chunks. *)
Definition outcome (e : option exn) : event := match e with Some e => ERaise e | None => EStop end.
Definition raised (e : option exn) : list event := match e with Some e => [ERaise e] | None => [] end.
