(** Specification vocabulary for sets of entity tags: what was put in. *)
From Coq Require Import List NArith Bool.
From Verif Require Import PyStr SpecEtag.
Import ListNotations.
Open Scope N_scope.

(** The tags in an argument that may be left out. *)
Definition given (x : option (list str)) (t : str) : Prop := match x with Some l => In t l | None => False end.
(** A tag that a header can carry: not empty, no double quote, no line feed. *)
Definition writable (t : str) : Prop := t <> [] /\ ~ In 34 t /\ ~ In 10 t.
