(** C14: what holds of a HeaderSet after any history. *)
From Coq Require Import Arith List NArith ZArith Bool Lia.
From Verif Require Import PyStr ModelHeaders SpecHeaders ProofHeaderSetAny.
Import ListNotations.
Open Scope N_scope.

(** C14: one direction of the agreement needs no condition.  Whatever names the
    constructor was given and whatever calls follow, a name that is said to be in
    the set is met by iteration, [find] gives a place for it, and the length is
    not more than the number of names iterated over. *)
Theorem C14_members_listed : forall (names : list str) (ops : list hsop),
  let s := hs_run (hs_init names) ops in
  (forall h, hs_contains s h = true -> exists n, In n (hs_iter s) /\ same_name n h) /\
  (forall h, hs_contains s h = true -> (0 <= hs_find s h)%Z) /\
  (hs_len s <= length (hs_iter s))%nat.
Proof. exact members_listed. Qed.
Print Assumptions C14_members_listed.

(** C14: and membership alone is that of a set of names without regard to case,
    in every state: [update] and [add] bring in exactly the names given. *)
Theorem C14_update_members : forall (s : hset) (items : list str) (h : str),
  hs_contains (fst (hs_step s (SUpdate items))) h = true <->
  hs_contains s h = true \/ exists n, In n items /\ same_name n h.
Proof. exact update_members. Qed.
Print Assumptions C14_update_members.

(** C14: [discard] takes out exactly the name given, however it is spelt. *)
Theorem C14_discard_members : forall (s : hset) (n h : str),
  hs_contains (fst (hs_step s (SDiscard n))) h = true <->
  hs_contains s h = true /\ ~ same_name n h.
Proof. exact discard_members. Qed.
Print Assumptions C14_discard_members.

(** A history that is not tame: a repeated name, and a discard in upper case. *)
Example C14_any_example :
  let s := hs_run (hs_init [lit "A"; lit "a"; lit "B"]) [SDiscard (lit "B"); SUpdate [lit "C"; lit "c"]] in
  hs_iter s = [lit "A"; lit "a"; lit "B"; lit "C"] /\ hs_len s = 2%nat /\
  hs_contains s (lit "c") = true /\ hs_find s (lit "c") = 3%Z /\ hs_contains s (lit "b") = false.
Proof. vm_compute. repeat split. Qed.
