(** C02: OrderedMultiDict. *)
From Coq Require Import Arith List NArith ZArith Bool.
From Verif Require Import PyStr PyStrFacts ModelMultiDict ModelOrdered SpecOrdered ProofOrdered.
Import ListNotations.
Open Scope N_scope.

(** C02 for every history without clear() (see the refutation): the dict is built from any
    source; after any calls, what the calls returned or raised and all reads agree with one
    sequence of pairs on which add appends and removing a key filters. *)
Theorem C02_sequence_partial : forall (V : Type) (m : source V) (ops : list (mop V)),
  Forall not_clear ops ->
  let '(o, rets) := o_run (o_init m) ops in
  let '(sq, rets') := seq_run (pairs_of m) ops in
  ordered_reads o sq /\ rets = rets'.
Proof. exact @ordered_refines. Qed.
Print Assumptions C02_sequence_partial.
(** What the reference means: the pairs that a history adds and does not take away, in order. *)
Example C02_example :
  let m := SPairs [(lit "a", 1); (lit "b", 2); (lit "a", 3)] : source N in
  let ops := [MAdd (lit "c") 4; MAdd (lit "b") 5; MSet (lit "a") 6; MPopItem; MPop (lit "b") None; MDel (lit "x");
              MUpdate (SPairs [(lit "d", 7); (lit "c", 8)]); MSetListDefault (lit "q") []] in
  Forall not_clear ops /\
  o_items_multi (fst (o_run (o_init m) ops)) = Some [(lit "c", 4); (lit "d", 7); (lit "c", 8)] /\
  o_items (fst (o_run (o_init m) ops)) = Some [(lit "c", 4); (lit "d", 7)] /\
  snd (o_run (o_init m) ops) =
    [Ok RetNone; Ok RetNone; Ok RetNone; Ok (RetItem (lit "a") 6); Ok (RetVal 2); Raise KeyError; Ok RetNone; Raise TypeError].
Proof. split; [repeat constructor|vm_compute; auto]. Qed.
(** Finding: clear() empties the dict but not the list of buckets: len and membership say
    empty, the listings still yield the old pairs, and add goes after them. *)
Theorem C02_clear_refuted : exists (m : source N) (k : str),
  let o := fst (o_run (o_init m) [MClear]) in
  o_len o = 0%nat /\ o_contains o k = false /\ o_getlist o k = [] /\
  o_items_multi o = Some [(k, 1)] /\ o_keys o = Some [k] /\ o_lists o = Some [(k, [])] /\
  o_items_multi (fst (o_run o [MAdd (lit "b") 2])) = Some [(k, 1); (lit "b", 2)].
Proof. exists (SPairs [(lit "a", 1)]), (lit "a"). vm_compute. auto 10. Qed.
(** Finding: updating an OrderedMultiDict with itself never ends, whatever non-empty content
    it has reached. *)
Theorem C02_update_self_refuted : forall (V : Type) (m : source V) (ops : list (mop V)),
  Forall not_clear ops -> fst (seq_run (pairs_of m) ops) <> [] ->
  forall fuel, o_update_self fuel (fst (o_run (o_init m) ops)) (o_first (fst (o_run (o_init m) ops))) = None.
Proof. exact @ordered_update_self. Qed.
Print Assumptions C02_clear_refuted.
Print Assumptions C02_update_self_refuted.
