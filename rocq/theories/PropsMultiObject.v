(** C110: multi dicts next to each other: copies, deep copies, pickles and the lists of the
    caller. *)
From Coq Require Import Arith List NArith ZArith Bool.
From Verif Require Import PyStr ModelMultiDict SpecMultiDict ModelOrdered SpecOrdered ModelCombined SpecCombined ModelMultiObject SpecMultiObject ProofMultiObject.
Import ListNotations.
Open Scope N_scope.

(** A call on an object does to its content and returns what C01 describes, with the
    contents of the lists that were passed, and changes neither another object nor a list
    that the caller holds, unless it is one of the object's own. *)
Theorem C110_call : forall (V : Type) (dup : V -> V) P (s : store V) i c, reached dup P s -> (i < length (objs s))%nat -> ordinary i c ->
  let (s', r) := x_call s i c in
  match meant s c with
  | Some o => view s' i = fst (m_step (view s i) o) /\ shows s' r (snd (m_step (view s i) o))
  | None => view s' i = view s i /\ reads s s' i c r
  end
  /\ (forall j, j <> i -> view s' j = view s j)
  /\ (forall n, In n (ModelMultiObject.held s) -> ~ owned s i n -> content s' n = content s n).
Proof. intros V dup P s i c R. apply call_spec. exact (reached_ok dup P s R). Qed.
Print Assumptions C110_call.

(** As long as setlistdefault and listvalues are not called, nothing that the caller does
    to any of its lists changes an object: neither those it passed in nor those it got. *)
Theorem C110_lists : forall (V : Type) (dup : V -> V) (s : store V) r l i, reached dup (fun c => ~ hands_out c) s -> In r (ModelMultiObject.held s) ->
  view (act dup s (ChangeList r l)) i = view s i.
Proof. intros V dup s r l i R H. exact (change_private s r l i (reached_private dup s R) H). Qed.
Print Assumptions C110_lists.

(** A list that those two handed out is the list of one key: changing it changes the values
    of this key, and nothing else. *)
Theorem C110_handed_out : forall (V : Type) (dup : V -> V) P (s : store V) r l i k, reached dup P s -> In (k, r) (obj s i) ->
  view (act dup s (ChangeList r l)) i = dset (view s i) k l /\ forall j, j <> i -> view (act dup s (ChangeList r l)) j = view s j.
Proof. intros V dup P s r l i k R. apply change_shared. exact (reached_ok dup P s R). Qed.
Print Assumptions C110_handed_out.

(** Making an object, a copy, a deep copy or a pickle read back gives a new object of the
    right content, and changes nothing else. *)
Theorem C110_new : forall (V : Type) (dup : V -> V) P (s : store V) a, reached dup P s -> let (s', i) := x_init s a in
  i = length (objs s) /\ view s' i = m_init (source_of s a) /\ (forall j, j <> i -> view s' j = view s j)
  /\ (forall n, In n (ModelMultiObject.held s) -> content s' n = content s n).
Proof.
  intros V dup P s a R. pose proof (reached_ok dup P s R) as O. pose proof (init_makes s a O) as M. destruct (x_init s a).
  destruct M as (_ & A & _ & _ & B & C & D & _). repeat split; auto. intros m H. apply D. apply O, H.
Qed.
Print Assumptions C110_new.
Theorem C110_copy : forall (V : Type) (dup : V -> V) P (s : store V) j, reached dup P s -> let (s', i) := x_copy s j in
  i = length (objs s) /\ view s' i = view s j /\ (forall j, j <> i -> view s' j = view s j)
  /\ (forall n, In n (ModelMultiObject.held s) -> content s' n = content s n).
Proof.
  intros V dup P s a R. pose proof (reached_ok dup P s R) as O. pose proof (copy_makes s a O) as M. destruct (x_copy s a).
  destruct M as (_ & A & _ & _ & B & C & D & _). repeat split; auto. intros m H. apply D. apply O, H.
Qed.
Print Assumptions C110_copy.
Theorem C110_deepcopy : forall (V : Type) (dup : V -> V) P (s : store V) j, reached dup P s -> let (s', i) := x_deepcopy dup s j in
  i = length (objs s) /\ view s' i = map (fun kl => (fst kl, map dup (snd kl))) (view s j) /\ (forall j, j <> i -> view s' j = view s j)
  /\ (forall n, In n (ModelMultiObject.held s) -> content s' n = content s n).
Proof.
  intros V dup P s a R. pose proof (reached_ok dup P s R) as O. pose proof (deepcopy_makes dup s a O) as M. destruct (x_deepcopy dup s a).
  destruct M as (_ & A & _ & _ & B & C & D & _). repeat split; auto. intros m H. apply D. apply O, H.
Qed.
Print Assumptions C110_deepcopy.
(** Missing: objects with a key that has no values, see the refutation. *)
Theorem C110_pickle_partial : forall (V : Type) (dup : V -> V) P (s : store V) j, reached dup P s -> (forall k l, In (k, l) (view s j) -> l <> []) ->
  exists s' i, x_pickle dup s j = (s', Ok i)
  /\ i = length (objs s) /\ view s' i = map (fun kl => (fst kl, map dup (snd kl))) (view s j) /\ (forall j, j <> i -> view s' j = view s j)
  /\ (forall n, In n (ModelMultiObject.held s) -> content s' n = content s n).
Proof.
  intros V dup P s a R F. pose proof (reached_ok dup P s R) as O. destruct (pickle_makes dup s a O) as (s' & i & E & M).
  { apply Forall_forall. intros [k l] H. exact (F k l H). }
  exists s', i. split; [exact E|]. destruct M as (_ & A & _ & _ & B & C & D & _). repeat split; auto. intros m H. apply D. apply O, H.
Qed.
Print Assumptions C110_pickle_partial.
(** Refuted: a MultiDict with a key without values, which setlist(k, []) makes, cannot be
    pickled. *)
Theorem C110_pickle_refuted : forall (V : Type) (dup : V -> V) (s : store V) j k, In (k, []) (view s j) -> x_pickle dup s j = (s, Raise IndexError).
Proof. intros V dup s j k H. apply pickle_raise. intros F. rewrite Forall_forall in F. exact (F _ H eq_refl). Qed.
Print Assumptions C110_pickle_refuted.

(** An example: two objects, a list of the caller, a list handed out. *)
Definition history : list (action N) :=
  [NewList [1; 2]; New (ADict [(lit "a", GList 0); (lit "b", GOne 3)]); Copy 0; ChangeList 0 []; Call 1 (CAdd (lit "a") 4);
   Call 0 (CGetList (lit "a")); ChangeList 5 [9]; Call 0 (CPopList (lit "b")); Pickle 1; Call 2 (CSet (lit "b") 7); Call 1 (CSetListDefault (lit "b") 0); ChangeList 4 [8; 8]].
Example C110_example : let s := acts (fun v => v) start history in
  (view s 0, view s 1, view s 2) =
  ([(lit "a", [1; 2])], [(lit "a", [1; 2; 4]); (lit "b", [8; 8])], [(lit "a", [1; 2; 4]); (lit "b", [7])]).
Proof. vm_compute. reflexivity. Qed.
Example C110_reached : reached (fun v : N => v) (fun c => ~ hands_out c) (acts (fun v => v) start (firstn 7 history)).
Proof.
  cbn [history firstn acts fold_left]. repeat (apply re_step; [|vm_compute; intuition]). apply re_start.
Qed.

(** ** Ordered multi dicts *)
(** A copy or a pickle read back has the same pairs in the same order. *)
Theorem C110_ordered : forall (V : Type) (m : source V) ops, Forall not_clear ops ->
  let o := fst (o_run (o_init m) ops) in let sq := fst (seq_run (pairs_of m) ops) in
  (exists o', o_copy o = Some o' /\ ordered_reads o' sq) /\ (exists o', o_pickle o = Some o' /\ ordered_reads o' sq).
Proof.
  intros V m ops H. pose proof (ProofOrdered.ordered_refines m ops H) as R. destruct (o_run (o_init m) ops), (seq_run (pairs_of m) ops).
  destruct R as [R _]. cbn [fst]. exact (ordered_copied _ _ R).
Qed.
Print Assumptions C110_ordered.
(** A deep copy has the pairs brought together by key.  Missing: their order. *)
Theorem C110_ordered_deep_partial : forall (V : Type) (m : source V) ops, Forall not_clear ops ->
  let o := fst (o_run (o_init m) ops) in let sq := fst (seq_run (pairs_of m) ops) in
  exists o', o_deepcopy o = Some o' /\ ordered_reads o' (grouped sq).
Proof.
  intros V m ops H. pose proof (ProofOrdered.ordered_refines m ops H) as R. destruct (o_run (o_init m) ops), (seq_run (pairs_of m) ops).
  destruct R as [R _]. cbn [fst]. exact (ordered_deep _ _ R).
Qed.
Print Assumptions C110_ordered_deep_partial.
(** Refuted: deepcopy of an OrderedMultiDict loses the order. *)
Theorem C110_ordered_deep_refuted : exists (o o' : omd N), o = o_init (SPairs [(lit "a", 1); (lit "b", 2); (lit "a", 3)])
  /\ o_deepcopy o = Some o' /\ o_items_multi o' = Some [(lit "a", 1); (lit "a", 3); (lit "b", 2)].
Proof. eexists. eexists. split; [reflexivity|]. split; [vm_compute; reflexivity|vm_compute; reflexivity]. Qed.
Print Assumptions C110_ordered_deep_refuted.
(** Refuted: [o.__setstate__(o.__getstate__())] doubles the pairs. *)
Theorem C110_ordered_state_refuted : let o := o_init (SPairs [(lit "a", 1)]) in
  o_items_multi (o_setstate o [(lit "a", 1)]) = Some [(lit "a", 1); (lit "a", 1)] /\ o_getlist (o_setstate o [(lit "a", 1)]) (lit "a") = [1].
Proof. vm_compute. auto. Qed.
Print Assumptions C110_ordered_state_refuted.
(** Refuted: reading any key of a deep copy of a CombinedMultiDict is a TypeError. *)
Theorem C110_combined_refuted : forall (V : Type) (ds : combined V) k, Forall proper ds -> SpecCombined.held ds k <> [] ->
  @texts_getitem V (c_deepcopied ds) k = Raise TypeError.
Proof. exact @combined_deep. Qed.
Print Assumptions C110_combined_refuted.
(** No key of the deep copy can be read: a key that is part of some key is a
    TypeError, any other a KeyError. *)
Theorem C110_combined_exact_refuted : forall (V : Type) (ds : combined V) k, Forall proper ds ->
  ((exists a b, SpecCombined.held ds (a ++ k ++ b) <> []) -> @texts_getitem V (c_deepcopied ds) k = Raise TypeError)
  /\ (~ (exists a b, SpecCombined.held ds (a ++ k ++ b) <> []) -> @texts_getitem V (c_deepcopied ds) k = Raise KeyError).
Proof. exact @combined_deep_exact. Qed.
Print Assumptions C110_combined_exact_refuted.
Example C110_combined_example : Forall proper [[(lit "a", [1])]; [(lit "b", [2; 3])]] /\ SpecCombined.held [[(lit "a", [1])]; [(lit "b", [2; 3])]] (lit "b") = [2; 3].
Proof. split; [|reflexivity]. repeat constructor; cbn; auto; discriminate. Qed.
(** Refuted: two objects given the same state share its lists. *)
Theorem C110_state_refuted : let s := acts (fun v : N => v) start
    [New (APairs [(lit "a", 1)]); New (APairs []); New (APairs []); Call 0 CGetState; Call 1 (CSetState [(lit "a", 1%nat)]); Call 2 (CSetState [(lit "a", 1%nat)]); Call 1 (CAdd (lit "a") 2)] in
  view s 2 = [(lit "a", [1; 2])].
Proof. vm_compute. reflexivity. Qed.
Print Assumptions C110_state_refuted.
