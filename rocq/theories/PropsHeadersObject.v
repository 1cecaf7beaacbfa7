(** * Headers objects next to each other: the claims of C105 *)
From Coq Require Import List NArith ZArith Bool Sorted.
From Verif Require Import PyStr ModelHeaders SpecHeaders ModelHeadersObject SpecHeadersObject ProofHeadersObject.
Import ListNotations.
Open Scope Z_scope.

(** After any history, an operation changes no object and no plain list but the one
    it is called on: copies, slices, lists passed to the constructor and lists taken
    out share nothing. *)
Theorem C105_independent : forall fuel ops w o w' e,
  wrun fuel empty_world ops = Some w -> wstep fuel w o = Some (w', e) ->
  (forall p, (p < length (hw_objs w))%nat -> target_obj o <> Some p -> content w' p = content w p)
  /\ (forall p, (p < length (hw_lists w))%nat -> target_list o <> Some p -> client w' p = client w p).
Proof. exact independent. Qed.
Print Assumptions C105_independent.

(** Copies, the list for WSGI and objects made of a list have the same lines. *)
Theorem C105_copies : forall fuel w o, (o < length (hw_objs w))%nat ->
  (exists w', wstep fuel w (WCopy o) = Some (w', None)
     /\ length (hw_objs w') = S (length (hw_objs w)) /\ content w' (length (hw_objs w)) = content w o)
  /\ (exists w', wstep fuel w (WExport o) = Some (w', None)
     /\ length (hw_lists w') = S (length (hw_lists w)) /\ client w' (length (hw_lists w)) = content w o).
Proof. exact copies. Qed.
Print Assumptions C105_copies.
Theorem C105_constructed : forall fuel w c, (c < length (hw_lists w))%nat ->
  exists w', wstep fuel w (WNew c) = Some (w', None)
     /\ length (hw_objs w') = S (length (hw_objs w)) /\ content w' (length (hw_objs w)) = client w c.
Proof. exact constructed. Qed.
Print Assumptions C105_constructed.

(** A call on an object does to it what C08 says. *)
Theorem C105_called : forall fuel ops w o call,
  wrun fuel empty_world ops = Some w -> (o < length (hw_objs w))%nat ->
  exists w' e, wstep fuel w (WCall o call) = Some (w', e) /\ header_call (content w o) call (content w' o) e.
Proof. exact called. Qed.
Print Assumptions C105_called.

(** Slices: exactly the lines at the positions the slice takes, in its order; all
    others are left after a deletion. *)
Theorem C105_sliced : forall fuel ops w o a b c,
  wrun fuel empty_world ops = Some w -> (o < length (hw_objs w))%nat ->
  let n := Z.of_nat (length (content w o)) in
  if step_of c =? 0 then wstep fuel w (WSlice o a b c) = Some (w, Some ValueError)
  else exists w' ps, wstep fuel w (WSlice o a b c) = Some (w', None)
    /\ length (hw_objs w') = S (length (hw_objs w))
    /\ in_order (step_of c) ps /\ (forall i, In i ps <-> picked n a b (step_of c) i)
    /\ elements_at (content w o) ps (content w' (length (hw_objs w))).
Proof. exact sliced. Qed.
Print Assumptions C105_sliced.
Theorem C105_slice_deleted : forall fuel ops w o a b c,
  wrun fuel empty_world ops = Some w -> (o < length (hw_objs w))%nat ->
  let n := Z.of_nat (length (content w o)) in
  if step_of c =? 0 then wstep fuel w (WDelSlice o a b c) = Some (w, Some ValueError)
  else exists w' ps, wstep fuel w (WDelSlice o a b c) = Some (w', None)
    /\ StronglySorted Z.lt ps /\ (forall i, In i ps <-> 0 <= i < n /\ ~ picked n a b (step_of c) i)
    /\ elements_at (content w o) ps (content w' o).
Proof. exact slice_deleted. Qed.
Print Assumptions C105_slice_deleted.

(** Assigning to a slice: all values are one line each, or nothing changes.  Without
    a step the lines of the slice are replaced by the new ones, however many; with a
    step as many as the slice takes are replaced where they stand. *)
Theorem C105_slice_set : forall fuel ops w o a b c items,
  wrun fuel empty_world ops = Some w -> (o < length (hw_objs w))%nat ->
  let n := Z.of_nat (length (content w o)) in
  let new := new_lines items in
  exists w' e, wstep fuel w (WSetSlice o a b c items) = Some (w', e) /\
  match e with
  | None => Forall clean_line new /\
      if step_of c =? 1 then
        exists pre mid post, content w o = pre ++ mid ++ post /\ content w' o = pre ++ new ++ post
          /\ Z.of_nat (length pre) = Z.min n (begin_up n a)
          /\ forall i, picked n a b 1 i <-> Z.of_nat (length pre) <= i < Z.of_nat (length pre + length mid)
      else length (content w' o) = length (content w o) /\
        exists ps, in_order (step_of c) ps /\ (forall i, In i ps <-> picked n a b (step_of c) i)
          /\ elements_at (content w' o) ps new
          /\ forall i, ~ In (Z.of_nat i) ps -> nth_error (content w' o) i = nth_error (content w o) i
  | Some x => x = ValueError /\ content w' o = content w o /\
      (~ Forall clean_line new \/ step_of c = 0 \/
       (step_of c <> 1 /\ forall ps, in_order (step_of c) ps ->
          (forall i, In i ps <-> picked n a b (step_of c) i) -> length ps <> length new))
  end.
Proof. exact slice_set. Qed.
Print Assumptions C105_slice_set.

(** extend() with another object adds its lines up to the first that is refused. *)
Theorem C105_extended : forall fuel ops w o p pre bad post,
  wrun fuel empty_world ops = Some w ->
  (o < length (hw_objs w))%nat -> (p < length (hw_objs w))%nat -> o <> p ->
  content w p = pre ++ bad ++ post -> Forall clean_line pre ->
  (bad = [] /\ post = [] \/ exists x, bad = [x] /\ ~ clean_line x) ->
  (length (content w p) < fuel)%nat ->
  exists w', wstep fuel w (WExtend o p) = Some (w', match bad with [] => None | _ => Some ValueError end)
    /\ content w' o = content w o ++ pre.
Proof. exact extended. Qed.
Print Assumptions C105_extended.

(** Every history ends in which no object is extended by itself. *)
Theorem C105_ends : forall ops, (forall p, ~ In (WExtend p p) ops) ->
  exists fuel w, forall fuel', (fuel <= fuel')%nat -> wrun fuel' empty_world ops = Some w.
Proof. exact history_ends. Qed.
Print Assumptions C105_ends.

(** Two objects are equal exactly if each line of one is a line of the other. *)
Theorem C105_equal : forall a b,
  (h_eq a b = true <-> forall line, In line a <-> In line b) /\ h_ne a b = negb (h_eq a b).
Proof. intros a b. split; [apply eq_spec|reflexivity]. Qed.
Print Assumptions C105_equal.

(** Finding: extending an object by itself never ends. *)
Theorem C105_extend_refuted : forall fuel ops w o,
  wrun fuel empty_world ops = Some w -> (o < length (hw_objs w))%nat ->
  content w o <> [] -> Forall clean_line (content w o) -> forall f, wstep f w (WExtend o o) = None.
Proof. exact extend_self. Qed.
Print Assumptions C105_extend_refuted.
(** Finding: equal objects can answer differently. *)
Theorem C105_equal_refuted : exists a b name, h_eq a b = true /\ h_get a name <> h_get b name.
Proof.
  exists [(lit "a", lit "1"); (lit "a", lit "2")], [(lit "a", lit "2"); (lit "a", lit "1"); (lit "a", lit "2")], (lit "a").
  split; [reflexivity|]. vm_compute. discriminate.
Qed.
Print Assumptions C105_equal_refuted.

Definition abc : headers :=
  [(lit "A", lit "1"); (lit "B", lit "2"); (lit "C", lit "3"); (lit "D", lit "4"); (lit "E", lit "5")].
Definition ex_ops : list wop :=
  [WList abc; WNew 0; WListSet 0 []; WCopy 0; WSlice 0 (Some (-1)) None (Some (-2)); WExport 0;
   WCall 1 (HRemove (lit "b")); WDelSlice 0 (Some 1) None (Some 2);
   WSetSlice 2 None (Some 1) None [(lit "X", HInt 7); (lit "Y", HInt 8)]; WExtend 1 2].
Example C105_example : exists w, wrun 9 empty_world ex_ops = Some w
  /\ content w 0 = [(lit "A", lit "1"); (lit "C", lit "3"); (lit "E", lit "5")]
  /\ content w 1 = [(lit "A", lit "1"); (lit "C", lit "3"); (lit "D", lit "4"); (lit "E", lit "5");
                    (lit "X", lit "7"); (lit "Y", lit "8"); (lit "C", lit "3"); (lit "A", lit "1")]
  /\ content w 2 = [(lit "X", lit "7"); (lit "Y", lit "8"); (lit "C", lit "3"); (lit "A", lit "1")]
  /\ client w 0 = [] /\ client w 1 = abc.
Proof. eexists. split; [vm_compute; reflexivity|]. repeat split. Qed.
Example C105_slice_example :
  list_set_slice [1; 2; 3; 4; 5] None None (Some (-2)) [7; 8; 9] = Ok [9; 2; 8; 4; 7]
  /\ list_set_slice [1; 2; 3; 4; 5] (Some 4) (Some 1) None [7; 8] = Ok [1; 2; 3; 4; 7; 8; 5]
  /\ list_set_slice [1; 2; 3; 4; 5] None None (Some 2) [7; 8] = Raise ValueError
  /\ list_del_slice [1; 2; 3; 4; 5] (Some (-2)) (Some 99) None = Ok [1; 2; 3].
Proof. vm_compute. repeat split. Qed.
