(** C120: dispatchers and what is added to them. *)
From Coq Require Import Arith List NArith ZArith Bool Lia Permutation.
From Verif Require Import PyStr PyStrFacts ModelAccept SpecAccept ModelDispatch SpecDispatch ModelFactory SpecFactory ProofFactory.
Import ListNotations.
Open Scope N_scope.

(** Whatever the order in which sets yield their elements, a dispatcher to which
    bindings, views and other dispatchers are added holds, behind what it held, the
    bindings that each of them gives at that moment; no other dispatcher changes. *)
Theorem C120_adds : forall order st t fs,
  some_order order -> Forall (usable (length st)) fs -> ~ In (SDispatcher t) fs ->
  exists n bss st', Forall2 (gives (contents st)) fs bss /\ added (contents st) t (concat bss) (contents st') /\
    forall fuel, (n <= fuel)%nat -> add_factories order fuel st t fs = Some (st', None).
Proof. exact adds. Qed.
Print Assumptions C120_adds.

(** A dispatcher can be added to itself only while it is empty: otherwise the call does
    not end. *)
Theorem C120_self_refuted : forall order st t d, nth_error st t = Some d ->
  ((exists fuel r, add_factories order fuel st t [SDispatcher t] = Some r) <-> d_views d = []).
Proof. exact self_adds. Qed.
Print Assumptions C120_self_refuted.

(** Any calls end in which no dispatcher is added to itself, and make the dispatchers that
    were asked for. *)
Theorem C120_ends : forall order l, some_order order -> ordinary 0 l ->
  exists n st, length st = dispatchers_made l /\ forall fuel, (n <= fuel)%nat -> drun order fuel [] l = Some st.
Proof. intros order l O H. exact (ends order O l [] H). Qed.
Print Assumptions C120_ends.
(** After any calls, every dispatcher answers by the bindings it holds: what is found
    serves the name and the method, and nothing is missed. *)
Theorem C120_found : forall order float_of fmul fuel l st i d name method accept language charset r,
  drun order fuel [] l = Some st -> nth_error st i = Some d ->
  lookup float_of fmul d name method accept language charset = Ok r ->
  exists b, serves (d_views d) name method b /\ b_repr b = r.
Proof. exact reached_found. Qed.
Print Assumptions C120_found.
Theorem C120_unknown : forall order float_of fmul fuel l st i d name method accept language charset,
  drun order fuel [] l = Some st -> nth_error st i = Some d ->
  (lookup float_of fmul d name method accept language charset = Raise NotImplemented <->
   forall b, In b (d_views d) -> b_name b <> name).
Proof. exact reached_unknown. Qed.
Print Assumptions C120_unknown.
Theorem C120_method : forall order float_of fmul fuel l st i d name method accept language charset,
  drun order fuel [] l = Some st -> nth_error st i = Some d ->
  (lookup float_of fmul d name method accept language charset = Raise MethodNotAllowed <->
   (exists b, In b (d_views d) /\ b_name b = name) /\ forall b, ~ serves (d_views d) name method b).
Proof. exact reached_method. Qed.
Print Assumptions C120_method.

(** No answer depends on the order in which sets yield their elements (strings are
    hashed differently in each process), though what is tried first among bindings of
    equal quality depends on the order of adding. *)
Theorem C120_order : forall o1 o2, some_order o1 -> some_order o2 -> forall fuel l,
  match drun o1 fuel [] l, drun o2 fuel [] l with
  | Some st1, Some st2 => length st1 = length st2 /\
      forall i d1 d2, nth_error st1 i = Some d1 -> nth_error st2 i = Some d2 ->
      forall float_of fmul name method accept language charset,
        lookup float_of fmul d1 name method accept language charset =
        lookup float_of fmul d2 name method accept language charset
  | None, None => True
  | _, _ => False
  end.
Proof. exact order_free. Qed.
Print Assumptions C120_order.

(** A class derived from ClassView that has no name raises when it is added; what stood
    before it in the call has been added by then, what stands behind it is not. *)
Theorem C120_nameless_refuted : forall order st t fs attrs m fs',
  some_order order -> Forall (usable (length st)) fs -> ~ In (SDispatcher t) fs ->
  In m [lit "GET"; lit "HEAD"; lit "POST"; lit "PUT"; lit "DELETE"] -> dhas attrs m = true ->
  exists n bss st', Forall2 (gives (contents st)) fs bss /\ added (contents st) t (concat bss) (contents st') /\
    forall fuel, (n <= fuel)%nat ->
      add_factories order fuel st t (fs ++ SClass (mk_class_view None attrs) :: fs') = Some (st', Some AttributeError).
Proof. exact adds_fail. Qed.
Print Assumptions C120_nameless_refuted.

(** Two dispatchers: the second is made of the first and one more view; what is added to
    either afterwards is not seen by the other. *)
Definition ex_view (name : str) (n : nat) (m : methods) : source :=
  SView (new_view name n m (Some (lit "text/html")) None None None).
Definition ex_class : source := SClass (mk_class_view (Some (lit "item")) [(lit "POST", 7%nat); (lit "PATCH", 8%nat); (lit "GET", 9%nat)]).
Definition ex_calls : list dcall :=
  [DNew [ex_view (lit "page") 1 MNone]; DNew [SDispatcher 0; ex_view (lit "edit") 2 (MList [lit "PUT"; lit "POST"; lit "PUT"])];
   DAdd 0 [ex_view (lit "late") 3 (MStr (lit "GET"))]; DAdd 1 [ex_class]].
Definition shown (st : option store) : option (list (list (str * str * nat))) :=
  option_map (map (map (fun b => (b_name b, b_method b, r_self (b_repr b))))) (option_map contents st).
Example C120_example :
  some_order (fun l => l) /\ some_order (@rev str) /\
  shown (drun (fun l => l) 9 [] ex_calls) =
    Some [[(lit "page", lit "GET", 1); (lit "late", lit "GET", 3)];
          [(lit "page", lit "GET", 1); (lit "edit", lit "POST", 2); (lit "edit", lit "PUT", 2);
           (lit "item", lit "GET", 9); (lit "item", lit "POST", 7)]]%nat /\
  shown (drun (@rev str) 9 [] ex_calls) =
    Some [[(lit "page", lit "GET", 1); (lit "late", lit "GET", 3)];
          [(lit "page", lit "GET", 1); (lit "edit", lit "PUT", 2); (lit "edit", lit "POST", 2);
           (lit "item", lit "POST", 7); (lit "item", lit "GET", 9)]]%nat.
Proof.
  split; [intros l; apply Permutation_refl|]. split; [intros l; apply Permutation_sym, Permutation_rev|].
  split; vm_compute; reflexivity.
Qed.
Example C120_usable : Forall (usable 2) [SDispatcher 0; ex_view (lit "edit") 2 (MList [lit "PUT"]); ex_class] /\
  ~ In (SDispatcher 1) [SDispatcher 0; ex_view (lit "edit") 2 (MList [lit "PUT"]); ex_class].
Proof.
  split; [|cbn; intuition discriminate].
  constructor; [constructor; lia|]. constructor; [constructor|]. constructor; [constructor|constructor].
Qed.
Example C120_self_example : exists d, nth_error (match drun (fun l => l) 9 [] ex_calls with Some st => st | None => [] end) 1 = Some d /\ d_views d <> [].
Proof. eexists. split; [vm_compute; reflexivity|discriminate]. Qed.
Example C120_ends_example : ordinary 0 ex_calls.
Proof. unfold ex_calls. repeat (constructor; try lia). all: intros I; repeat (destruct I as [I|I]; [discriminate|]); destruct I. Qed.
Example C120_nameless_example : exists st,
  add_factories (fun l => l) 9 [new_dispatcher] 0 [ex_class; SClass (mk_class_view None [(lit "GET", 1%nat)]); ex_class] = Some (st, Some AttributeError) /\
  map (fun d => map b_method (d_views d)) st = [[lit "GET"; lit "POST"]].
Proof. eexists. split; [vm_compute; reflexivity|]. reflexivity. Qed.
