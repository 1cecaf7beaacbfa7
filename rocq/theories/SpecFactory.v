(** * Vocabulary of the claims about factories of bindings *)
From Coq Require Import Arith List NArith Bool Permutation.
From Verif Require Import PyStr ModelAccept ModelDispatch ModelFactory.
Import ListNotations.
Open Scope N_scope.

(** Sets yield each of their elements once, in any order. *)
Definition some_order (order : list str -> list str) : Prop := forall l, Permutation (order l) l.

(** The bindings that each dispatcher holds *)
Definition contents (st : store) : list (list binding) := map d_views st.

(** The method [x] is among those asked for: GET if nothing was said. *)
Definition asked (m : methods) (x : str) : Prop :=
  match m with MNone => x = lit "GET" | MStr s => x = s | MList l => In x l end.

(** [bs] are exactly the bindings with the property, each once. *)
Definition exactly (P : binding -> Prop) (bs : list binding) : Prop :=
  NoDup bs /\ forall b, In b bs <-> P b.

(** [gives h f bs]: when the dispatchers hold [h], the factory [f] gives the bindings
    [bs]. *)
Inductive gives (h : list (list binding)) : source -> list binding -> Prop :=
| gi_binding b : gives h (SBinding b) [b]
| gi_view name n m ct la ch qs bs :
    exactly (fun b => b_name b = name /\ asked m (b_method b) /\
                      b_repr b = numbered n (new_repr ct la ch qs)) bs ->
    gives h (SView (new_view name n m ct la ch qs)) bs
| gi_class name attrs bs :
    exactly (fun b => b_name b = name /\
                      In (b_method b) [lit "GET"; lit "HEAD"; lit "POST"; lit "PUT"; lit "DELETE"] /\
                      exists n, dget attrs (b_method b) = Some n /\
                                b_repr b = numbered n (new_repr None None None None)) bs ->
    gives h (SClass (mk_class_view (Some name) attrs)) bs
| gi_dispatcher i bs : nth_error h i = Some bs -> gives h (SDispatcher i) bs.

(** A factory that can be asked: views made by the constructor, class views with a
    name, dispatchers that exist. *)
Inductive usable (n : nat) : source -> Prop :=
| us_binding b : usable n (SBinding b)
| us_view name k m ct la ch qs : usable n (SView (new_view name k m ct la ch qs))
| us_class name attrs : usable n (SClass (mk_class_view (Some name) attrs))
| us_dispatcher i : (i < n)%nat -> usable n (SDispatcher i).

(** [added h t bs h']: the dispatcher [t] holds [bs] more, in this order and behind the
    rest; no other is changed. *)
Definition added (h : list (list binding)) (t : nat) (bs : list binding) (h' : list (list binding)) : Prop :=
  length h' = length h /\
  forall i, nth_error h' i = if (i =? t)%nat then option_map (fun l => l ++ bs) (nth_error h i) else nth_error h i.
(** Calls among [n] dispatchers of which none adds a dispatcher to itself and all sources can
    be asked. *)
Inductive ordinary : nat -> list dcall -> Prop :=
| ord_nil n : ordinary n []
| ord_new n fs l : Forall (usable n) fs -> ordinary (S n) l -> ordinary n (DNew fs :: l)
| ord_add n t fs l : (t < n)%nat -> Forall (usable n) fs -> ~ In (SDispatcher t) fs -> ordinary n l -> ordinary n (DAdd t fs :: l).
Definition dispatchers_made (l : list dcall) : nat := length (filter (fun c => match c with DNew _ => true | DAdd _ _ => false end) l).
