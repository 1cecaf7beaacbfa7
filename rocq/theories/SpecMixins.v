(** Orders of classes, in plain terms. *)
From Coq Require Import Arith List NArith Bool.
From Verif Require Import PyStr ModelMixins.
Import ListNotations.
Open Scope nat_scope.

(** [x] stands before [y] in the list. *)
Inductive before {A} (x y : A) : list A -> Prop :=
| bf_here l : In y l -> before x y (x :: l)
| bf_later z l : before x y l -> before x y (z :: l).
(** [m] is a common order of the lists: every element once, in the order of each list. *)
Definition common_order (m : list nat) (ls : list (list nat)) : Prop :=
  NoDup m /\ (forall c, In c m <-> exists l, In l ls /\ In c l) /\
  forall l x y, In l ls -> before x y l -> before x y m.
(** The classes that programs can make, one after the other. *)
Inductive made : world -> Prop :=
| made_object : made [object_class]
| made_class w bases attrs w' : made w -> (forall b, In b bases -> b < length w) ->
    make_class w bases attrs = Ok w' -> made w'.
(** The list without repetitions: only the first of equal elements stays. *)
Fixpoint first_only (l : list nat) : list nat :=
  match l with [] => [] | c :: t => c :: remove Nat.eq_dec c (first_only t) end.
(** What a history adds *)
Definition app_mixins (cs : list mcall) : list nat := flat_map (fun c => match c with MApp l => l | _ => [] end) cs.
Definition req_mixins (cs : list mcall) : list nat := flat_map (fun c => match c with MReq l => l | _ => [] end) cs.
(** The last value that a name was given *)
Inductive last_given (k : str) : list (str * nat) -> option nat -> Prop :=
| lg_none l : (forall v, ~ In (k, v) l) -> last_given k l None
| lg_some l v l' : (forall v', ~ In (k, v') l') -> last_given k (l ++ (k, v) :: l') (Some v).
Definition converters_given (cs : list mcall) : list (str * nat) := flat_map (fun c => match c with MConv kw => kw | _ => [] end) cs.
Definition config_given (cs : list mcall) : list (str * nat) := flat_map (fun c => match c with MConfig k v => [(k, v)] | _ => [] end) cs.
(** Which class comes next once those of [p] have come: [x] may if everything that any list
    has before it has come; the first class of a list that has not come is its candidate;
    the first list whose candidate may come next decides. *)
Definition may_come (ls : list (list nat)) (p : list nat) (x : nat) : Prop :=
  ~ In x p /\ forall l y, In l ls -> before y x l -> In y p.
Definition candidate (p l : list nat) (x : nat) : Prop := exists a b, l = a ++ x :: b /\ incl a p /\ ~ In x p.
Definition comes_next (ls : list (list nat)) (p : list nat) (c : nat) : Prop :=
  exists ls1 l ls2, ls = ls1 ++ l :: ls2 /\ candidate p l c /\ may_come ls p c /\
  forall l' x, In l' ls1 -> candidate p l' x -> ~ may_come ls p x.
