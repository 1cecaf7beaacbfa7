(** Which lists belong to whom, and what a call on a MultiDict object means for its content. *)
From Coq Require Import Arith List NArith ZArith Bool.
From Verif Require Import PyStr ModelMultiDict ModelMultiObject SpecOrdered.
Import ListNotations.
Open Scope N_scope.

Section Spec.
  Context {V : Type}.
  (** the list r is the one under some key of the object i *)
  Definition owned (s : store V) (i r : nat) : Prop := exists k, In (k, r) (obj s i).
  (** Every list of an object exists, belongs to that object alone and is under one key. *)
  Definition ok (s : store V) : Prop :=
    (forall i r, owned s i r -> (r < length (lists s))%nat)
    /\ (forall i, NoDup (map fst (obj s i)))
    /\ (forall i j k k' r, In (k, r) (obj s i) -> In (k', r) (obj s j) -> i = j /\ k = k')
    /\ (forall r, In r (held s) -> (r < length (lists s))%nat).
  (** No list that the caller holds is the list of an object. *)
  Definition private (s : store V) : Prop := forall i r, owned s i r -> ~ In r (held s).

  (** The argument of a constructor, with the contents in place of the lists *)
  Definition source_of (s : store V) (a : arg V) : source V :=
    match a with
    | APairs l => SPairs l
    | ADict d => SDict (map (fun kg => (fst kg, match snd kg with GOne v => One v | GList r => Many (content s r) end)) d)
    | AMulti j => SMulti (view s j)
    end.
  (** The call with the contents of the lists in place of the lists; [None]: it only reads. *)
  Definition meant (s : store V) (c : call V) : option (mop V) :=
    match c with
    | CAdd k v => Some (MAdd k v)
    | CSetList k r => Some (MSetList k (content s r))
    | CSet k v => Some (MSet k v)
    | CSetDefault k v => Some (MSetDefault k v)
    | CSetListDefault k r => Some (MSetListDefault k (content s r))
    | CUpdate a => Some (MUpdate (SPairs (arg_pairs s a)))
    | CPop k d => Some (MPop k d)
    | CPopItem => Some MPopItem
    | CPopList k => Some (MPopList k)
    | CPopItemList => Some MPopItemList
    | CDel k => Some (MDel k)
    | CClear => Some MClear
    | _ => None
    end.
  (** A returned list stands for its content. *)
  Definition shows (s : store V) (r : res (ret V)) (m : res (mret V)) : Prop :=
    match r, m with
    | Ok ONone, Ok RetNone => True
    | Ok (OVal v), Ok (RetVal w) => v = w
    | Ok (OList r), Ok (RetList l) => content s r = l
    | Ok (OItem k v), Ok (RetItem k' w) => k = k' /\ v = w
    | Ok (OItemList k r), Ok (RetItemList k' l) => k = k' /\ content s r = l
    | Raise e, Raise e' => e = e'
    | _, _ => False
    end.
  (** What the reading calls return *)
  Definition reads (s s' : store V) (i : nat) (c : call V) (r : res (ret V)) : Prop :=
    match c with
    | CGetList k => exists n, r = Ok (OList n) /\ content s' n = m_getlist (view s i) k
    | _ => exists l, r = Ok (OLists l) /\ map (fun kr => (fst kr, content s' (snd kr))) l = view s i
    end.
  (** Not [__setstate__], and not the update of an object with itself *)
  Definition ordinary (i : nat) (c : call V) : Prop :=
    match c with CSetState _ => False | CUpdate (AMulti j) => j <> i | _ => True end.
  (** The calls that hand out the lists of the object themselves *)
  Definition hands_out (c : call V) : Prop := match c with CSetListDefault _ _ | CListValues => True | _ => False end.
  (** What a caller can do in a state, [P] restricting the calls *)
  Definition possible (P : call V -> Prop) (s : store V) (a : action V) : Prop :=
    match a with
    | Call i c => (i < length (objs s))%nat /\ ordinary i c /\ P c
    | ChangeList r _ => In r (held s)
    | _ => True
    end.
  Inductive reached (dup : V -> V) (P : call V -> Prop) : store V -> Prop :=
  | re_start : reached dup P start
  | re_step s a : reached dup P s -> possible P s a -> reached dup P (act dup s a).

  (** The pairs of a sequence, brought together by key in the order of the first pairs *)
  Definition grouped (s : list (str * V)) : list (str * V) :=
    flat_map (fun kv => map (fun v => (fst kv, v)) (of_key s (fst kv))) (firsts s).
End Spec.
