(** CombinedMultiDict objects next to the dicts and lists they are made of
    (verktyg/datastructures.py:809-941): which are kept, copies, equality, the cached hash. *)
From Coq Require Import Arith List NArith ZArith Bool.
From Verif Require Import PyStr ModelMultiDict ModelOrdered ModelCombined.
Import ListNotations.
Open Scope N_scope.

Section Objects.
  Context {V : Type}.
  (** MultiDicts, lists of MultiDicts and CombinedMultiDicts are known by their numbers.  A
      CombinedMultiDict holds the number of its list ([self.dicts]) and [_hash_cache]. *)
  Record cstore := CStore { c_dicts : list (mdict V); c_seqs : list (list nat); c_objs : list (nat * option Z) }.
  Definition dict_at (s : cstore) (i : nat) : mdict V := nth i (c_dicts s) [].
  Definition seq_at (s : cstore) (l : nat) : list nat := nth l (c_seqs s) [].
  Definition list_of (s : cstore) (o : nat) : nat := fst (nth o (c_objs s) (0%nat, None)).
  Fixpoint put {A} (l : list A) (i : nat) (x : A) : list A :=
    match l, i with
    | [], _ => []
    | _ :: l', O => x :: l'
    | y :: l', S i' => y :: put l' i' x
    end.
  (** the dicts that the reading methods of ModelCombined go through *)
  Definition combined_of (s : cstore) (o : nat) : combined V := map (dict_at s) (seq_at s (list_of s o)).

  (** __init__ (datastructures.py:835-836): [dicts or []], an empty list is not kept.
      [CombinedMultiDict()] is as with a new empty list.  The new object has the number
      [length (c_objs s)]. *)
  Definition co_new (s : cstore) (l : nat) : cstore :=
    match seq_at s l with
    | [] => CStore (c_dicts s) (c_seqs s ++ [[]]) (c_objs s ++ [(length (c_seqs s), None)])
    | _ => CStore (c_dicts s) (c_seqs s) (c_objs s ++ [(l, None)])
    end.
  (** copy, __copy__ (datastructures.py:908-910, 590-591): the class called with a copy of
      the list *)
  Definition co_copy (s : cstore) (o : nat) : cstore :=
    co_new (CStore (c_dicts s) (c_seqs s ++ [seq_at s (list_of s o)]) (c_objs s)) (length (c_seqs s)).
  (** __hash__ and _iter_hashitems (datastructures.py:131-135, 168-169); the hash of a
      frozenset is a parameter.  Values are taken to be hashable. *)
  Variable fhash : list (option nat * (str * V)) -> Z.
  Definition co_hash (s : cstore) (o : nat) : cstore * Z :=
    match snd (nth o (c_objs s) (0%nat, None)) with
    | Some z => (s, z)
    | None =>
        let z := fhash (map (fun kv => (None, kv)) (c_items_multi (combined_of s o))) in
        (CStore (c_dicts s) (c_seqs s) (put (c_objs s) o (list_of s o, Some z)), z)
    end.
  (** What may happen: objects are made, copied and hashed; a list gets another content; a
      method of a MultiDict is called; new MultiDicts and lists are made.  In-place union,
      which the mixin does not refuse, is left out (see C05). *)
  Inductive cop :=
  | CNew (l : nat) | CCopy (o : nat) | CHash (o : nat)
  | CSeq (l : nat) (content : list nat) | CCall (i : nat) (m : mop V)
  | CDictNew (d : source V) | CSeqNew (content : list nat).
  Definition c_step (s : cstore) (x : cop) : cstore :=
    match x with
    | CNew l => co_new s l
    | CCopy o => co_copy s o
    | CHash o => fst (co_hash s o)
    | CSeq l content => CStore (c_dicts s) (put (c_seqs s) l content) (c_objs s)
    | CCall i m => CStore (put (c_dicts s) i (fst (m_step (dict_at s i) m))) (c_seqs s) (c_objs s)
    | CDictNew d => CStore (c_dicts s ++ [m_init d]) (c_seqs s) (c_objs s)
    | CSeqNew content => CStore (c_dicts s) (c_seqs s ++ [content]) (c_objs s)
    end.
  Definition c_run (s : cstore) (l : list cop) : cstore := fold_left c_step l s.

  (** ** Equality
      __eq__ is dict's: it compares what the objects hold as dicts.  A CombinedMultiDict
      holds nothing itself, __init__ does not fill it (835-836). *)
  Definition own (ds : combined V) : mdict V := [].
  Variable veq : V -> V -> bool.
  Definition co_eq (a b : combined V) : bool := md_eq veq (own a) (own b).
  (** against a MultiDict, either way round: a subclass is asked first *)
  Definition co_eq_multi (a : combined V) (d : mdict V) : bool := md_eq veq (own a) d.
  (** against an OrderedMultiDict, which holds buckets *)
  Definition co_eq_omd (a : combined V) (o : omd V) : bool := md_eq_omd (own a) o.
  (** an OrderedMultiDict on the left (datastructures.py:655-678) asks for the length and
      the lists of the other *)
  Definition omd_eq_co (o : omd V) (a : combined V) : option bool :=
    if Nat.eqb (o_len o) (c_len a)
    then option_map (forallb (fun kl => leq veq (c_getlist a (fst kl)) (snd kl))) (o_lists o)
    else Some false.
End Objects.
Arguments cstore V : clear implicits.
Arguments cop V : clear implicits.
