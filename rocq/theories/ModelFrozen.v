(** Hashes, pickles and fromkeys of the immutable containers (verktyg/datastructures.py,
    http/auth.py). *)
From Coq Require Import Arith List NArith ZArith Bool.
From Verif Require Import PyStr ModelMultiDict ModelOrdered ModelCallback.
Import ListNotations.
Open Scope N_scope.

(** ** The cached hash *)
Section Hash.
  Context {S A R : Type}.
  (** the content of a container and [_hash_cache]; [h]: the hash of a content
      (datastructures.py:57, 134, and _iter_hashitems) *)
  Record frozen := Frozen { data : S; cache : option Z }.
  Variable h : S -> Z.
  Variable base : str -> A -> S -> S * res R.
  Variable c : container.
  (** __hash__ (datastructures.py:54-58, 131-135) *)
  Definition f_hash (o : frozen) : frozen * Z :=
    match cache o with
    | Some z => (o, z)
    | None => (Frozen (data o) (Some (h (data o))), h (data o))
    end.
  (** hash(o), or a method called by name as in [imm_call] *)
  Inductive fop := FHash | FCall (name : str) (a : A).
  Definition f_step (o : frozen) (x : fop) : frozen * option Z :=
    match x with
    | FHash => let (o', z) := f_hash o in (o', Some z)
    | FCall name a => (Frozen (fst (imm_call base c (data o) (name, a))) (cache o), None)
    end.
  Fixpoint f_run (o : frozen) (l : list fop) : frozen * list Z :=
    match l with
    | [] => (o, [])
    | x :: l' =>
        let (o', z) := f_step o x in
        let (o'', zs) := f_run o' l' in
        (o'', match z with Some z => z :: zs | None => zs end)
    end.
End Hash.
Arguments frozen S : clear implicits.
Arguments fop A : clear implicits.

(** ** Pickles and fromkeys *)
Section Pickle.
  Context {V : Type}.
  Variable dup : V -> V.                 (* what pickle and unpickle make of a value *)
  Definition dup_pair (kv : str * V) : str * V := (fst kv, dup (snd kv)).
  (** dict(pairs) *)
  Definition as_dict (l : list (str * V)) : dict V := fold_left (fun a kv => dset a (fst kv) (snd kv)) l [].
  (** ImmutableList (datastructures.py:60-61): the class called with a list *)
  Definition il_pickle (l : list V) : list V := map dup l.
  (** ImmutableDict, ImmutableTypeConversionDict, RequestCacheControl
      (datastructures.py:125-126): the class called with dict(self) *)
  Definition id_pickle (d : dict V) : dict V := as_dict (map dup_pair d).
  (** ImmutableMultiDict (datastructures.py:165-166, 324-340): the class called with the
      list of all pairs *)
  Definition imd_pickle (d : mdict V) : mdict V := m_init (SPairs (map dup_pair (m_items_multi d))).
  (** ImmutableOrderedMultiDict (datastructures.py:165-166, 676-681) *)
  Definition iod_pickle (o : omd V) : option (omd V) :=
    option_map (fun l => o_init (SPairs (map dup_pair l))) (o_items_multi o).
  (** Authorization (http/auth.py:29-31): a type, here a text or the dict that
      [__reduce_ex__] of the mixin passes in its place, and a dict *)
  Inductive auth_kind := KText (t : str) | KDict (d : dict V).
  Record authorization := Auth { auth_type : auth_kind; auth_data : dict V }.
  Definition auth_pickle (a : authorization) : authorization := Auth (KDict (id_pickle (auth_data a))) [].

  (** fromkeys (datastructures.py:118-122) *)
  Definition keyed (keys : list str) (v : V) : list (str * V) := map (fun k => (k, v)) keys.
  Definition id_fromkeys (keys : list str) (v : V) : dict V := as_dict (keyed keys v).
  Definition imd_fromkeys (keys : list str) (v : V) : mdict V := m_init (SPairs (keyed keys v)).
  Definition iod_fromkeys (keys : list str) (v : V) : omd V := o_init (SPairs (keyed keys v)).
  (** MultiDict inherits fromkeys of dict: an empty one, then [d[key] = value] *)
  Definition md_fromkeys (keys : list str) (v : V) : mdict V := fst (m_run [] (map (fun k => MSet k v) keys)).
End Pickle.
Arguments authorization V : clear implicits.
Arguments auth_kind V : clear implicits.
