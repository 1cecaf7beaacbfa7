(** Model of CombinedMultiDict and of equality and hashing of the immutable multi dicts
    (verktyg/datastructures.py). *)
From Coq Require Import Arith List NArith ZArith Bool.
From Verif Require Import PyStr ModelMultiDict ModelOrdered.
Import ListNotations.
Open Scope N_scope.

Section Combined.
  Context {V : Type}.
  (** CombinedMultiDict over MultiDicts (datastructures.py:809-941) *)
  Definition combined := list (mdict V).

  (** __getitem__ (datastructures.py:844-848) *)
  Fixpoint c_getitem (ds : combined) (k : str) : res V :=
    match ds with
    | [] => Raise KeyError
    | d :: ds' => if m_contains d k then m_getitem d k else c_getitem ds' k
    end.
  (** get with and without a type (datastructures.py:850-859) *)
  Fixpoint c_get_typed {W} (ds : combined) (k : str) (conv : V -> res W) (default : W) : res W :=
    match ds with
    | [] => Ok default
    | d :: ds' =>
        if m_contains d k then
          match bind (m_getitem d k) conv with
          | Raise e => if is_value_error e then c_get_typed ds' k conv default else Raise e
          | r => r
          end
        else c_get_typed ds' k conv default
    end.
  Fixpoint c_get (ds : combined) (k : str) (default : V) : res V :=
    match ds with
    | [] => Ok default
    | d :: ds' => if m_contains d k then m_getitem d k else c_get ds' k default
    end.
  (** getlist (datastructures.py:861-865) *)
  Definition c_getlist (ds : combined) (k : str) : list V := fold_left (fun rv d => rv ++ m_getlist d k) ds [].
  Fixpoint c_getlist_typed {W} (ds : combined) (k : str) (conv : V -> res W) : res (list W) :=
    match ds with
    | [] => Ok []
    | d :: ds' => do a <- m_getlist_typed d k conv; do b <- c_getlist_typed ds' k conv; Ok (a ++ b)
    end.
  (** _keys_impl, keys, len (datastructures.py:867-880, 929-930): a set; the order of the
      model's list stands for any order *)
  Definition set_add (s : list str) (k : str) : list str := if existsb (eqs k) s then s else s ++ [k].
  Definition c_keys (ds : combined) : list str := fold_left (fun s d => fold_left set_add (m_keys d) s) ds [].
  Definition c_len (ds : combined) : nat := length (c_keys ds).
  (** items (datastructures.py:884-892) *)
  Definition c_items_multi (ds : combined) : list (str * V) := flat_map m_items_multi ds.
  Fixpoint c_items_loop (ds : combined) : res (list (str * V)) :=
    match ds with [] => Ok [] | d :: ds' => do a <- m_items d; do b <- c_items_loop ds'; Ok (a ++ b) end.
  Definition c_items (ds : combined) : res (list (str * V)) := do l <- c_items_loop ds; Ok (unseen [] l).
  Definition c_values (ds : combined) : res (list V) := do l <- c_items ds; Ok (map snd l).
  (** lists (datastructures.py:898-906) *)
  Definition extend_key (rv : dict (list V)) (kl : str * list V) : dict (list V) :=
    match dget rv (fst kl) with Some l => dset rv (fst kl) (l ++ snd kl) | None => dset rv (fst kl) (snd kl) end.
  Definition c_lists (ds : combined) : list (str * list V) :=
    fold_left (fun rv d => fold_left extend_key (m_lists d) rv) ds [].
  (** to_dict (datastructures.py:912-927): rv.update over the dicts in reverse *)
  Definition d_update {X} (rv d : dict X) : dict X := fold_left (fun a kv => dset a (fst kv) (snd kv)) d rv.
  Definition c_to_dict (ds : combined) : res (dict V) :=
    fold_left (fun rv d => do a <- rv; do b <- m_to_dict d; Ok (d_update a b)) (rev ds) (Ok []).
  Definition c_to_dict_lists (ds : combined) : dict (list V) :=
    fold_left (fun rv d => d_update rv (m_to_dict_lists d)) (rev ds) [].
  (** __contains__ (datastructures.py:932-936) *)
  Definition c_contains (ds : combined) (k : str) : bool := existsb (fun d => m_contains d k) ds.
End Combined.
Arguments combined V : clear implicits.

(** ** Equality and hashing *)
Section Equality.
  Context {V : Type} (veq : V -> V -> bool).     (* == of the values *)
  Fixpoint leq (a b : list V) : bool :=
    match a, b with [], [] => true | x :: a', y :: b' => veq x y && leq a' b' | _, _ => false end.
  (** dict.__eq__, inherited by MultiDict *)
  Definition md_eq (a b : mdict V) : bool :=
    Nat.eqb (length a) (length b) &&
    forallb (fun kl => match dget b (fst kl) with Some l => leq (snd kl) l | None => false end) a.
  (** OrderedMultiDict.__eq__ (datastructures.py:655-678); [None]: a listing does not end *)
  Fixpoint pairs_eq (a b : list (str * V)) : bool :=
    match a, b with
    | [], [] => true
    | (k1, v1) :: a', (k2, v2) :: b' => eqs k1 k2 && veq v1 v2 && pairs_eq a' b'
    | _, _ => false
    end.
  Definition omd_eq (a b : omd V) : option bool :=
    match o_items_multi a, o_items_multi b with Some x, Some y => Some (pairs_eq x y) | _, _ => None end.
  Definition omd_eq_multi (a : omd V) (b : mdict V) : option bool :=
    if Nat.eqb (o_len a) (m_len b)
    then option_map (forallb (fun kl => leq (m_getlist b (fst kl)) (snd kl))) (o_lists a)
    else Some false.
  (** ImmutableMultiDict == ImmutableOrderedMultiDict: dict.__eq__ finds texts on one side,
      buckets on the other; a bucket equals nothing else.  (With a plain MultiDict on the left
      Python asks the right side first, its class being a subclass: [omd_eq_multi].) *)
  Definition md_eq_omd (a : mdict V) (b : omd V) : bool :=
    Nat.eqb (length a) (length (o_dict b)) &&
    forallb (fun kl => match dget (o_dict b) (fst kl), snd kl with Some [], [] => true | _, _ => false end) a.

  (** __hash__ and _iter_hashitems (datastructures.py:128-135, 168-169, 984-985): the hash
      of the frozenset of the pairs, with their positions for ordered dicts.  The hash of a
      frozenset is a parameter. *)
  Variable fhash : list (option nat * (str * V)) -> Z.
  Definition md_hash (d : mdict V) : Z := fhash (map (fun kv => (None, kv)) (m_items_multi d)).
  Fixpoint enum (n : nat) (l : list (str * V)) : list (option nat * (str * V)) :=
    match l with [] => [] | kv :: l' => (Some n, kv) :: enum (S n) l' end.
  Definition omd_hash (d : omd V) : option Z := option_map (fun l => fhash (enum 0 l)) (o_items_multi d).
End Equality.
