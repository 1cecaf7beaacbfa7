(** Reference behaviour of a map from keys to value lists that remembers the order in
    which keys arrived. *)
From Coq Require Import Arith List NArith ZArith Bool.
From Verif Require Import PyStr ModelMultiDict.
Import ListNotations.
Open Scope N_scope.

Section Ref.
  Context {V : Type}.
  (** The keys in order of arrival, and the values of each key; a key without values is
      not there. *)
  Record multimap := MM { mm_keys : list str; mm_vals : str -> list V }.
  Definition mm_empty : multimap := MM [] (fun _ => []).
  Definition change (f : str -> list V) (k : str) (l : list V) : str -> list V :=
    fun k' => if list_eq_dec N.eq_dec k' k then l else f k'.
  Definition put (m : multimap) (k : str) (l : list V) : multimap :=
    MM (if in_dec (list_eq_dec N.eq_dec) k (mm_keys m) then mm_keys m else mm_keys m ++ [k]) (change (mm_vals m) k l).
  Definition drop (m : multimap) (k : str) : multimap :=
    MM (remove (list_eq_dec N.eq_dec) k (mm_keys m)) (change (mm_vals m) k []).
  Definition append (m : multimap) (kv : str * V) : multimap := put m (fst kv) (mm_vals m (fst kv) ++ [snd kv]).
  Fixpoint last_key (l : list str) : option str :=
    match l with [] => None | [k] => Some k | _ :: l' => last_key l' end.
  (** one call *)
  Definition mm_step (m : multimap) (o : mop V) : multimap * res (mret V) :=
    match o with
    | MAdd k v => (append m (k, v), Ok RetNone)
    | MSetList k l => (put m k l, Ok RetNone)
    | MSet k v => (put m k [v], Ok RetNone)
    | MSetDefault k v =>
        match mm_vals m k with [] => (put m k [v], Ok (RetVal v)) | x :: _ => (m, Ok (RetVal x)) end
    | MSetListDefault k l =>
        match mm_vals m k with [] => (put m k l, Ok (RetList l)) | vs => (m, Ok (RetList vs)) end
    | MUpdate s => (fold_left append (pairs_of s) m, Ok RetNone)
    | MPop k default =>
        match mm_vals m k, default with
        | x :: _, _ => (drop m k, Ok (RetVal x))
        | [], Some x => (m, Ok (RetVal x))
        | [], None => (m, Raise KeyError)
        end
    | MPopItem =>
        match last_key (mm_keys m) with
        | Some k => (drop m k, match mm_vals m k with x :: _ => Ok (RetItem k x) | [] => Raise KeyError end)
        | None => (m, Raise KeyError)
        end
    | MPopList k => (drop m k, Ok (RetList (mm_vals m k)))
    | MPopItemList =>
        match last_key (mm_keys m) with
        | Some k => (drop m k, Ok (RetItemList k (mm_vals m k)))
        | None => (m, Raise KeyError)
        end
    | MDel k => match mm_vals m k with [] => (m, Raise KeyError) | _ => (drop m k, Ok RetNone) end
    | MClear => (mm_empty, Ok RetNone)
    end.
  Fixpoint mm_run (m : multimap) (ops : list (mop V)) : multimap * list (res (mret V)) :=
    match ops with
    | [] => (m, [])
    | o :: ops' => let (m', r) := mm_step m o in let (m'', rs) := mm_run m' ops' in (m'', r :: rs)
    end.
  (** the reads *)
  Definition mm_first (m : multimap) (k : str) : res V := match mm_vals m k with x :: _ => Ok x | [] => Raise KeyError end.
  Definition mm_multi (m : multimap) : list (str * V) := flat_map (fun k => map (fun v => (k, v)) (mm_vals m k)) (mm_keys m).
  Definition mm_lists (m : multimap) : list (str * list V) := map (fun k => (k, mm_vals m k)) (mm_keys m).
  (** the pairs of keys and first values *)
  Definition mm_firsts (m : multimap) : list (str * V) :=
    flat_map (fun k => match mm_vals m k with x :: _ => [(k, x)] | [] => [] end) (mm_keys m).

  (** All reads of [d] give what [m] gives. *)
  Definition reads_agree (d : mdict V) (m : multimap) : Prop :=
    (forall k, m_getitem d k = mm_first m k) /\
    (forall k, m_getlist d k = mm_vals m k) /\
    m_items d = Ok (mm_firsts m) /\
    m_items_multi d = mm_multi m /\
    m_lists d = mm_lists m /\
    m_keys d = mm_keys m /\
    m_values d = Ok (map snd (mm_firsts m)) /\
    m_len d = length (mm_keys m) /\
    (forall k, m_contains d k = true <-> mm_vals m k <> []) /\
    m_to_dict d = Ok (mm_firsts m) /\
    m_to_dict_lists d = mm_lists m.

  (** No empty list is stored under a key. *)
  Definition full_value (x : mvalue V) : Prop := match x with Many [] => False | _ => True end.
  Definition full_source (s : source V) : Prop :=
    match s with
    | SPairs _ => True
    | SDict d => NoDup (map fst d) /\ Forall (fun kv => full_value (snd kv)) d
    | SMulti d => NoDup (map fst d) /\ Forall (fun kl => snd kl <> []) d
    end.
  Definition full_call (o : mop V) : Prop :=
    match o with
    | MSetList _ [] | MSetListDefault _ [] => False
    | _ => True
    end.
End Ref.
Arguments multimap V : clear implicits.
