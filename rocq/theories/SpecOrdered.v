(** Reference behaviour of an ordered multi dict: one sequence of pairs. *)
From Coq Require Import Arith List NArith ZArith Bool.
From Verif Require Import PyStr ModelMultiDict ModelOrdered.
Import ListNotations.
Open Scope N_scope.

Section Seq.
  Context {V : Type}.
  Definition pairs := list (str * V).
  Definition has_key (k : str) (kv : str * V) : bool := if list_eq_dec N.eq_dec (fst kv) k then true else false.
  (** the values of a key; the pairs of other keys; the first pair of each key *)
  Definition of_key (s : pairs) (k : str) : list V := map snd (filter (has_key k) s).
  Definition other_keys (s : pairs) (k : str) : pairs := filter (fun kv => negb (has_key k kv)) s.
  Fixpoint firsts (s : pairs) : pairs :=
    match s with [] => [] | (k, v) :: s' => (k, v) :: other_keys (firsts s') k end.
  Definition last_first (s : pairs) : option (str * V) := match rev (firsts s) with [] => None | x :: _ => Some x end.
  (** one call *)
  Definition seq_step (s : pairs) (o : mop V) : pairs * res (mret V) :=
    match o with
    | MAdd k v => (s ++ [(k, v)], Ok RetNone)
    | MSetList k l => (other_keys s k ++ map (fun v => (k, v)) l, Ok RetNone)
    | MSet k v => (other_keys s k ++ [(k, v)], Ok RetNone)
    | MSetDefault k v => match of_key s k with [] => (s ++ [(k, v)], Ok (RetVal v)) | x :: _ => (s, Ok (RetVal x)) end
    | MSetListDefault _ _ => (s, Raise TypeError)
    | MUpdate m => (s ++ pairs_of m, Ok RetNone)
    | MPop k default =>
        match of_key s k, default with
        | x :: _, _ => (other_keys s k, Ok (RetVal x))
        | [], Some x => (s, Ok (RetVal x))
        | [], None => (s, Raise KeyError)
        end
    | MPopItem => match last_first s with Some (k, v) => (other_keys s k, Ok (RetItem k v)) | None => (s, Raise KeyError) end
    | MPopList k => (other_keys s k, Ok (RetList (of_key s k)))
    | MPopItemList => match last_first s with Some (k, _) => (other_keys s k, Ok (RetItemList k (of_key s k))) | None => (s, Raise KeyError) end
    | MDel k => match of_key s k with [] => (s, Raise KeyError) | _ => (other_keys s k, Ok RetNone) end
    | MClear => ([], Ok RetNone)
    end.
  Fixpoint seq_run (s : pairs) (ops : list (mop V)) : pairs * list (res (mret V)) :=
    match ops with
    | [] => (s, [])
    | o :: ops' => let (s', r) := seq_step s o in let (s'', rs) := seq_run s' ops' in (s'', r :: rs)
    end.
  (** All reads of [o] agree with the sequence. *)
  Definition ordered_reads (o : omd V) (s : pairs) : Prop :=
    o_items_multi o = Some s /\
    o_items o = Some (firsts s) /\
    o_lists o = Some (map (fun kv => (fst kv, of_key s (fst kv))) (firsts s)) /\
    o_keys o = Some (map fst (firsts s)) /\
    o_values o = Some (map snd (firsts s)) /\
    (forall k, o_getlist o k = of_key s k) /\
    (forall k, o_getitem o k = match of_key s k with x :: _ => Ok x | [] => Raise KeyError end) /\
    o_len o = length (firsts s) /\
    (forall k, o_contains o k = true <-> In k (map fst s)) /\
    o_to_dict o = Some (firsts s) /\
    o_to_dict_lists o = Some (map (fun kv => (fst kv, of_key s (fst kv))) (firsts s)).
  Definition not_clear (o : mop V) : Prop := match o with MClear => False | _ => True end.
End Seq.
Arguments pairs V : clear implicits.
