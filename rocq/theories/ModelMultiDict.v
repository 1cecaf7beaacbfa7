(** Model of MultiDict and the typed lookups (verktyg/datastructures.py).
    Keys are texts, values any type.  Lists handed out by setlistdefault, listvalues and
    dict methods are shared with the dict in Python; changing them from outside is not
    modelled.  Generators are read to their end before the next call. *)
From Coq Require Import Arith List NArith ZArith Bool.
From Verif Require Import PyStr.
Import ListNotations.
Open Scope N_scope.

(** [except ValueError], [except KeyError]: UnicodeError is a kind of ValueError *)
Definition is_value_error (e : exn) : bool := match e with ValueError | UnicodeError => true | _ => false end.
Definition is_key_error (e : exn) : bool := match e with KeyError => true | _ => false end.

Section MultiDict.
  Context {V : Type}.
  Definition mdict := dict (list V).

  (** values of a plain dict: lists and tuples are taken apart *)
  Inductive mvalue := One (v : V) | Many (l : list V).
  Inductive source :=
  | SPairs (l : list (str * V))         (* an iterable of pairs *)
  | SDict (d : dict mvalue)             (* a dict *)
  | SMulti (d : mdict).                 (* another MultiDict *)
  (** items(multi=True) (datastructures.py:472-486) *)
  Definition m_items_multi (d : mdict) : list (str * V) :=
    flat_map (fun kl => map (fun v => (fst kl, v)) (snd kl)) d.
  (** iter_multi_items (datastructures.py:27-43) *)
  Definition pairs_of (s : source) : list (str * V) :=
    match s with
    | SPairs l => l
    | SDict d => flat_map (fun kv => match snd kv with One v => [(fst kv, v)] | Many l => map (fun v => (fst kv, v)) l end) d
    | SMulti d => m_items_multi d
    end.

  (** add (datastructures.py:372-380): dict.setdefault(self, key, []).append(value) *)
  Definition m_add (d : mdict) (k : str) (v : V) : mdict :=
    match dget d k with
    | Some l => dset d k (l ++ [v])
    | None => dset d k [v]
    end.
  Definition m_adds (d : mdict) (l : list (str * V)) : mdict := fold_left (fun d kv => m_add d (fst kv) (snd kv)) l d.
  (** __init__ (datastructures.py:324-340) *)
  Definition m_init (s : source) : mdict :=
    match s with
    | SMulti d => fold_left (fun a kl => dset a (fst kl) (snd kl)) d []
    | SDict d => fold_left (fun a kv => dset a (fst kv) (match snd kv with One v => [v] | Many l => l end)) d []
    | SPairs l => m_adds [] l
    end.

  (** [l[0]] *)
  Definition first (l : list V) : res V := match l with v :: _ => Ok v | [] => Raise IndexError end.
  (** __getitem__ (datastructures.py:349-360); BadRequestKeyError is a KeyError *)
  Definition m_getitem (d : mdict) (k : str) : res V :=
    match dget d k with Some l => first l | None => Raise KeyError end.
  (** getlist without type (datastructures.py:382-408) *)
  Definition m_getlist (d : mdict) (k : str) : list V := match dget d k with Some l => l | None => [] end.
  Fixpoint traverse {A B} (f : A -> res B) (l : list A) : res (list B) :=
    match l with [] => Ok [] | x :: l' => do y <- f x; do r <- traverse f l'; Ok (y :: r) end.
  (** items(), lists(), keys(), values(), len, in, to_dict (datastructures.py:472-539) *)
  Definition m_items (d : mdict) : res (list (str * V)) := traverse (fun kl => do v <- first (snd kl); Ok (fst kl, v)) d.
  Definition m_lists (d : mdict) : list (str * list V) := d.
  Definition m_keys (d : mdict) : list str := map fst d.
  Definition m_values (d : mdict) : res (list V) := traverse (fun kl => first (snd kl)) d.
  Definition m_len (d : mdict) : nat := length d.
  Definition m_contains (d : mdict) (k : str) : bool := dhas d k.
  Definition m_to_dict (d : mdict) : res (dict V) :=
    do l <- m_items d; Ok (fold_left (fun a kv => dset a (fst kv) (snd kv)) l []).
  Definition m_to_dict_lists (d : mdict) : dict (list V) := fold_left (fun a kl => dset a (fst kl) (snd kl)) (m_lists d) [].

  (** ** Changing calls *)
  Inductive mop :=
  | MAdd (k : str) (v : V)
  | MSetList (k : str) (l : list V)
  | MSet (k : str) (v : V)                         (* d[k] = v *)
  | MSetDefault (k : str) (v : V)
  | MSetListDefault (k : str) (l : list V)
  | MUpdate (s : source)
  | MPop (k : str) (default : option V)
  | MPopItem
  | MPopList (k : str)
  | MPopItemList
  | MDel (k : str)                                 (* del d[k] *)
  | MClear.
  (** what a call returns *)
  Inductive mret := RetNone | RetVal (v : V) | RetList (l : list V) | RetItem (k : str) (v : V) | RetItemList (k : str) (l : list V).
  (** dict.popitem: the last item *)
  Definition pop_last (d : mdict) : option (mdict * (str * list V)) :=
    match rev d with [] => None | x :: r => Some (rev r, x) end.
  (** datastructures.py:362-370, 410-470, 541-588 *)
  Definition m_step (d : mdict) (o : mop) : mdict * res mret :=
    match o with
    | MAdd k v => (m_add d k v, Ok RetNone)
    | MSetList k l => (dset d k l, Ok RetNone)
    | MSet k v => (dset d k [v], Ok RetNone)
    | MSetDefault k v =>
        if m_contains d k then (d, do x <- m_getitem d k; Ok (RetVal x))
        else (dset d k [v], Ok (RetVal v))
    | MSetListDefault k l =>
        match dget d k with
        | None => (dset d k l, Ok (RetList l))
        | Some l' => (d, Ok (RetList l'))
        end
    | MUpdate s => (m_adds d (pairs_of s), Ok RetNone)
    | MPop k default =>
        match dget d k with
        | Some l => (ddel d k, do x <- first l; Ok (RetVal x))
        | None => (d, match default with Some x => Ok (RetVal x) | None => Raise KeyError end)
        end
    | MPopItem =>
        match pop_last d with
        | Some (d', (k, l)) => (d', do x <- first l; Ok (RetItem k x))
        | None => (d, Raise KeyError)
        end
    | MPopList k => (ddel d k, Ok (RetList (m_getlist d k)))
    | MPopItemList =>
        match pop_last d with
        | Some (d', (k, l)) => (d', Ok (RetItemList k l))
        | None => (d, Raise KeyError)
        end
    | MDel k => if m_contains d k then (ddel d k, Ok RetNone) else (d, Raise KeyError)
    | MClear => ([], Ok RetNone)
    end.
  Fixpoint m_run (d : mdict) (ops : list mop) : mdict * list (res mret) :=
    match ops with
    | [] => (d, [])
    | o :: ops' => let (d', r) := m_step d o in let (d'', rs) := m_run d' ops' in (d'', r :: rs)
    end.

  (** update(self): the lists grow while they are read.  [j] and [i] are the positions of
      the two iterators of items(multi=True); [None]: the steps did not suffice. *)
  Fixpoint update_self (fuel : nat) (d : mdict) (j i : nat) : option mdict :=
    match fuel with
    | O => None
    | S fuel' =>
        match nth_error d j with
        | None => Some d
        | Some (k, vs) =>
            match nth_error vs i with
            | None => update_self fuel' d (S j) O
            | Some v => update_self fuel' (m_add d k v) j (S i)
            end
        end
    end.

  (** ** Typed lookup *)
  Section Typed.
    Context {W : Type}.
    (** TypeConversionDict.get (datastructures.py:235-264) for any [self[key]] *)
    Definition get_typed (item : res V) (conv : V -> res W) (default : W) : res W :=
      match (do v <- item; conv v) with
      | Ok w => Ok w
      | Raise e => if is_key_error e || is_value_error e then Ok default else Raise e
      end.
    Definition m_get (d : mdict) (k : str) (conv : V -> res W) (default : W) : res W :=
      get_typed (m_getitem d k) conv default.
    (** get of a plain TypeConversionDict *)
    Definition t_get (d : dict V) (k : str) (conv : V -> res W) (default : W) : res W :=
      get_typed (match dget d k with Some v => Ok v | None => Raise KeyError end) conv default.
    (** getlist with type (datastructures.py:382-408) *)
    Fixpoint convert_all (conv : V -> res W) (l : list V) : res (list W) :=
      match l with
      | [] => Ok []
      | v :: l' =>
          match conv v with
          | Ok w => do r <- convert_all conv l'; Ok (w :: r)
          | Raise e => if is_value_error e then convert_all conv l' else Raise e
          end
      end.
    Definition m_getlist_typed (d : mdict) (k : str) (conv : V -> res W) : res (list W) :=
      match dget d k with None => Ok [] | Some l => convert_all conv l end.
  End Typed.
End MultiDict.
Arguments mdict V : clear implicits.
Arguments mop V : clear implicits.
Arguments mret V : clear implicits.
Arguments source V : clear implicits.
Arguments mvalue V : clear implicits.
