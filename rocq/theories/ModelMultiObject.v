(** MultiDict objects next to each other and next to the lists of the caller
    (verktyg/datastructures.py): which lists are shared, copies, deep copies, pickles. *)
From Coq Require Import Arith List NArith ZArith Bool.
From Verif Require Import PyStr ModelMultiDict ModelOrdered ModelCombined.
Import ListNotations.
Open Scope N_scope.

Section Objects.
  Context {V : Type}.
  (** Lists and MultiDicts are known by their numbers.  A MultiDict holds numbers of lists;
      [held] are the lists that the caller can reach without asking a MultiDict. *)
  Record store := Store { lists : list (list V); objs : list (dict nat); held : list nat }.
  Definition content (s : store) (r : nat) : list V := nth r (lists s) [].
  Definition obj (s : store) (i : nat) : dict nat := nth i (objs s) [].
  Fixpoint put_at {A} (l : list A) (i : nat) (x : A) : list A :=
    match l, i with
    | [], _ => []
    | _ :: l', O => x :: l'
    | y :: l', S i' => y :: put_at l' i' x
    end.
  Definition alloc (s : store) (l : list V) : store * nat := (Store (lists s ++ [l]) (objs s) (held s), length (lists s)).
  Definition set_list (s : store) (r : nat) (l : list V) : store := Store (put_at (lists s) r l) (objs s) (held s).
  Definition set_obj (s : store) (i : nat) (d : dict nat) : store := Store (lists s) (put_at (objs s) i d) (held s).
  Definition new_obj (s : store) : store * nat := (Store (lists s) (objs s ++ [[]]) (held s), length (objs s)).
  Definition hold (s : store) (rs : list nat) : store := Store (lists s) (objs s) (rs ++ held s).

  (** [dict.__setitem__(self, k, <a new list l>)] *)
  Definition put_new (s : store) (i : nat) (k : str) (l : list V) : store :=
    let (s', r) := alloc s l in set_obj s' i (dset (obj s i) k r).
  (** add (datastructures.py:372-380) *)
  Definition x_add (s : store) (i : nat) (k : str) (v : V) : store :=
    match dget (obj s i) k with
    | Some r => set_list s r (content s r ++ [v])
    | None => put_new s i k [v]
    end.
  Definition x_adds (s : store) (i : nat) (l : list (str * V)) : store := fold_left (fun s kv => x_add s i (fst kv) (snd kv)) l s.
  Definition put_all (s : store) (i : nat) (l : list (str * list V)) : store := fold_left (fun s kl => put_new s i (fst kl) (snd kl)) l s.
  (** the keys and the contents of the lists of an object *)
  Definition view (s : store) (i : nat) : mdict V := map (fun kr => (fst kr, content s (snd kr))) (obj s i).

  (** ** Making objects *)
  (** what a constructor or update may get; a list in a dict is a list of the caller *)
  Inductive given := GOne (v : V) | GList (r : nat).
  Inductive arg := APairs (l : list (str * V)) | ADict (d : dict given) | AMulti (j : nat).
  Definition values (s : store) (g : given) : list V := match g with GOne v => [v] | GList r => content s r end.
  (** __init__ (datastructures.py:324-340); lists() has copied the lists of a MultiDict
      already when they are copied again *)
  Definition x_init (s : store) (a : arg) : store * nat :=
    let (s', i) := new_obj s in
    (match a with
     | APairs l => x_adds s' i l
     | ADict d => put_all s' i (map (fun kg => (fst kg, values s (snd kg))) d)
     | AMulti j => put_all s' i (view s j)
     end, i).
  (** copy, __copy__ (datastructures.py:512-514, 590-591) *)
  Definition x_copy (s : store) (j : nat) : store * nat := x_init s (AMulti j).
  (** deepcopy, __deepcopy__ (datastructures.py:516-518, 593-594).  [dup]: what deepcopy, or
      pickle and unpickle, make of a value. *)
  Variable dup : V -> V.
  Definition x_deepcopy (s : store) (j : nat) : store * nat :=
    let (s', i) := new_obj s in (put_all s' i (map (fun kl => (fst kl, map dup (snd kl))) (view s j)), i).
  (** pickle.loads(pickle.dumps(d)), protocol 2 or higher: the items() are set first, then
      __setstate__ gets the result of __getstate__ (datastructures.py:342-347).  The lists
      of the state are new and belong to nobody else. *)
  Definition x_pickle (s : store) (j : nat) : store * res nat :=
    match m_items (view s j) with
    | Raise e => (s, Raise e)
    | Ok items =>
        let (s1, i) := new_obj s in
        let s2 := put_all s1 i (map (fun kv => (fst kv, [dup (snd kv)])) items) in
        (put_all (set_obj s2 i []) i (map (fun kl => (fst kl, map dup (snd kl))) (view s j)), Ok i)
    end.

  (** ** Calls *)
  Inductive call :=
  | CAdd (k : str) (v : V)
  | CSetList (k : str) (r : nat)
  | CSet (k : str) (v : V)
  | CSetDefault (k : str) (v : V)
  | CSetListDefault (k : str) (r : nat)
  | CUpdate (a : arg)
  | CPop (k : str) (default : option V)
  | CPopItem
  | CPopList (k : str)
  | CPopItemList
  | CDel (k : str)
  | CClear
  | CGetList (k : str)
  | CLists
  | CListValues
  | CToDictLists
  | CGetState
  | CSetState (d : dict nat).           (* a dict of the caller with lists of the caller *)
  Inductive ret := ONone | OVal (v : V) | OList (r : nat) | OItem (k : str) (v : V) | OItemList (k : str) (r : nat) | OLists (l : list (str * nat)).
  (** the pairs read by update (datastructures.py:27-43); a MultiDict given to its own
      update is not treated here, see [update_self] in ModelMultiDict *)
  Definition arg_pairs (s : store) (a : arg) : list (str * V) :=
    match a with
    | APairs l => l
    | ADict d => flat_map (fun kg => map (fun v => (fst kg, v)) (values s (snd kg))) d
    | AMulti j => m_items_multi (view s j)
    end.
  Definition x_pop_last (d : dict nat) : option (dict nat * (str * nat)) :=
    match rev d with [] => None | x :: r => Some (rev r, x) end.
  (** new lists with the contents of those of a dict *)
  Fixpoint copy_lists (s : store) (d : dict nat) : store * list (str * nat) :=
    match d with
    | [] => (s, [])
    | (k, r) :: d' => let (s1, r1) := alloc s (content s r) in let (s2, l) := copy_lists s1 d' in (s2, (k, r1) :: l)
    end.
  Definition x_call (s : store) (i : nat) (c : call) : store * res ret :=
    match c with
    | CAdd k v => (x_add s i k v, Ok ONone)
    | CSetList k r => (put_new s i k (content s r), Ok ONone)               (* 410-430 *)
    | CSet k v => (put_new s i k [v], Ok ONone)                             (* 362-370 *)
    | CSetDefault k v =>                                                    (* 432-446 *)
        match dget (obj s i) k with
        | Some r => (s, do x <- first (content s r); Ok (OVal x))
        | None => (put_new s i k [v], Ok (OVal v))
        end
    | CSetListDefault k r =>                                                (* 448-470 *)
        match dget (obj s i) k with
        | Some r' => (s, Ok (OList r'))
        | None => let (s', r') := alloc s (content s r) in (set_obj s' i (dset (obj s i) k r'), Ok (OList r'))
        end
    | CUpdate a => (x_adds s i (arg_pairs s a), Ok ONone)                   (* 536-539 *)
    | CPop k default =>                                                     (* 541-562 *)
        match dget (obj s i) k with
        | Some r => (set_obj s i (ddel (obj s i) k), do x <- first (content s r); Ok (OVal x))
        | None => (s, match default with Some x => Ok (OVal x) | None => Raise KeyError end)
        end
    | CPopItem =>                                                           (* 564-570 *)
        match x_pop_last (obj s i) with
        | Some (d, (k, r)) => (set_obj s i d, do x <- first (content s r); Ok (OItem k x))
        | None => (s, Raise KeyError)
        end
    | CPopList k =>                                                         (* 572-576 *)
        match dget (obj s i) k with
        | Some r => (set_obj s i (ddel (obj s i) k), Ok (OList r))
        | None => let (s', r) := alloc s [] in (s', Ok (OList r))
        end
    | CPopItemList =>                                                       (* 578-583 *)
        match x_pop_last (obj s i) with
        | Some (d, (k, r)) => (set_obj s i d, Ok (OItemList k r))
        | None => (s, Raise KeyError)
        end
    | CDel k => match dget (obj s i) k with Some _ => (set_obj s i (ddel (obj s i) k), Ok ONone) | None => (s, Raise KeyError) end
    | CClear => (set_obj s i [], Ok ONone)
    | CGetList k =>                                                         (* 382-408, without a type *)
        let (s', r) := alloc s (match dget (obj s i) k with Some r => content s r | None => [] end) in (s', Ok (OList r))
    | CLists | CToDictLists | CGetState =>                                  (* 488-493, 520-534, 342-343 *)
        let (s', l) := copy_lists s (obj s i) in (s', Ok (OLists l))
    | CListValues => (s, Ok (OLists (obj s i)))                             (* 501-510; the keys are not returned *)
    | CSetState d => (set_obj s i (fold_left (fun a kr => dset a (fst kr) (snd kr)) d []), Ok ONone)   (* 345-347 *)
    end.
  Definition returned (r : res ret) : list nat :=
    match r with Ok (OList r) | Ok (OItemList _ r) => [r] | Ok (OLists l) => map snd l | _ => [] end.

  (** ** Histories *)
  Inductive action :=
  | New (a : arg)
  | Copy (j : nat)
  | DeepCopy (j : nat)
  | Pickle (j : nat)
  | Call (i : nat) (c : call)
  | NewList (l : list V)                (* the caller makes a list *)
  | ChangeList (r : nat) (l : list V).  (* and changes one to any content *)
  Definition act (s : store) (a : action) : store :=
    match a with
    | New x => fst (x_init s x)
    | Copy j => fst (x_copy s j)
    | DeepCopy j => fst (x_deepcopy s j)
    | Pickle j => fst (x_pickle s j)
    | Call i c => let (s', r) := x_call s i c in hold s' (returned r)
    | NewList l => let (s', r) := alloc s l in hold s' [r]
    | ChangeList r l => set_list s r l
    end.
  Definition acts (s : store) (l : list action) : store := fold_left act l s.
  Definition start : store := Store [] [] [].
End Objects.
Arguments store V : clear implicits.
Arguments call V : clear implicits.
Arguments arg V : clear implicits.
Arguments given V : clear implicits.
Arguments ret V : clear implicits.
Arguments action V : clear implicits.

(** ** Ordered and combined multi dicts *)
Section Others.
  Context {V : Type}.
  (** OrderedMultiDict: copy is MultiDict's; deepcopy goes through a dict of lists
      (datastructures.py:512-518); pickle through [__reduce_ex__] (683-684). *)
  Definition o_copy (o : omd V) : option (omd V) := option_map (fun l => o_init (SPairs l)) (o_items_multi o).
  Definition o_pickle (o : omd V) : option (omd V) := option_map (fun l => o_init (SPairs l)) (o_items_multi o).
  Definition o_deepcopy (o : omd V) : option (omd V) :=
    option_map (fun d => o_init (SDict (map (fun kl => (fst kl, Many (snd kl))) d))) (o_to_dict_lists o).
  (** [o.__setstate__(values)] (datastructures.py:689-692): the dict is cleared, the buckets
      are not *)
  Definition o_setstate (o : omd V) (l : list (str * V)) : omd V := o_adds (with_dict o []) l.
  (** CombinedMultiDict.deepcopy is MultiDict's (datastructures.py:516-518): the dict of
      lists becomes [self.dicts], so the dicts are its keys, which are texts;
      [key in d] looks for a part of a text and [d[key]] is a TypeError.
      __getitem__ (844-848) and __contains__ (932-936) of the result: *)
  Definition c_deepcopied (ds : combined V) : list str := map fst (c_to_dict_lists ds).
  Fixpoint occurs (k t : str) : bool := starts k t || match t with [] => false | _ :: t' => occurs k t' end.
  Fixpoint texts_getitem (ts : list str) (k : str) : res V :=
    match ts with
    | [] => Raise KeyError
    | t :: ts' => if occurs k t then Raise TypeError else texts_getitem ts' k
    end.
End Others.
