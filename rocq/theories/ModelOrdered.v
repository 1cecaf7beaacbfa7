(** Model of OrderedMultiDict (verktyg/datastructures.py:602-806).  Buckets live in a heap
    and are known by their number; a bucket is never reused. *)
From Coq Require Import Arith List NArith ZArith Bool.
From Verif Require Import PyStr ModelMultiDict.
Import ListNotations.
Open Scope N_scope.

Section Ordered.
  Context {V : Type}.
  Record bucket := Bucket { b_prev : option nat; b_key : str; b_val : V; b_next : option nat }.
  Record omd := OMD { o_dict : dict (list nat); o_heap : list bucket; o_first : option nat; o_last : option nat }.
  Definition o_empty : omd := OMD [] [] None None.

  Fixpoint change_at (h : list bucket) (i : nat) (f : bucket -> bucket) : list bucket :=
    match h, i with
    | [], _ => []
    | b :: h', O => f b :: h'
    | b :: h', S i' => b :: change_at h' i' f
    end.
  Definition set_next (n : option nat) (b : bucket) : bucket := Bucket (b_prev b) (b_key b) (b_val b) n.
  Definition set_prev (p : option nat) (b : bucket) : bucket := Bucket p (b_key b) (b_val b) (b_next b).
  Definition is_num (a : option nat) (i : nat) : bool := match a with Some j => Nat.eqb j i | None => false end.

  (** _omd_bucket.__init__ (datastructures.py:610-620): the new bucket's number is the
      size of the heap *)
  Definition new_bucket (s : omd) (k : str) (v : V) : omd :=
    let i := length (o_heap s) in
    let h := match o_last s with Some l => change_at (o_heap s) l (set_next (Some i)) | None => o_heap s end in
    OMD (o_dict s) (h ++ [Bucket (o_last s) k v None]) (match o_first s with None => Some i | f => f end) (Some i).
  (** unlink (datastructures.py:622-630); the fields are read before and after the first
      change, which concerns another bucket *)
  Definition unlink (s : omd) (i : nat) : omd :=
    match nth_error (o_heap s) i with
    | None => s
    | Some b =>
        let h1 := match b_prev b with Some p => change_at (o_heap s) p (set_next (b_next b)) | None => o_heap s end in
        let h2 := match b_next b with Some n => change_at h1 n (set_prev (b_prev b)) | None => h1 end in
        OMD (o_dict s) h2 (if is_num (o_first s) i then b_next b else o_first s) (if is_num (o_last s) i then b_prev b else o_last s)
    end.
  Definition unlink_all (s : omd) (l : list nat) : omd := fold_left unlink l s.
  Definition with_dict (s : omd) (d : dict (list nat)) : omd := OMD d (o_heap s) (o_first s) (o_last s).
  Definition vals_of (s : omd) (l : list nat) : list V :=
    flat_map (fun i => match nth_error (o_heap s) i with Some b => [b_val b] | None => [] end) l.

  (** add (datastructures.py:741-742): setdefault comes before the bucket is made *)
  Definition o_add (s : omd) (k : str) (v : V) : omd :=
    let i := length (o_heap s) in
    let d := match dget (o_dict s) k with Some l => dset (o_dict s) k (l ++ [i]) | None => dset (o_dict s) k [i] end in
    new_bucket (with_dict s d) k v.
  Definition o_adds (s : omd) (l : list (str * V)) : omd := fold_left (fun s kv => o_add s (fst kv) (snd kv)) l s.
  (** poplist (datastructures.py:773-777) *)
  Definition o_poplist (s : omd) (k : str) : omd * list V :=
    match dget (o_dict s) k with
    | None => (s, [])
    | Some l => let s' := unlink_all (with_dict s (ddel (o_dict s) k)) l in (s', vals_of s' l)
    end.
  (** [buckets[0].value] *)
  Definition first_val (s : omd) (l : list nat) : res V :=
    match vals_of s l with v :: _ => Ok v | [] => Raise IndexError end.
  Definition o_pop_last (s : omd) : option (omd * str * list nat) :=
    match rev (o_dict s) with
    | [] => None
    | (k, l) :: r => Some (unlink_all (with_dict s (rev r)) l, k, l)
    end.
  (** __init__ (datastructures.py:649-653) *)
  Definition o_init (m : source V) : omd := o_adds o_empty (pairs_of m).

  (** ** Reads *)
  (** items(multi=True) and items() (datastructures.py:714-726); [None]: not at the end
      after [fuel] buckets *)
  Fixpoint walk (fuel : nat) (h : list bucket) (ptr : option nat) : option (list (str * V)) :=
    match ptr with
    | None => Some []
    | Some i =>
        match fuel, nth_error h i with
        | S fuel', Some b => option_map (cons (b_key b, b_val b)) (walk fuel' h (b_next b))
        | _, _ => None
        end
    end.
  Definition o_items_multi (s : omd) : option (list (str * V)) := walk (length (o_heap s)) (o_heap s) (o_first s).
  Fixpoint unseen (seen : list str) (l : list (str * V)) : list (str * V) :=
    match l with
    | [] => []
    | (k, v) :: l' => if existsb (eqs k) seen then unseen seen l' else (k, v) :: unseen (k :: seen) l'
    end.
  Definition o_items (s : omd) : option (list (str * V)) := option_map (unseen []) (o_items_multi s).
  (** getlist, __getitem__, len, in (datastructures.py:744-757, 694-697) *)
  Definition o_getlist (s : omd) (k : str) : list V := match dget (o_dict s) k with Some l => vals_of s l | None => [] end.
  Definition o_getitem (s : omd) (k : str) : res V := match dget (o_dict s) k with Some l => first_val s l | None => Raise KeyError end.
  Definition o_len (s : omd) : nat := length (o_dict s).
  Definition o_contains (s : omd) (k : str) : bool := dhas (o_dict s) k.
  (** lists, listvalues, keys, values, to_dict (datastructures.py:706-739, 506-521) *)
  Definition o_lists (s : omd) : option (list (str * list V)) :=
    option_map (map (fun kv => (fst kv, o_getlist s (fst kv)))) (o_items s).
  Definition o_keys (s : omd) : option (list str) := option_map (map fst) (o_items s).
  Definition o_values (s : omd) : option (list V) := option_map (map snd) (o_items s).
  Definition o_to_dict (s : omd) : option (dict V) :=
    option_map (fun l => fold_left (fun a kv => dset a (fst kv) (snd kv)) l []) (o_items s).
  Definition o_to_dict_lists (s : omd) : option (dict (list V)) :=
    option_map (fun l => fold_left (fun a kv => dset a (fst kv) (snd kv)) l []) (o_lists s).

  (** ** Changing calls (datastructures.py:699-806); clear is inherited from dict and
      leaves the buckets alone; setdefault is MultiDict's *)
  Definition o_step (s : omd) (o : mop V) : omd * res (mret V) :=
    match o with
    | MAdd k v => (o_add s k v, Ok RetNone)
    | MSetList k l => (o_adds (fst (o_poplist s k)) (map (fun v => (k, v)) l), Ok RetNone)
    | MSet k v => (o_add (fst (o_poplist s k)) k v, Ok RetNone)
    | MSetDefault k v =>
        if o_contains s k then (s, do x <- o_getitem s k; Ok (RetVal x))
        else (o_add (fst (o_poplist s k)) k v, Ok (RetVal v))
    | MSetListDefault k l => (s, Raise TypeError)
    | MUpdate m => (o_adds s (pairs_of m), Ok RetNone)
    | MPop k default =>
        match dget (o_dict s) k with
        | Some l => let s' := unlink_all (with_dict s (ddel (o_dict s) k)) l in (s', do x <- first_val s' l; Ok (RetVal x))
        | None => (s, match default with Some x => Ok (RetVal x) | None => Raise KeyError end)
        end
    | MPopItem =>
        match o_pop_last s with
        | Some (s', k, l) => (s', do x <- first_val s' l; Ok (RetItem k x))
        | None => (s, Raise KeyError)
        end
    | MPopList k => let (s', l) := o_poplist s k in (s', Ok (RetList l))
    | MPopItemList =>
        match o_pop_last s with
        | Some (s', k, l) => (s', Ok (RetItemList k (vals_of s' l)))
        | None => (s, Raise KeyError)
        end
    | MDel k =>
        match dget (o_dict s) k with
        | Some l => let s' := unlink_all (with_dict s (ddel (o_dict s) k)) l in (s', do x <- first_val s' l; Ok RetNone)
        | None => (s, Raise KeyError)
        end
    | MClear => (with_dict s [], Ok RetNone)
    end.
  Fixpoint o_run (s : omd) (ops : list (mop V)) : omd * list (res (mret V)) :=
    match ops with
    | [] => (s, [])
    | o :: ops' => let (s', r) := o_step s o in let (s'', rs) := o_run s' ops' in (s'', r :: rs)
    end.

  (** update(self): the list of buckets grows while it is followed *)
  Fixpoint o_update_self (fuel : nat) (s : omd) (ptr : option nat) : option omd :=
    match ptr with
    | None => Some s
    | Some i =>
        match fuel, nth_error (o_heap s) i with
        | S fuel', Some b =>
            let s' := o_add s (b_key b) (b_val b) in
            o_update_self fuel' s' (match nth_error (o_heap s') i with Some b' => b_next b' | None => None end)
        | _, _ => None
        end
    end.
End Ordered.
Arguments omd V : clear implicits.
Arguments bucket V : clear implicits.
