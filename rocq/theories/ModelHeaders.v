(** Model of [Headers], [HeaderSet] and the header class filters of
    /repo/verktyg/http/basic.py. *)
From Coq Require Import List NArith ZArith Bool.
From Verif Require Import PyStr ModelQuote.
Import ListNotations.
Open Scope N_scope.

(** A value given to the API: text, bytes or an integer (any other object is
    also turned into text with [str]; integers stand for those). *)
Inductive hval := HStr (s : str) | HBytes (b : str) | HInt (z : Z).

(** http/basic.py:117-122 [unicodify_header_value]; latin-1 decoding maps each
    byte to the code point of the same number. *)
Definition unicodify (v : hval) : str :=
  match v with HStr s => s | HBytes b => b | HInt z => zdec z end.

(** [self._list] *)
Definition headers := list (str * str).

(** http/basic.py:376-383 [_validate_value]; true when accepted. *)
Definition validate_value (v : str) : bool := negb (mem 10 v) && negb (mem 13 v).

(** [k.lower() == key.lower()] *)
Definition same (a b : str) : bool := eqs (lower a) (lower b).

(** http/basic.py:159-176 [__getitem__] with a string key *)
Fixpoint h_getitem (l : headers) (key : str) : res str :=
  match l with
  | [] => Raise KeyError
  | (k, v) :: l' => if same k key then Ok v else h_getitem l' key
  end.

(** http/basic.py:187-224 [get] without [type] *)
Definition h_get (l : headers) (key : str) : option str :=
  match h_getitem l key with Ok v => Some v | Raise _ => None end.

(** http/basic.py:226-255 [getlist] *)
Definition h_getlist (l : headers) (key : str) : list str :=
  map snd (filter (fun kv => same (fst kv) key) l).

(** http/basic.py:340-346 [__contains__] *)
Definition h_contains (l : headers) (key : str) : bool := is_ok (h_getitem l key).

(** http/basic.py:111-114 [_options_header_vkw]: keyword names have '_' turned
    into '-' ([dict(...)] of the renamed pairs). *)
Definition vkw (value : str) (kw : dict (option str)) : str :=
  dump_options_header (Some value)
    (fold_left (fun d kv => dset d (replace [95] [45] (fst kv)) (snd kv)) kw []).

(** The value stored for [_value] and keyword arguments, http/basic.py:370-372, 411-413 *)
Definition stored_value (value : hval) (kw : dict (option str)) : str :=
  match kw with [] => unicodify value | _ => vkw (unicodify value) kw end.

(** http/basic.py:357-374 [add] *)
Definition h_add (l : headers) (key : str) (value : hval) (kw : dict (option str)) : res headers :=
  let v := stored_value value kw in
  if validate_value v then Ok (l ++ [(key, v)]) else Raise ValueError.

(** http/basic.py:279-292 [extend] with an iterable of pairs: earlier pairs stay
    added when a later one is refused, so the new list is returned in any case. *)
Fixpoint h_extend (l : headers) (items : list (str * hval)) : headers * option exn :=
  match items with
  | [] => (l, None)
  | (k, v) :: items' =>
      match h_add l k v [] with
      | Ok l' => h_extend l' items'
      | Raise e => (l, Some e)
      end
  end.

(** http/basic.py:416-428, the loop of [set]: replace the first entry of the
    name, drop its later ones; [None] when there is no entry of the name. *)
Fixpoint set_loop (l : headers) (key v : str) : option headers :=
  match l with
  | [] => None
  | (k, v') :: l' =>
      if same k key
      then Some ((key, v) :: filter (fun t => negb (same (fst t) key)) l')
      else match set_loop l' key v with
           | Some r => Some ((k, v') :: r)
           | None => None
           end
  end.

(** http/basic.py:397-428 [set] *)
Definition h_set (l : headers) (key : str) (value : hval) (kw : dict (option str)) : res headers :=
  let v := stored_value value kw in
  if validate_value v
  then match set_loop l key v with
       | Some l' => Ok l'
       | None => Ok (l ++ [(key, v)])
       end
  else Raise ValueError.

(** http/basic.py:430-443 [setdefault] *)
Definition h_setdefault (l : headers) (key : str) (value : hval) : res headers :=
  if h_contains l key then Ok l else h_set l key value [].

(** http/basic.py:294-311 [__delitem__] with a string key, [remove] *)
Definition h_remove (l : headers) (key : str) : headers :=
  filter (fun kv => negb (same (fst kv) key)) l.

(** Python list index: negative counts from the end. *)
Definition py_index (i : Z) (n : nat) : option nat :=
  let j := if (i <? 0)%Z then (i + Z.of_nat n)%Z else i in
  if (0 <=? j)%Z && (j <? Z.of_nat n)%Z then Some (Z.to_nat j) else None.
Definition remove_nth {A} (i : nat) (l : list A) : list A := firstn i l ++ skipn (S i) l.
Definition set_nth {A} (i : nat) (x : A) (l : list A) : list A := firstn i l ++ x :: skipn (S i) l.

(** http/basic.py:313-338 [pop]: by name (with or without default), by index,
    or the last. *)
Definition h_pop_name (l : headers) (key : str) (default : bool) : res headers :=
  match h_getitem l key with
  | Ok _ => Ok (h_remove l key)
  | Raise e => if default then Ok l else Raise e
  end.
Definition h_pop_index (l : headers) (i : Z) : res headers :=
  match py_index i (length l) with
  | Some n => Ok (remove_nth n l)
  | None => Raise IndexError
  end.

(** http/basic.py:445-457 [__setitem__] with an integer index.  The value is
    validated before the index is looked at. *)
Definition h_setitem_index (l : headers) (i : Z) (kv : str * hval) : res headers :=
  let v := unicodify (snd kv) in
  if validate_value v then
    match py_index i (length l) with
    | Some n => Ok (set_nth n (fst kv, v) l)
    | None => Raise IndexError
    end
  else Raise ValueError.

(** http/basic.py:445-457 [__setitem__] with the full slice [headers[:] = items] *)
Definition h_setall (l : headers) (items : list (str * hval)) : res headers :=
  let vs := map (fun kv => (fst kv, unicodify (snd kv))) items in
  if forallb (fun kv => validate_value (snd kv)) vs then Ok vs else Raise ValueError.

(** The mutating calls of [Headers]. *)
Inductive hop :=
| HAdd (k : str) (v : hval) (kw : dict (option str))
| HSet (k : str) (v : hval) (kw : dict (option str))
| HSetItem (k : str) (v : hval)                (* headers[k] = v *)
| HSetDefault (k : str) (v : hval)
| HExtend (items : list (str * hval))
| HRemove (k : str)                            (* remove, del headers[k] *)
| HPop (k : str) (default : bool)
| HPopIndex (i : Z)
| HPopLast                                     (* pop(), popitem() *)
| HDelIndex (i : Z)
| HSetIndex (i : Z) (kv : str * hval)
| HSetAll (items : list (str * hval))
| HClear.

Definition keep (l : headers) (r : res headers) : headers * option exn :=
  match r with Ok l' => (l', None) | Raise e => (l, Some e) end.

(** One call: the new content and the exception raised, if any. *)
Definition h_step (l : headers) (o : hop) : headers * option exn :=
  match o with
  | HAdd k v kw => keep l (h_add l k v kw)
  | HSet k v kw => keep l (h_set l k v kw)
  | HSetItem k v => keep l (h_set l k v [])
  | HSetDefault k v => keep l (h_setdefault l k v)
  | HExtend items => h_extend l items
  | HRemove k => (h_remove l k, None)
  | HPop k d => keep l (h_pop_name l k d)
  | HPopIndex i => keep l (h_pop_index l i)
  | HPopLast => keep l (h_pop_index l (-1))
  | HDelIndex i => keep l (h_pop_index l i)
  | HSetIndex i kv => keep l (h_setitem_index l i kv)
  | HSetAll items => keep l (h_setall l items)
  | HClear => ([], None)       (* http/basic.py:393-395 *)
  end.

Definition h_run (l : headers) (ops : list hop) : headers :=
  fold_left (fun l o => fst (h_step l o)) ops l.

(** http/basic.py:151-157 [__init__]: a list (or another [Headers]) is copied
    without validation; anything else goes through [extend]. *)
Definition h_init_list (items : headers) : headers := items.
Definition h_init_pairs (items : list (str * hval)) : headers * option exn := h_extend [] items.

(** http/basic.py:484-490 [__str__] *)
Definition h_str (l : headers) : str :=
  join [13; 10] (map (fun kv => fst kv ++ [58; 32] ++ snd kv) l ++ [[13; 10]]).

(** ** Header classes *)

(** http/basic.py:37-46 *)
Definition entity_headers : list str :=
  [lit "allow"; lit "content-encoding"; lit "content-language"; lit "content-length";
   lit "content-location"; lit "content-md5"; lit "content-range"; lit "content-type";
   lit "expires"; lit "last-modified"].
Definition hop_by_hop_headers : list str :=
  [lit "connection"; lit "keep-alive"; lit "proxy-authenticate"; lit "proxy-authorization";
   lit "te"; lit "trailer"; lit "transfer-encoding"; lit "upgrade"].
Definition mems (x : str) (l : list str) : bool := existsb (eqs x) l.

(** http/basic.py:797-816 [is_entity_header], [is_hop_by_hop_header] *)
Definition is_entity_header (h : str) : bool := mems (lower h) entity_headers.
Definition is_hop_by_hop_header (h : str) : bool := mems (lower h) hop_by_hop_headers.

(** http/basic.py:765-781 [remove_entity_headers].  On a [Headers] object the
    slice assignment validates the remaining values again (see [h_setall]). *)
Definition remove_entity_headers (l : headers) (allowed : list str) : headers :=
  let allowed := map lower allowed in
  filter (fun kv => negb (is_entity_header (fst kv)) || mems (lower (fst kv)) allowed) l.

(** http/basic.py:784-794 [remove_hop_by_hop_headers] *)
Definition remove_hop_by_hop_headers (l : headers) : headers :=
  filter (fun kv => negb (is_hop_by_hop_header (fst kv))) l.

(** ** HeaderSet, http/basic.py:959-1110 *)

(** [_headers] and [_set] (a list without regard to order or repetition), and
    how often [on_update] was called. *)
Record hset := HSt { hs_headers : list str; hs_set : list str; hs_calls : nat }.

(** 972-975 [__init__] *)
Definition hs_init (l : list str) : hset := HSt l (map lower l) 0.

(** 1003-1017 [update]: the loop; the flag is [inserted_any]. *)
Fixpoint hs_update_loop (s : hset) (items : list str) (inserted : bool) : hset * bool :=
  match items with
  | [] => (s, inserted)
  | h :: items' =>
      if mems (lower h) (hs_set s) then hs_update_loop s items' inserted
      else hs_update_loop (HSt (hs_headers s ++ [h]) (lower h :: hs_set s) (hs_calls s)) items' true
  end.
Definition bump (s : hset) : hset := HSt (hs_headers s) (hs_set s) (S (hs_calls s)).
Definition hs_update (s : hset) (items : list str) : hset :=
  let (s', ins) := hs_update_loop s items false in if ins then bump s' else s'.

(** 995-998, the loop of [remove]: deletes the first entry whose lower case form
    equals the argument as given. *)
Fixpoint hs_del_first (header : str) (l : list str) : list str :=
  match l with
  | [] => []
  | k :: l' => if eqs (lower k) header then l' else k :: hs_del_first header l'
  end.
Definition set_remove (x : str) (s : list str) : list str := filter (fun y => negb (eqs x y)) s.

(** 981-1001 [remove] *)
Definition hs_remove (s : hset) (header : str) : res hset :=
  if mems (lower header) (hs_set s)
  then Ok (bump (HSt (hs_del_first header (hs_headers s)) (set_remove (lower header) (hs_set s)) (hs_calls s)))
  else Raise KeyError.

(** 1019-1028 [discard] *)
Definition hs_discard (s : hset) (header : str) : hset :=
  match hs_remove s header with Ok s' => s' | Raise _ => s end.

(** 1054-1059 [clear] *)
Definition hs_clear (s : hset) : hset := HSt [] [] (S (hs_calls s)).

(** 1080-1085 [__delitem__]; [_set.remove] raises KeyError after the list was
    changed if the name is not in the set. *)
Definition hs_delitem (s : hset) (i : Z) : hset * option exn :=
  match py_index i (length (hs_headers s)) with
  | None => (s, Some IndexError)
  | Some n =>
      let rv := lower (nth n (hs_headers s) []) in
      let hs' := remove_nth n (hs_headers s) in
      if mems rv (hs_set s)
      then (bump (HSt hs' (set_remove rv (hs_set s)) (hs_calls s)), None)
      else (HSt hs' (hs_set s) (hs_calls s), Some KeyError)
  end.

(** 1087-1093 [__setitem__] *)
Definition hs_setitem (s : hset) (i : Z) (value : str) : hset * option exn :=
  match py_index i (length (hs_headers s)) with
  | None => (s, Some IndexError)
  | Some n =>
      let old := lower (nth n (hs_headers s) []) in
      if mems old (hs_set s)
      then (bump (HSt (set_nth n value (hs_headers s)) (lower value :: set_remove old (hs_set s)) (hs_calls s)), None)
      else (s, Some KeyError)
  end.

(** 1095-1101 [__contains__], [__len__] (the set holds each lower case name once),
    [__iter__]; 1071-1073 [to_header] *)
Definition hs_contains (s : hset) (h : str) : bool := mems (lower h) (hs_set s).
Definition hs_len (s : hset) : nat := length (nodup (list_eq_dec N.eq_dec) (hs_set s)).
Definition hs_iter (s : hset) : list str := hs_headers s.
Definition hs_to_header (s : hset) : str := join [44; 32] (map (quote_header_value true) (hs_headers s)).

(** 1030-1053 [find], [index] *)
Fixpoint find_from (n : nat) (h : str) (l : list str) : Z :=
  match l with
  | [] => (-1)%Z
  | k :: l' => if eqs (lower k) (lower h) then Z.of_nat n else find_from (S n) h l'
  end.
Definition hs_find (s : hset) (h : str) : Z := find_from 0 h (hs_headers s).

Inductive hsop :=
| SAdd (h : str) | SUpdate (l : list str) | SRemove (h : str) | SDiscard (h : str)
| SClear | SDelItem (i : Z) | SSetItem (i : Z) (v : str).

Definition hs_step (s : hset) (o : hsop) : hset * option exn :=
  match o with
  | SAdd h => (hs_update s [h], None)              (* 977-979 *)
  | SUpdate l => (hs_update s l, None)
  | SRemove h => match hs_remove s h with Ok s' => (s', None) | Raise e => (s, Some e) end
  | SDiscard h => (hs_discard s h, None)
  | SClear => (hs_clear s, None)
  | SDelItem i => hs_delitem s i
  | SSetItem i v => hs_setitem s i v
  end.
Definition hs_run (s : hset) (ops : list hsop) : hset := fold_left (fun s o => fst (hs_step s o)) ops s.
