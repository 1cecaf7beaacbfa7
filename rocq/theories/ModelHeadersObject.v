(** Model of Headers objects next to each other: copies, slices, equality and lists
    given and taken (http/basic.py:125-490).

    A Headers object has an attribute [_list] that refers to a list; lists live in a
    store, so that two objects could share one.  Client code has Headers objects and
    plain lists, both known by numbers. *)
From Coq Require Import Arith List NArith ZArith Bool.
From Verif Require Import PyStr ModelHeaders.
Import ListNotations.
Open Scope N_scope.

(** ** Slices of Python lists (CPython: PySlice_AdjustIndices, list_subscript and
    list_ass_subscript) *)
Definition clamp (x lo hi n : Z) : Z :=
  let y := if (x <? 0)%Z then (x + n)%Z else x in
  if (y <? lo)%Z then lo else if (hi <? y)%Z then hi else y.
(** The first position and the bound. *)
Definition slice_bounds (n : Z) (a b : option Z) (step : Z) : Z * Z :=
  if (step <? 0)%Z then
    (match a with Some x => clamp x (-1) (n - 1) n | None => n - 1 end,
     match b with Some x => clamp x (-1) (n - 1) n | None => -1 end)%Z
  else
    (match a with Some x => clamp x 0 n n | None => 0 end,
     match b with Some x => clamp x 0 n n | None => n end)%Z.
Fixpoint walk (fuel : nat) (i stop step : Z) : list Z :=
  match fuel with
  | O => []
  | S f =>
      if (if (step <? 0)%Z then (stop <? i)%Z else (i <? stop)%Z)
      then i :: walk f (i + step)%Z stop step else []
  end.
Definition step_of (c : option Z) : Z := match c with Some x => x | None => 1%Z end.
(** The positions of [l[a:b:c]] for a length and a step that is not 0; there are at
    most as many as there are elements. *)
Definition slice_positions (n : nat) (a b : option Z) (step : Z) : list Z :=
  let '(i, stop) := slice_bounds (Z.of_nat n) a b step in walk n i stop step.
Definition has_z (i : Z) (l : list Z) : bool := existsb (Z.eqb i) l.
Section Slices.
  Context {A : Type}.
  Definition at_position (l : list A) (i : Z) : list A :=
    match nth_error l (Z.to_nat i) with Some x => [x] | None => [] end.
  (** [l[a:b:c]] *)
  Definition list_slice (l : list A) (a b c : option Z) : res (list A) :=
    if (step_of c =? 0)%Z then Raise ValueError
    else Ok (flat_map (at_position l) (slice_positions (length l) a b (step_of c))).
  (** [del l[a:b:c]] *)
  Fixpoint drop_positions (i : Z) (ps : list Z) (l : list A) : list A :=
    match l with
    | [] => []
    | x :: r => if has_z i ps then drop_positions (i + 1) ps r else x :: drop_positions (i + 1) ps r
    end.
  Definition list_del_slice (l : list A) (a b c : option Z) : res (list A) :=
    if (step_of c =? 0)%Z then Raise ValueError
    else Ok (drop_positions 0 (slice_positions (length l) a b (step_of c)) l).
  (** [l[a:b:c] = new]: with step 1 any number of new elements, else as many as there
      are positions *)
  Fixpoint put_positions (l : list A) (ps : list Z) (new : list A) : list A :=
    match ps, new with
    | i :: ps', x :: new' => put_positions (set_nth (Z.to_nat i) x l) ps' new'
    | _, _ => l
    end.
  Definition list_set_slice (l : list A) (a b c : option Z) (new : list A) : res (list A) :=
    if (step_of c =? 0)%Z then Raise ValueError
    else if (step_of c =? 1)%Z then
      let '(i, stop) := slice_bounds (Z.of_nat (length l)) a b 1 in
      Ok (firstn (Z.to_nat i) l ++ new ++ skipn (Z.to_nat (Z.max i stop)) l)
    else
      let ps := slice_positions (length l) a b (step_of c) in
      if Nat.eqb (length ps) (length new) then Ok (put_positions l ps new) else Raise ValueError.
End Slices.

(** ** Headers with slices *)
(** http/basic.py:294-297 [__delitem__] with a slice *)
Definition h_del_slice (l : headers) (a b c : option Z) : res headers := list_del_slice l a b c.
(** http/basic.py:445-455 [__setitem__] with a slice: all values are checked first *)
Definition h_set_slice (l : headers) (a b c : option Z) (items : list (str * hval)) : res headers :=
  let vs := map (fun kv => (fst kv, unicodify (snd kv))) items in
  if forallb (fun kv => validate_value (snd kv)) vs then list_set_slice l a b c vs else Raise ValueError.

(** http/basic.py:178-185 [__eq__], [__ne__] of two Headers objects: [set(..) == set(..)] *)
Definition line_eq (x y : str * str) : bool := eqs (fst x) (fst y) && eqs (snd x) (snd y).
Definition has_line (x : str * str) (l : headers) : bool := existsb (line_eq x) l.
Definition h_eq (a b : headers) : bool :=
  forallb (fun x => has_line x b) a && forallb (fun x => has_line x a) b.
Definition h_ne (a b : headers) : bool := negb (h_eq a b).

(** ** The store *)
Record hworld := HW {
  hw_store : list headers;
  hw_objs : list nat;         (* the list of each Headers object *)
  hw_lists : list nat }.      (* the plain lists of the client *)
Definition empty_world : hworld := HW [] [] [].
Definition list_at (w : hworld) (id : nat) : headers := nth id (hw_store w) [].
Definition obj_id (w : hworld) (o : nat) : option nat := nth_error (hw_objs w) o.
Definition lst_id (w : hworld) (c : nat) : option nat := nth_error (hw_lists w) c.
(** What an object or a plain list holds; nothing if there is none of the number. *)
Definition content (w : hworld) (o : nat) : headers :=
  match obj_id w o with Some id => list_at w id | None => [] end.
Definition client (w : hworld) (c : nat) : headers :=
  match lst_id w c with Some id => list_at w id | None => [] end.
Definition put (w : hworld) (id : nat) (l : headers) : hworld :=
  HW (set_nth id l (hw_store w)) (hw_objs w) (hw_lists w).
Definition new_obj (w : hworld) (l : headers) : hworld :=
  HW (hw_store w ++ [l]) (hw_objs w ++ [length (hw_store w)]) (hw_lists w).
Definition new_list (w : hworld) (l : headers) : hworld :=
  HW (hw_store w ++ [l]) (hw_objs w) (hw_lists w ++ [length (hw_store w)]).

Inductive wop :=
| WList (items : headers)                       (* a new plain list *)
| WListSet (c : nat) (items : headers)          (* any change of a plain list *)
| WNew (c : nat)                                (* Headers(a plain list) *)
| WCopy (o : nat)                               (* copy(), copy.copy(h), Headers(h) *)
| WSlice (o : nat) (a b c : option Z)           (* h[a:b:c] *)
| WExport (o : nat)                             (* to_wsgi_list(), to_list(), list(h) *)
| WCall (o : nat) (call : hop)
| WDelSlice (o : nat) (a b c : option Z)
| WSetSlice (o : nat) (a b c : option Z) (items : list (str * hval))
| WExtend (o p : nat).                          (* h.extend(other Headers object) *)

(** http/basic.py:291-292, the loop of [extend] over another Headers object: the
    iterator looks at the list as it is at each step. *)
Fixpoint extend_live (fuel : nat) (w : hworld) (src dst i : nat) : option (hworld * option exn) :=
  match fuel with
  | O => None
  | S f =>
      match nth_error (list_at w src) i with
      | None => Some (w, None)
      | Some (k, v) =>
          if validate_value v then extend_live f (put w dst (list_at w dst ++ [(k, v)])) src dst (S i)
          else Some (w, Some ValueError)
      end
  end.
Definition keep_in (w : hworld) (id : nat) (r : res headers) : hworld * option exn :=
  match r with Ok l => (put w id l, None) | Raise e => (w, Some e) end.
(** One operation; an unknown number changes nothing.  [None]: not ended yet. *)
Definition wstep (fuel : nat) (w : hworld) (o : wop) : option (hworld * option exn) :=
  match o with
  | WList items => Some (new_list w items, None)
  | WListSet c items =>
      match lst_id w c with Some id => Some (put w id items, None) | None => Some (w, None) end
  | WNew c =>          (* http/basic.py:151-155 *)
      match lst_id w c with Some id => Some (new_obj w ([] ++ list_at w id), None) | None => Some (w, None) end
  | WCopy o =>         (* http/basic.py:478-482, 151-155 *)
      match obj_id w o with Some id => Some (new_obj w ([] ++ list_at w id), None) | None => Some (w, None) end
  | WSlice o a b c =>  (* http/basic.py:163-164 *)
      match obj_id w o with
      | Some id =>
          match list_slice (list_at w id) a b c with
          | Ok l => Some (new_obj w ([] ++ l), None)
          | Raise e => Some (w, Some e)
          end
      | None => Some (w, None)
      end
  | WExport o =>       (* http/basic.py:459-476 *)
      match obj_id w o with Some id => Some (new_list w (list_at w id), None) | None => Some (w, None) end
  | WCall o call =>
      match obj_id w o with
      | Some id => let '(l, e) := h_step (list_at w id) call in Some (put w id l, e)
      | None => Some (w, None)
      end
  | WDelSlice o a b c =>
      match obj_id w o with
      | Some id => Some (keep_in w id (h_del_slice (list_at w id) a b c))
      | None => Some (w, None)
      end
  | WSetSlice o a b c items =>
      match obj_id w o with
      | Some id => Some (keep_in w id (h_set_slice (list_at w id) a b c items))
      | None => Some (w, None)
      end
  | WExtend o p =>
      match obj_id w o, obj_id w p with
      | Some dst, Some src => extend_live fuel w src dst 0
      | _, _ => Some (w, None)
      end
  end.
Fixpoint wrun (fuel : nat) (w : hworld) (ops : list wop) : option hworld :=
  match ops with
  | [] => Some w
  | o :: r => match wstep fuel w o with Some (w', _) => wrun fuel w' r | None => None end
  end.
