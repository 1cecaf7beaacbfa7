(** Slices, equality and the effects of operations on several Headers objects, in
    plain terms. *)
From Coq Require Import List NArith ZArith Bool Sorted.
From Verif Require Import PyStr ModelHeaders SpecHeaders ModelHeadersObject.
Import ListNotations.
Open Scope N_scope.

(** A position counted from the end if negative. *)
Definition from_end (n x : Z) : Z := if (x <? 0)%Z then (x + n)%Z else x.
(** Where a slice begins: upwards and downwards. *)
Definition begin_up (n : Z) (a : option Z) : Z :=
  match a with Some x => Z.max 0 (from_end n x) | None => 0%Z end.
Definition begin_down (n : Z) (a : option Z) : Z :=
  match a with Some x => Z.min (n - 1) (from_end n x) | None => (n - 1)%Z end.
(** The slice [a:b:step] of something of length [n] takes position [i]. *)
Definition picked (n : Z) (a b : option Z) (step i : Z) : Prop :=
  (0 <= i < n)%Z /\
  if (0 <? step)%Z then
    (begin_up n a <= i)%Z /\ (match b with Some x => i < from_end n x | None => True end)%Z
    /\ ((i - begin_up n a) mod step = 0)%Z
  else
    (i <= begin_down n a)%Z /\ (match b with Some x => from_end n x < i | None => True end)%Z
    /\ ((begin_down n a - i) mod (- step) = 0)%Z.
(** In the order of the slice. *)
Definition in_order (step : Z) (ps : list Z) : Prop :=
  StronglySorted (if (0 <? step)%Z then Z.lt else Z.gt) ps.
(** [r] has the elements of [l] at the positions [ps]. *)
Definition elements_at {A} (l : list A) (ps : list Z) (r : list A) : Prop :=
  Forall2 (fun i x => (0 <= i)%Z /\ nth_error l (Z.to_nat i) = Some x) ps r.

(** ** Whose content an operation may change *)
Definition target_obj (o : wop) : option nat :=
  match o with
  | WCall o _ | WDelSlice o _ _ _ | WSetSlice o _ _ _ _ | WExtend o _ => Some o
  | _ => None
  end.
Definition target_list (o : wop) : option nat :=
  match o with WListSet c _ => Some c | _ => None end.

(** A line that [add] takes. *)
Definition clean_line (kv : str * str) : Prop := one_line (snd kv).
(** The lines that pairs of a name and a value stand for. *)
Definition new_lines (items : list (str * hval)) : list (str * str) := map (fun kv => (fst kv, text (snd kv))) items.
