(** * Classes made of mixins, and what else a builder passes on

    verktyg/application.py and the class statement of Python.  Not modelled: metaclasses,
    [__mro_entries__], [__slots__] and bases that cannot be subclassed. *)
From Coq Require Import Arith List NArith Bool.
From Verif Require Import PyStr.
Import ListNotations.
Open Scope nat_scope.

(** ** Classes *)
(** A class is known by its number; class 0 is [object]. *)
Record class := Class { k_bases : list nat; k_mro : list nat; k_attrs : dict nat }.
Definition world := list class.
Definition object_class : class := Class [] [0] [].
Definition mro_at (w : world) (c : nat) : list nat := match nth_error w c with Some k => k_mro k | None => [] end.
Definition attrs_at (w : world) (c : nat) : dict nat := match nth_error w c with Some k => k_attrs k | None => [] end.

(** C3 (the method resolution order of Python, Objects/typeobject.c [pmerge]): the first
    head that is in no tail comes next.  [None]: there is none. *)
Definition heads (ls : list (list nat)) : list nat := flat_map (fun l => match l with [] => [] | c :: _ => [c] end) ls.
Definition in_tail (c : nat) (l : list nat) : bool := match l with [] => false | _ :: t => existsb (Nat.eqb c) t end.
Definition drop_head (c : nat) (l : list nat) : list nat := match l with [] => [] | x :: t => if Nat.eqb x c then t else l end.
Fixpoint merge (fuel : nat) (ls : list (list nat)) : option (list nat) :=
  match heads ls with
  | [] => Some []
  | hs =>
      match fuel with
      | O => None
      | S f =>
          match find (fun c => forallb (fun l => negb (in_tail c l)) ls) hs with
          | None => None
          | Some c => option_map (cons c) (merge f (map (drop_head c) ls))
          end
      end
  end.
Definition total (ls : list (list nat)) : nat := fold_right (fun l n => length l + n) 0 ls.
Fixpoint repeats (l : list nat) : bool :=
  match l with [] => false | c :: t => existsb (Nat.eqb c) t || repeats t end.

(** [class X( *bases): attrs]: duplicate bases and bases without a common order are TypeErrors *)
Definition make_class (w : world) (bases : list nat) (attrs : dict nat) : res world :=
  let bases := match bases with [] => [0] | _ => bases end in
  if repeats bases then Raise TypeError
  else
    let ls := map (mro_at w) bases ++ [bases] in
    match merge (total ls) ls with
    | None => Raise TypeError
    | Some m => Ok (w ++ [Class bases (length w :: m) attrs])
    end.
(** The attribute of a class or of a new instance: that of the first class in the order *)
Fixpoint attr_along (w : world) (mro : list nat) (name : str) : option nat :=
  match mro with
  | [] => None
  | c :: mro' => match dget (attrs_at w c) name with Some v => Some v | None => attr_along w mro' name end
  end.
Definition get_attr (w : world) (c : nat) (name : str) : option nat := attr_along w (mro_at w c) name.

(** ** The builder (application.py:109-152) *)
Record mixins := Mixins { x_app : list nat; x_req : list nat; x_conv : dict nat; x_config : dict nat }.
(** One step of the loops of add_application_mixins and add_request_mixins (application.py:138-146) *)
Definition append_new (bases : list nat) (mixin : nat) : list nat :=
  if existsb (Nat.eqb mixin) bases then bases else bases ++ [mixin].
Definition update_dict (d : dict nat) (kw : list (str * nat)) : dict nat := fold_left (fun d kv => dset d (fst kv) (snd kv)) kw d.
(** [__init__] (application.py:109-136): the numbers of BaseApplication and BaseRequest and
    the default request mixins, if they are wanted *)
Definition new_mixins (base_app base_req : nat) (defaults : list nat) : mixins :=
  Mixins [base_app] (fold_left append_new defaults [base_req]) [] [].
Inductive mcall :=
| MApp (l : list nat)                   (* add_application_mixins *)
| MReq (l : list nat)                   (* add_request_mixins *)
| MConv (kw : list (str * nat))         (* add_converters (application.py:148-149) *)
| MConfig (k : str) (v : nat).          (* builder.config[k] = v *)
Definition mstep (u : mixins) (c : mcall) : mixins :=
  match c with
  | MApp l => Mixins (fold_left append_new l (x_app u)) (x_req u) (x_conv u) (x_config u)
  | MReq l => Mixins (x_app u) (fold_left append_new l (x_req u)) (x_conv u) (x_config u)
  | MConv kw => Mixins (x_app u) (x_req u) (update_dict (x_conv u) kw) (x_config u)
  | MConfig k v => Mixins (x_app u) (x_req u) (x_conv u) (dset (x_config u) k v)
  end.
Definition mrun (u : mixins) (cs : list mcall) : mixins := fold_left mstep cs u.
(** [__call__] (application.py:214-230), the parts about classes, converters and config; the
    map copies [defaults], its own converters, and updates the copy (routing.py:1053-1055);
    the application copies config (application.py:34) *)
Record built := Built { t_app : nat; t_req : nat; t_conv : dict nat; t_config : dict nat }.
Definition build (w : world) (defaults : dict nat) (u : mixins) : res (world * built) :=
  do w1 <- make_class w (x_app u) [];
  do w2 <- make_class w1 (x_req u) [];
  Ok (w2, Built (length w) (length w1) (update_dict defaults (x_conv u)) (x_config u)).
