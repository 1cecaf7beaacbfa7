(** * Dispatchers as objects, and what can be added to them

    verktyg/dispatch.py:12-14, 46-57, 74-101 and verktyg/views.py:34-82, 100-111.
    ModelDispatch has one dispatcher and what had been added to it; here there are
    several, each known by its number, which may be added to one another at any time.
    Not here: what calling a view does (ModelJson), [__repr__]. *)
From Coq Require Import Arith List NArith ZArith Bool.
From Verif Require Import PyStr ModelAccept ModelDispatch.
Import ListNotations.
Open Scope N_scope.

(** ** Views *)

(* The argument [methods] of a view: left out or None, a string, another iterable of
   strings *)
Inductive methods := MNone | MStr (s : str) | MList (l : list str).

(* [set(l)]: each once *)
Fixpoint to_set (l : list str) : list str :=
  match l with
  | [] => []
  | x :: l' => let r := to_set l' in if existsb (eqs x) r then r else x :: r
  end.
(* verktyg/views.py:40-45, in View.__init__ *)
Definition method_set (m : methods) : list str :=
  match m with
  | MNone => [lit "GET"]
  | MStr s => [s]
  | MList l => to_set l
  end.
(* verktyg/views.py:34-51 [View.__init__]; the action is known by the number [r_self]
   of the representation that the bindings are made with *)
Record view := mk_view { w_name : str; w_methods : list str; w_repr : repr }.
Definition numbered (n : nat) (r : repr) : repr :=
  mk_repr n (r_content_type r) (r_language r) (r_charset r) (r_qs r).
Definition new_view (name : str) (action : nat) (m : methods)
    (content_type language charset : option str) (qs : option fl) : view :=
  mk_view name (method_set m) (numbered action (new_repr content_type language charset qs)).
(* verktyg/views.py:75-79 [JsonView.__init__] *)
Definition new_json_view (name : str) (action : nat) (m : methods) (qs : option fl) : view :=
  new_view name action m (Some (lit "application/json")) None None qs.

(* verktyg/views.py:65-71: an object of a class derived from ClassView; its attribute
   [name] if there is one, and its attributes, known by number *)
Record class_view := mk_class_view { k_name : option str; k_attrs : dict nat }.
Definition class_methods : list str := [lit "GET"; lit "HEAD"; lit "POST"; lit "PUT"; lit "DELETE"].

(** ** Factories *)

(* SBase: an object of BindingFactory itself *)
Inductive source :=
| SBase
| SBinding (b : binding)
| SView (v : view)
| SClass (k : class_view)
| SDispatcher (i : nat).

(* verktyg/dispatch.py:75-80: the dispatchers made so far, by number *)
Definition store := list dispatcher.
Definition update (st : store) (t : nat) (f : dispatcher -> dispatcher) : store :=
  match nth_error st t with
  | Some d => firstn t st ++ f d :: skipn (S t) st
  | None => st
  end.

(* the exception NotImplementedError of verktyg/dispatch.py:14, a RuntimeError *)
Section adding.
  (* the order in which a set with these elements yields them *)
  Variable order : list str -> list str.

  (* verktyg/views.py:56-62 [View.get_bindings] *)
  Definition view_yields (v : view) : list binding :=
    map (fun m => mk_binding (w_name v) m (w_repr v)) (order (w_methods v)).
  (* verktyg/views.py:66-71 [ClassView.get_bindings] *)
  Fixpoint class_yields (k : class_view) (ms : list str) : list binding * option exn :=
    match ms with
    | [] => ([], None)
    | m :: ms' =>
        match dget (k_attrs k) m with
        | None => class_yields k ms'
        | Some n =>
            match k_name k with
            | None => ([], Some AttributeError)
            | Some name =>
                let (l, e) := class_yields k ms' in
                (mk_binding name m (numbered n (new_repr None None None None)) :: l, e)
            end
        end
    end.
  (* what a factory yields that is no dispatcher, and the exception then *)
  Definition yields (f : source) : list binding * option exn :=
    match f with
    | SBase => ([], Some RuntimeError)                   (* dispatch.py:13-14 *)
    | SBinding b => ([b], None)                          (* 56-57 *)
    | SView v => (view_yields v, None)
    | SClass k => class_yields k (order class_methods)
    | SDispatcher _ => ([], None)
    end.

  (* verktyg/dispatch.py:87-98: the loop over [iter(self._views)] of the dispatcher [s]
     from the place [i] on, each being added to the dispatcher [t].  The iterator looks
     at the list each time.  None: not ended within the fuel. *)
  Fixpoint add_live (fuel : nat) (st : store) (t s i : nat) : option store :=
    match nth_error st s with
    | None => Some st
    | Some d =>
        match nth_error (d_views d) i with
        | None => Some st
        | Some b =>
            match fuel with
            | O => None
            | S n => add_live n (update st t (fun d => add_binding d b)) t s (S i)
            end
        end
    end.
  Definition add_factory (fuel : nat) (st : store) (t : nat) (f : source) : option (store * option exn) :=
    match f with
    | SDispatcher s => option_map (fun st' => (st', None)) (add_live fuel st t s 0)
    | _ => let (l, e) := yields f in
           Some (update st t (fun d => fold_left add_binding l d), e)
    end.
  (* verktyg/dispatch.py:82-98 [add_bindings] of the dispatcher [t] *)
  Fixpoint add_factories (fuel : nat) (st : store) (t : nat) (fs : list source) : option (store * option exn) :=
    match fs with
    | [] => Some (st, None)
    | f :: fs' =>
        match add_factory fuel st t f with
        | None => None
        | Some (st', Some e) => Some (st', Some e)
        | Some (st', None) => add_factories fuel st' t fs'
        end
    end.

  (* Calls: the constructor (dispatch.py:75-80), whose object is lost if it fails, and
     add_bindings, which expose and expose_json (views.py:100-111) call with one view *)
  Inductive dcall := DNew (fs : list source) | DAdd (t : nat) (fs : list source).
  Definition dstep (fuel : nat) (st : store) (c : dcall) : option store :=
    match c with
    | DNew fs =>
        match add_factories fuel (st ++ [new_dispatcher]) (length st) fs with
        | None => None
        | Some (st', None) => Some st'
        | Some (_, Some _) => Some st
        end
    | DAdd t fs => option_map fst (add_factories fuel st t fs)
    end.
  Fixpoint drun (fuel : nat) (st : store) (l : list dcall) : option store :=
    match l with
    | [] => Some st
    | c :: l' => match dstep fuel st c with None => None | Some st' => drun fuel st' l' end
    end.
End adding.
