(** Model of the dicts that call back after a change, of the mirrored Cache-Control header,
    and of the immutable containers (verktyg/datastructures.py, http/cache_control.py,
    responses.py). *)
From Coq Require Import Arith List NArith ZArith Bool.
From Verif Require Import PyStr ModelQuote ModelHeaders ModelRange.
Import ListNotations.
Open Scope N_scope.

(** ** UpdateDictMixin, CallbackDict (datastructures.py:187-226, 998-1011) *)
Section Callback.
  Context {V : Type}.
  Inductive dop :=
  | DSet (k : str) (v : V)                               (* d[k] = v *)
  | DDel (k : str)                                       (* del d[k] *)
  | DClear
  | DPopItem
  | DUpdate (l : list (str * V)) (fails : option exn)    (* the argument yields l, then ends or raises *)
  | DSetDefault (k : str) (v : V)
  | DPop (k : str) (default : option V)
  | DIor (l : dict V).                                   (* d |= l *)
  Inductive dret := RNone | RVal (v : V) | RItem (k : str) (v : V).

  Definition dupdate (d : dict V) (l : list (str * V)) : dict V := fold_left (fun a kv => dset a (fst kv) (snd kv)) l d.
  (** The methods of the standard dict: content afterwards and result. *)
  Definition plain (d : dict V) (o : dop) : dict V * res dret :=
    match o with
    | DSet k v => (dset d k v, Ok RNone)
    | DDel k => if dhas d k then (ddel d k, Ok RNone) else (d, Raise KeyError)
    | DClear => ([], Ok RNone)
    | DPopItem => match rev d with [] => (d, Raise KeyError) | (k, v) :: r => (rev r, Ok (RItem k v)) end
    | DUpdate l fails => (dupdate d l, match fails with None => Ok RNone | Some e => Raise e end)
    | DSetDefault k v => match dget d k with Some x => (d, Ok (RVal x)) | None => (dset d k v, Ok (RVal v)) end
    | DPop k default =>
        match dget d k, default with
        | Some x, _ => (ddel d k, Ok (RVal x))
        | None, Some x => (d, Ok (RVal x))
        | None, None => (d, Raise KeyError)
        end
    | DIor l => (dupdate d l, Ok RNone)
    end.

  (** The world outside and what the callback does to it; it may raise. *)
  Context {X : Type} (on_update : X -> dict V -> X * option exn).
  Definition calls_update (d : dict V) (x : X) (o : dop) : dict V * X * res dret :=
    match plain d o with
    | (d', Ok r) => let (x', e) := on_update x d' in (d', x', match e with None => Ok r | Some e => Raise e end)
    | (d', Raise e) => (d', x, Raise e)
    end.
  Definition no_call (d : dict V) (x : X) (o : dop) : dict V * X * res dret := let (d', r) := plain d o in (d', x, r).
  (** setdefault and pop call back only if the key was missing or there
      (datastructures.py:204-219); the in-place union of dicts is not overridden. *)
  Definition cb_step (d : dict V) (x : X) (o : dop) : dict V * X * res dret :=
    match o with
    | DSetDefault k _ => if negb (dhas d k) then calls_update d x o else no_call d x o
    | DPop k _ => if dhas d k then calls_update d x o else no_call d x o
    | DIor _ => no_call d x o
    | _ => calls_update d x o
    end.
  Fixpoint cb_run (d : dict V) (x : X) (ops : list dop) : dict V * X :=
    match ops with [] => (d, x) | o :: ops' => let '(d', x', _) := cb_step d x o in cb_run d' x' ops' end.
End Callback.
Arguments dop V : clear implicits.
Arguments dret V : clear implicits.

(** ** Response.cache_control (responses.py:659-672) *)
Definition cc_on_update (h : headers) (d : ccdict) : headers * option exn :=
  match d with
  | [] => if h_contains h (lit "cache-control") then (h_remove h (lit "cache-control"), None) else (h, None)
  | _ =>
      match h_set h (lit "Cache-Control") (HStr (cc_to_header d)) [] with
      | Ok h' => (h', None)
      | Raise e => (h, Some e)
      end
  end.
(** The attribute setters and deleters (cache_control.py:326-344) as dict calls *)
Definition attr_call (d : ccdict) (o : cc_op) : option (dop pyval) :=
  match o with
  | CCSet p v =>
      match cp_type p with
      | TBool => Some (if truthy v then DSet (cp_key p) PNone else DPop (cp_key p) (Some PNone))
      | _ =>
          match v with
          | PNone => Some (DPop (cp_key p) None)
          | PTrue => Some (DSet (cp_key p) PNone)
          | _ => Some (DSet (cp_key p) v)
          end
      end
  | CCDel p => if dhas d (cp_key p) then Some (DDel (cp_key p)) else None
  end.
Inductive ccall := CAttr (o : cc_op) | CDict (o : dop pyval).
Definition cc_call (d : ccdict) (h : headers) (c : ccall) : ccdict * headers :=
  match c with
  | CAttr o => match attr_call d o with Some o' => fst (cb_step cc_on_update d h o') | None => (d, h) end
  | CDict o => fst (cb_step cc_on_update d h o)
  end.
Definition cc_calls (d : ccdict) (h : headers) (l : list ccall) : ccdict * headers :=
  fold_left (fun s c => cc_call (fst s) (snd s) c) l (d, h).

(** ** Immutable containers: the methods that the mixins override, all with a body that
    raises TypeError *)
Definition list_mixin : list str :=        (* datastructures.py:63-96 *)
  [lit "__delitem__"; lit "__delslice__"; lit "__iadd__"; lit "__imul__"; lit "__setitem__"; lit "__setslice__"; lit "append"; lit "remove"; lit "extend"; lit "insert";
           lit "pop"; lit "reverse"; lit "sort"].
Definition dict_mixin : list str :=        (* datastructures.py:137-156 *)
  [lit "setdefault"; lit "update"; lit "pop"; lit "popitem"; lit "__setitem__"; lit "__delitem__"; lit "clear"].
Definition multi_mixin : list str :=       (* datastructures.py:171-184 *)
  [lit "add"; lit "popitemlist"; lit "poplist"; lit "setlist"; lit "setlistdefault"] ++ dict_mixin.
Definition headers_mixin : list str :=     (* http/basic.py:507-531 *)
  [lit "__delitem__"; lit "__setitem__"; lit "set"; lit "add"; lit "remove"; lit "add_header"; lit "extend"; lit "insert"; lit "pop"; lit "popitem"; lit "setdefault"].

Inductive container := ImmList | ImmDict | ImmTypeDict | ImmMulti | ImmOrdered | ImmCombined | ImmRequestCache | ImmAuthorization | ImmHeaders.
(** The mixin comes first among the bases (datastructures.py:99, 267, 809, 944, 965, 980,
    http/cache_control.py:362, http/auth.py:19, wsgi.py:279). *)
Definition overridden (c : container) : list str :=
  match c with
  | ImmList => list_mixin
  | ImmDict | ImmTypeDict | ImmRequestCache | ImmAuthorization => dict_mixin
  | ImmMulti | ImmOrdered | ImmCombined => multi_mixin
  | ImmHeaders => headers_mixin
  end.
(** A call by name; [base] is what the class without the mixin does. *)
Definition imm_call {S A R} (base : str -> A -> S -> S * res R) (c : container) (s : S) (call : str * A) : S * res R :=
  if existsb (eqs (fst call)) (overridden c) then (s, Raise TypeError) else base (fst call) (snd call) s.
Fixpoint imm_run {S A R} (base : str -> A -> S -> S * res R) (c : container) (s : S) (calls : list (str * A)) : S * list (res R) :=
  match calls with
  | [] => (s, [])
  | call :: calls' => let (s', r) := imm_call base c s call in let (s'', rs) := imm_run base c s' calls' in (s'', r :: rs)
  end.
