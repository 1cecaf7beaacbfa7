(** Model of Authorization.qop (verktyg/http/auth.py:63-73): the set handed out and what
    calls on it do to the authorization. *)
From Coq Require Import Arith List NArith ZArith Bool.
From Verif Require Import PyStr ModelHeaders ModelMirror.
From Verif Require ModelCallback.
Import ListNotations.
Open Scope N_scope.

(** What dict itself does for the two calls that on_update makes; an Authorization is a
    dict behind ImmutableDictMixin (http/auth.py:19, datastructures.py:149-153).
    [None] as argument value stands for a field without a value. *)
Definition plain_dict (method : str) (arg : str * option str) (d : dict (option str)) : dict (option str) * res unit :=
  if eqs method (lit "__setitem__") then (dset d (fst arg) (snd arg), Ok tt)
  else if eqs method (lit "__delitem__")
       then (if dhas d (fst arg) then (ddel d (fst arg), Ok tt) else (d, Raise KeyError))
       else (d, Raise AttributeError).
Definition auth_call (d : dict (option str)) (method : str) (arg : str * option str) : dict (option str) * option exn :=
  let (d', r) := ModelCallback.imm_call plain_dict ModelCallback.ImmAuthorization d (method, arg) in
  (d', match r with Ok _ => None | Raise e => Some e end).

(** auth.py:67-71 [on_update] *)
Definition qop_update (d : dict (option str)) (s : hset) : dict (option str) * option exn :=
  if Nat.eqb (hs_len s) 0 && dhas d (lit "qop") then auth_call d (lit "__delitem__") (lit "qop", None)
  else if negb (Nat.eqb (hs_len s) 0) then auth_call d (lit "__setitem__") (lit "qop", Some (hs_to_header s))
  else (d, None).
(** auth.py:72: [parse_set_header(self.get('qop'), on_update)] *)
Definition auth_qop (d : dict (option str)) : hset :=
  parse_set_header (match dget d (lit "qop") with Some v => v | None => None end).

(** Calls on one set that was handed out, each with what it raised. *)
Fixpoint qop_calls (s : hset) (d : dict (option str)) (ops : list hsop) : hset * dict (option str) * list (option exn) :=
  match ops with
  | [] => (s, d, [])
  | o :: ops' =>
      let '(s1, d1, e) := hs_call qop_update s d o in
      let '(s2, d2, es) := qop_calls s1 d1 ops' in (s2, d2, e :: es)
  end.
