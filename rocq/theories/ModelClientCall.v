(** Model of how Client.open takes its arguments and wraps its answer
    (verktyg/test.py:709-865).  What the requests are and what the application does is left
    open: see ModelTest for these. *)
From Coq Require Import Arith List NArith ZArith Bool.
From Verif Require Import PyStr ModelHeaders ModelTest.
Import ListNotations.
Open Scope N_scope.

(** A positional argument: an EnvironBuilder, a dict (an environ), or another object *)
Inductive carg (B E V : Type) := ABuilder (b : B) | AEnviron (e : E) | AOther (v : V).
Arguments ABuilder {B E V} b.
Arguments AEnviron {B E V} e.
Arguments AOther {B E V} v.
(** What open returns: a response as run_wsgi_app made it or what the response wrapper made
    of it, alone or behind the environ *)
Inductive answer (R X : Type) := Raw (r : R) | Wrapped (x : X).
Arguments Raw {R X} r.
Arguments Wrapped {R X} x.
Inductive outcome (E R X : Type) := OAlone (a : answer R X) | OTuple (e : E) (a : answer R X).
Arguments OAlone {E R X} a.
Arguments OTuple {E R X} e a.

Section client.
  Context {B E V R X T : Type}.
  (** EnvironBuilder.get_environ; EnvironBuilder(...).get_environ() with close() *)
  Variable environ_of : B -> res E.
  Variable build : list (carg B E V) -> dict V -> res E.
  (** run_wsgi_app (test.py:700-707), with the application and the cookies in a state *)
  Variable run : T -> E -> option V -> T * res R.
  (** bool() of an argument, True, and a text *)
  Variable truth : V -> bool.
  Variable true_value : V.
  Variable text : str -> V.
  (** The status code and the Location header of a response, and the path, base_url,
      query_string and method with which resolve_redirect calls open (test.py:715-735), if the
      target is allowed *)
  Variable code_of : R -> res Z.
  Variable location_of : R -> res str.
  Variable redirect_to : R -> str -> E -> res (dict V).
  Definition flag (k : str) (kw : dict V) : bool := match dget kw k with Some v => truth v | None => false end.

  (** test.py:780-791: the environ; kwargs.pop (test.py:777-779) is dget and ddel below *)
  Definition first_environ (args : list (carg B E V)) (kw : dict V) : res E :=
    match kw, args with
    | [], [ABuilder b] => environ_of b
    | [], [AEnviron e] => Ok e
    | _, _ => build args kw
    end.
  (** test.py:751-818 [open] and 709-749 [resolve_redirect].  [w] is the attribute
      response_wrapper of the client.  A None as result: out of fuel.
      An absent buffered stands for False. *)
  Fixpoint c_open (fuel : nat) (t : T) (w : option (R -> res X)) (args : list (carg B E V)) (kw : dict V)
      : option (T * option (R -> res X) * res (outcome E R X)) :=
    match fuel with
    | O => None
    | S fuel =>
        let as_tuple := flag (lit "as_tuple") kw in
        let kw1 := ddel kw (lit "as_tuple") in
        let buffered := dget kw1 (lit "buffered") in
        let kw2 := ddel kw1 (lit "buffered") in
        let follow := flag (lit "follow_redirects") kw2 in
        let kw3 := ddel kw2 (lit "follow_redirects") in
        match first_environ args kw3 with
        | Raise e => Some (t, w, Raise e)
        | Ok environ =>
            match run t environ buffered with
            | (t1, Raise e) => Some (t1, w, Raise e)
            | (t1, Ok r) =>
                match c_follow fuel t1 w environ r buffered follow [] with
                | None => None
                | Some (t2, w2, Raise e) => Some (t2, w2, Raise e)
                | Some (t2, w2, Ok (environ2, r2)) =>
                    match match w2 with Some f => do x <- f r2; Ok (Wrapped x) | None => Ok (Raw r2) end with
                    | Raise e => Some (t2, w2, Raise e)
                    | Ok a => Some (t2, w2, Ok (if as_tuple then OTuple environ2 a else OAlone a))
                    end
                end
            end
        end
    end
  with c_follow (fuel : nat) (t : T) (w : option (R -> res X)) (environ : E) (r : R) (buffered : option V) (follow : bool)
      (chain : list (str * Z)) : option (T * option (R -> res X) * res (E * R)) :=
    match fuel with
    | O => None
    | S fuel =>
        match code_of r with
        | Raise e => Some (t, w, Raise e)
        | Ok code =>
            if negb (is_redirect code) || negb follow then Some (t, w, Ok (environ, r))
            else
              match location_of r with
              | Raise e => Some (t, w, Raise e)
              | Ok location =>
                  if existsb (fun lc => eqs (fst lc) location && (snd lc =? code)%Z) chain
                  then Some (t, w, Raise ClientRedirectError)
                  else
                    match redirect_to r location environ with
                    | Raise e => Some (t, w, Raise e)
                    | Ok where_to =>
                        (* the wrapper is None meanwhile, and set again whatever happens *)
                        match c_open fuel t None []
                                (where_to ++ [(lit "as_tuple", true_value)] ++
                                 match buffered with Some v => [(lit "buffered", v)] | None => [] end) with
                        | None => None
                        | Some (t1, _, Raise e) => Some (t1, w, Raise e)
                        | Some (t1, _, Ok (OTuple environ1 (Raw r1))) =>
                            c_follow fuel t1 w environ1 r1 buffered follow (chain ++ [(location, code)])
                        | Some (t1, _, Ok _) => Some (t1, w, Raise TypeError)
                        end
                    end
              end
        end
    end.
  (** test.py:820-858 [get], [patch], [post], [head], [put], [delete], [options], [trace]:
      kw['method'] is assigned *)
  Definition c_method (m : str) (fuel : nat) (t : T) (w : option (R -> res X)) (args : list (carg B E V)) (kw : dict V) :=
    c_open fuel t w args
      (dset kw (lit "method") (text m)).
End client.
