(** Model of how responses are closed (responses.py:470-484, 575-618, wsgi.py:555-599,
    application.py:89-96).  The WSGI middleware stack is left out (see C56); requests are
    closed as one event.  [fails c] is the exception a closing function raises, if any. *)
From Coq Require Import Arith List NArith ZArith Bool.
From Verif Require Import PyStr ModelHeaders ModelResponse.
Import ListNotations.
Open Scope N_scope.

(** What can be observed: the server gets a chunk, the end or an exception; a closing
    function runs; the request is closed. *)
Inductive event := EChunk (b : str) | EStop | ERaise (e : exn) | ERun (c : callback) | ERequestClosed.

Section Close.
  Variable fails : callback -> option exn.

  (** run closing functions in order until one raises *)
  Fixpoint run_all (l : list callback) : list event * option exn :=
    match l with
    | [] => ([], None)
    | c :: l' =>
        match fails c with
        | Some e => ([ERun c], Some e)
        | None => let (t, e) := run_all l' in (ERun c :: t, e)
        end
    end.
  (** the close method of the body, if it has one *)
  Definition body_closer (b : body) : list callback :=
    match b with BIter _ _ (Some n) => [CIter n] | _ => [] end.
  (** BaseResponse.close (responses.py:470-478) *)
  Definition close_response (r : response) : list event * option exn :=
    run_all (body_closer (rs_body r) ++ rs_on_close r).
  (** the close method of what get_app_iter returns (responses.py:589-601,
      wsgi.py:578-598); the generator of iter_encoded and the empty tuple have nothing to
      close themselves.  A list in pass-through mode has no close method. *)
  Definition close_iter (r : response) (a : app_iter) : list event * option exn :=
    match a with
    | ARaw b => run_all (body_closer b)
    | _ => close_response r
    end.

  (** ** The generator BaseApplication._wsgi_inner (application.py:89-92)
      [served] is what calling the response gives: the iterator, or an exception of
      get_wsgi_headers or of start_response. *)
  Inductive gen := GStart | GRunning (a : app_iter) (rest : list str) (fail : option exn) | GDone.
  Definition later (old new : option exn) : option exn := match new with Some e => Some e | None => old end.
  (** leaving the two with statements with an exception or without; an exception raised
      by closing replaces the one on the way *)
  Definition leave (r : response) (e : option exn) : list event * option exn :=
    let (t, e') := close_response r in (t ++ [ERequestClosed], later e e').
  Definition result (e : option exn) : event := match e with Some e => ERaise e | None => EStop end.
  Definition pull (r : response) (a : app_iter) (rest : list str) (fail : option exn) : list event * gen :=
    match rest with
    | b :: rest' => ([EChunk b], GRunning a rest' fail)
    | [] => let (t, e) := leave r fail in (t ++ [result e], GDone)
    end.
  Definition gen_next (r : response) (served : res app_iter) (g : gen) : list event * gen :=
    match g with
    | GStart =>
        match served with
        | Ok a => let (cs, e) := chunks a in pull r a cs e
        | Raise e => let (t, e') := leave r (Some e) in (t ++ [result e'], GDone)
        end
    | GRunning a rest fail => pull r a rest fail
    | GDone => ([EStop], GDone)
    end.
  (** close of the generator: a yield from passes it on to the inner iterator first.  An
      exception raised by closing reaches the server. *)
  Definition gen_close (r : response) (g : gen) : list event :=
    match g with
    | GRunning a _ _ =>
        let (t1, e1) := close_iter r a in
        let (t2, e2) := leave r e1 in
        t1 ++ t2 ++ match e2 with Some e => [ERaise e] | None => [] end
    | _ => []
    end.
  (** A server that asks for [n] chunks and then closes. *)
  Fixpoint ask (r : response) (served : res app_iter) (n : nat) (g : gen) : list event * gen :=
    match n with
    | O => ([], g)
    | S n' => let (t, g') := gen_next r served g in let (t', g'') := ask r served n' g' in (t ++ t', g'')
    end.
  Definition app_trace (r : response) (served : res app_iter) (n : nat) : list event :=
    let (t, g) := ask r served n GStart in t ++ gen_close r g.

  (** ** A response used as the WSGI application itself *)
  Fixpoint take_chunks (n : nat) (cs : list str) (e : option exn) : list event :=
    match n, cs with
    | O, _ => []
    | S n', b :: cs' => EChunk b :: take_chunks n' cs' e
    | S _, [] => [result e]
    end.
  Definition direct_trace (r : response) (a : app_iter) (n : nat) : list event :=
    let (cs, e) := chunks a in
    take_chunks n cs e ++ let (t, e') := close_iter r a in t ++ match e' with Some e => [ERaise e] | None => [] end.
End Close.
