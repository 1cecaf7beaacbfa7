(** * Dispatch of requests and exceptions, and the application around them

    verktyg/dispatch.py, verktyg/exception_dispatch.py, verktyg/application.py. *)
From Coq Require Import Arith List NArith ZArith Bool.
From Verif Require Import PyStr ModelAccept.
Import ListNotations.
Open Scope N_scope.

(** The HTTP exceptions raised by the dispatcher (verktyg/exceptions.py:476, 232) *)
Definition NotImplemented : exn := OtherError 501.
Definition MethodNotAllowed : exn := OtherError 405.

(** ** Dispatcher *)

(* verktyg/dispatch.py:46-51 [Binding]; names are texts, the action is known by
   the number [r_self] of the representation *)
Record binding := mk_binding { b_name : str; b_method : str; b_repr : repr }.

(* verktyg/dispatch.py:75-80 [Dispatcher] *)
Record dispatcher := mk_dispatcher {
  d_index : dict (dict (list repr));
  d_views : list binding }.
Definition new_dispatcher : dispatcher := mk_dispatcher [] [].

(* verktyg/dispatch.py:87-98, one turn of the inner loop of [add_bindings] *)
Definition add_binding (d : dispatcher) (b : binding) : dispatcher :=
  let with_name := match dget (d_index d) (b_name b) with Some m => m | None => [] end in
  let with_method := match dget with_name (b_method b) with Some l => l | None => [] end in
  mk_dispatcher
    (dset (d_index d) (b_name b) (dset with_name (b_method b) (with_method ++ [b_repr b])))
    (d_views d ++ [b]).

(* What [add_bindings] takes (verktyg/dispatch.py:82-87): a binding (56-57), a
   view or any other factory that yields bindings in some order
   (verktyg/views.py:56-71), or a dispatcher (100-101) with what had been added
   to it.  Adding a dispatcher to itself never ends and is left out. *)
Inductive factory :=
| FBinding (b : binding)
| FView (l : list binding)
| FDispatcher (fs : list factory).
(* verktyg/views.py:56-62 [View.get_bindings], the methods in the order the set
   yields them *)
Definition view_bindings (name : str) (methods : list str) (r : repr) : list binding :=
  map (fun m => mk_binding name m r) methods.

Fixpoint get_bindings (f : factory) : list binding :=
  match f with
  | FBinding b => [b]
  | FView l => l
  | FDispatcher fs =>
      d_views (fold_left (fun d f' => fold_left add_binding (get_bindings f') d) fs new_dispatcher)
  end.
(* verktyg/dispatch.py:82-98 [add_bindings] *)
Definition add_bindings (d : dispatcher) (fs : list factory) : dispatcher :=
  fold_left (fun d f => fold_left add_binding (get_bindings f) d) fs d.

Section lookups.
  Variable float_of : str -> option fl.
  Variable fmul : fl -> fl -> fl.

  (* verktyg/dispatch.py:103-125 [lookup] *)
  Definition lookup (d : dispatcher) (name method : str)
      (accept language charset : option str) : res repr :=
    match dget (d_index d) name with
    | None => Raise NotImplemented
    | Some with_name =>
        do l <- match dget with_name method with
                | Some l => Ok l
                | None =>
                    if eqs method (lit "HEAD") then
                      match dget with_name (lit "GET") with
                      | Some l => Ok l
                      | None => Raise MethodNotAllowed
                      end
                    else Raise MethodNotAllowed
                end;
        select_representation float_of fmul l accept language charset
    end.

  (** ** ExceptionDispatcher *)

  (* verktyg/exception_dispatch.py:30-35 [ExceptionHandler]; a class is known by
     a number *)
  Record handler := mk_handler { h_class : nat; h_repr : repr }.
  (* verktyg/exception_dispatch.py:57 [_handlers] *)
  Definition handlers := list (nat * list repr).
  Fixpoint hs_get (d : handlers) (c : nat) : option (list repr) :=
    match d with
    | [] => None
    | (c', l) :: d' => if Nat.eqb c c' then Some l else hs_get d' c
    end.
  (* verktyg/exception_dispatch.py:75-77 *)
  Fixpoint hs_add (d : handlers) (c : nat) (r : repr) : handlers :=
    match d with
    | [] => [(c, [r])]
    | (c', l) :: d' => if Nat.eqb c c' then (c', l ++ [r]) :: d' else (c', l) :: hs_add d' c r
    end.
  (* What [add_exception_handlers] takes: a handler, or another dispatcher, whose
     [get_exception_handlers] (line 79-80) iterates over the keys of the dict:
     classes, which have no attribute [exception_class] (line 75) *)
  Inductive hfactory := HHandler (h : handler) | HDispatcher (d : handlers).
  Definition add_handler (d : handlers) (f : hfactory) : handlers * option exn :=
    match f with
    | HHandler h => (hs_add d (h_class h) (h_repr h), None)
    | HDispatcher [] => (d, None)
    | HDispatcher (_ :: _) => (d, Some AttributeError)
    end.
  (* verktyg/exception_dispatch.py:61-77 [add_exception_handlers] *)
  Fixpoint add_exception_handlers (d : handlers) (fs : list hfactory) : handlers * option exn :=
    match fs with
    | [] => (d, None)
    | f :: fs' =>
        match add_handler d f with
        | (d', None) => add_exception_handlers d' fs'
        | (d', Some e) => (d', Some e)
        end
    end.

  (* verktyg/exception_dispatch.py:82-123 [lookup]; [mro] is the method resolution
     order of the exception's class *)
  Fixpoint exception_lookup (d : handlers) (mro : list nat)
      (accept language charset : option str) : res (option repr) :=
    match mro with
    | [] => Ok None
    | c :: mro' =>
        match hs_get d c with
        | None => exception_lookup d mro' accept language charset
        | Some l =>
            match select_representation float_of fmul l accept language charset with
            | Ok r => Ok (Some r)
            | Raise e =>
                if is_not_acceptable e then exception_lookup d mro' accept language charset
                else Raise e
            end
        end
    end.

  (** ** The application

      Exceptions are values of any type [X]; [mro_of] is the method resolution
      order of the class of one; [catchable] is false of those that are not
      instances of Exception.  [exc] gives the exception that a call modelled
      above raises. *)
  Section pipeline.
    Context {X Req Args Resp : Type}.
    Variable mro_of : X -> list nat.
    Variable catchable : X -> bool.
    Variable exc : exn -> X.
    Inductive outcome (A : Type) := Ret (a : A) | Exc (x : X).
    Arguments Ret {A}. Arguments Exc {A}.
    (* the router: endpoint and arguments (application.py:60-62) *)
    Variable route : Req -> outcome (str * Args).
    (* the action of a binding (application.py:74), of an exception handler (87) *)
    Variable action : nat -> Req -> Args -> outcome Resp.
    Variable on_exception : nat -> Req -> X -> outcome Resp.
    (* REQUEST_METHOD and the three accept headers of a request *)
    Variable method : Req -> str.
    Variables accept language charset : Req -> option str.

    Definition lift {A} (x : res A) : outcome A :=
      match x with Ok a => Ret a | Raise e => Exc (exc e) end.

    (* application.py:57-74, the body of the try statement *)
    Definition attempt (d : dispatcher) (req : Req) : outcome Resp :=
      match route req with
      | Exc x => Exc x
      | Ret (endpoint, args) =>
          match lift (lookup d endpoint (method req) (accept req) (language req) (charset req)) with
          | Exc x => Exc x
          | Ret b => action (r_self b) req args
          end
      end.
    (* application.py:56-87 [_get_response] *)
    Definition get_response (d : dispatcher) (hs : handlers) (req : Req) : outcome Resp :=
      match attempt d req with
      | Ret r => Ret r
      | Exc x =>
          if catchable x then
            match lift (exception_lookup hs (mro_of x) (accept req) (language req) (charset req)) with
            | Exc x' => Exc x'
            | Ret None => Exc x
            | Ret (Some h) => on_exception (r_self h) req x
            end
          else Exc x
      end.
  End pipeline.

  (** ** Middleware *)
  Section middleware.
    Context {App W : Type}.
    (* [wrapper(app, *args, **kwargs)] *)
    Variable wrap : W -> App -> App.
    (* application.py:118, 173-181, 212-227: calls on the builder; each build makes
       an application of the middleware added so far *)
    Inductive bop := BAddMiddleware (w : W) | BOther | BBuild.
    (* application.py:52-54 *)
    Definition build_stack (inner : App) (ms : list W) : App :=
      fold_left (fun stack w => wrap w stack) ms inner.
    Fixpoint build_run (inner : App) (ms : list W) (ops : list bop) : list App :=
      match ops with
      | [] => []
      | BAddMiddleware w :: ops' => build_run inner (ms ++ [w]) ops'
      | BOther :: ops' => build_run inner ms ops'
      | BBuild :: ops' => build_stack inner ms :: build_run inner ms ops'
      end.
  End middleware.
End lookups.
