(** * The application builder and the application

    verktyg/application.py, expose of verktyg/views.py and the binding of a Route
    object to one map (verktyg/routing.py:556-571).  Not here: the classes made of
    mixins and the converters added to the builder (ModelMixins; [mk] stands for all of them), the
    middleware (ModelDispatch), the response as a context manager. *)
From Coq Require Import Arith List NArith ZArith Bool.
From Verif Require Import PyStr Utf8 ModelUrls ModelRoute ModelAccept ModelDispatch ModelResponse ModelUtils ModelRequest.
From Verif Require ModelUrlMap.
Import ListNotations.
Open Scope N_scope.

(** ** The builder *)

(* A Route object: one that was given to add_routes, or the one made by the
   decorator with that number *)
Inductive rid := Given (n : nat) | Exposed (k : nat).
Definition rid_eqb (x y : rid) : bool :=
  match x, y with
  | Given n, Given m | Exposed n, Exposed m => (n =? m)%nat
  | _, _ => false
  end.
(* What add_routes takes: a Route object, or a factory that makes new Route
   objects whenever it is asked (verktyg/routing.py:254-408) *)
Inductive robject := ORoute (i : rid) (s : ModelUrlMap.spec) | OFactory (f : ModelUrlMap.factory).

(* The variables that the closure of [expose] keeps (application.py:157-171):
   endpoint, kwargs['route'], the methods and the other arguments of the view *)
Record decorator := mk_decorator {
  x_endpoint : option str;
  x_route : option str;
  x_methods : list str;
  x_repr : repr }.

(* application.py:109-136 [ApplicationBuilder.__init__]; the decorators made by
   [expose] are known by number; [u_bound]: the Route objects with a router *)
Record builder := mk_builder {
  u_routes : list robject;
  u_bindings : list factory;
  u_handlers : list hfactory;
  u_decorators : list decorator;
  u_bound : list rid }.

Definition set_nth {A} (l : list A) (k : nat) (x : A) : list A := firstn k l ++ x :: skipn (S k) l.

(* the arguments of Route that [expose] leaves out (routing.py:506-531) *)
Definition plain_route (r endpoint : str) : res ModelUrlMap.spec :=
  ModelUrlMap.new_route r [] None false endpoint None ModelUrlMap.NoRedirect false None.

(* application.py:157-171 and views.py:100-105: the decorator [k] is applied to a
   function with that __name__; [f] is the number of the function *)
Definition decorate (u : builder) (k : nat) (name : str) (f : nat) : builder * option exn :=
  match nth_error (u_decorators u) k with
  | None => (u, None)
  | Some x =>
      let endpoint := match x_endpoint x with Some e => e | None => name end in
      let x' := mk_decorator (Some endpoint) None (x_methods x) (x_repr x) in
      let ds := set_nth (u_decorators u) k x' in
      let r := x_repr x in
      let view := FView (view_bindings endpoint (x_methods x)
                           (mk_repr f (r_content_type r) (r_language r) (r_charset r) (r_qs r))) in
      match x_route x with
      | None => (mk_builder (u_routes u) (u_bindings u ++ [view]) (u_handlers u) ds (u_bound u), None)
      | Some route =>
          match plain_route route endpoint with
          | Raise e => (mk_builder (u_routes u) (u_bindings u) (u_handlers u) ds (u_bound u), Some e)
          | Ok s => (mk_builder (u_routes u ++ [ORoute (Exposed k) s]) (u_bindings u ++ [view])
                                (u_handlers u) ds (u_bound u), None)
          end
      end
  end.

(** ** Building *)

(* BaseApplication makes a URLMap with the default settings (application.py:36,
   routing.py:1050-1085) *)
Definition app_config : ModelUrlMap.config := ModelUrlMap.Config [] true true false.

Record application := mk_application {
  p_adapter : ModelUrlMap.adapter;
  p_dispatcher : dispatcher;
  p_handlers : handlers }.

Section build.
  Variable mk : str -> option str -> res converter.
  Variables ip_ok nfkc_ok : str -> bool.
  (* [x.lower().encode('idna').decode('ascii')] *)
  Variable norm : str -> res str.

  (* routing.py:1085-1109, add_routes for each object, and 556-571 [bind]: the
     Route objects bound afterwards, the map or the exception *)
  Fixpoint build_map (bound : list rid) (m : ModelUrlMap.url_map) (l : list robject)
      : list rid * res ModelUrlMap.url_map :=
    match l with
    | [] => (bound, Ok m)
    | ORoute i s :: l' =>
        if existsb (rid_eqb i) bound then (bound, Raise RuntimeError)
        else
          match ModelUrlMap.add_routes mk m [ModelUrlMap.FRoute s] with
          | (m', None) => build_map (i :: bound) m' l'
          | (_, Some e) => (i :: bound, Raise e)
          end
    | OFactory f :: l' =>
        match ModelUrlMap.add_routes mk m [f] with
        | (m', None) => build_map bound m' l'
        | (_, Some e) => (bound, Raise e)
        end
    end.

  (* application.py:212-227 and 29-45 *)
  Definition build_app (u : builder) (root : str) : builder * res application :=
    let (bound, m) := build_map (u_bound u) (ModelUrlMap.empty_map app_config) (u_routes u) in
    (mk_builder (u_routes u) (u_bindings u) (u_handlers u) (u_decorators u) bound,
     do m <- m;
     do r <- ModelUrlMap.urlparse ip_ok nfkc_ok root [];
     do a <- ModelUrlMap.bind_map norm m (ModelUrlMap.p_netloc r) (Some (ModelUrlMap.p_path r)) None
               (ModelUrlMap.p_scheme r);
     match add_exception_handlers [] (u_handlers u) with
     | (hs, None) => Ok (mk_application a (add_bindings new_dispatcher (u_bindings u)) hs)
     | (_, Some e) => Raise e
     end).

  (* Calls on a builder *)
  Inductive call :=
  | CAddRoutes (l : list robject)               (* application.py:151-152 *)
  | CAddBindings (l : list factory)             (* 154-155 *)
  | CAddHandlers (l : list hfactory)            (* 183-184; 186-210 call it *)
  | CExpose (x : decorator)                     (* 157-171, the call of [expose] *)
  | CDecorate (k : nat) (name : str) (f : nat)  (* the call of its result *)
  | CBuild (root : str).                        (* 212-227 *)
  Definition step (u : builder) (c : call) : builder :=
    match c with
    | CAddRoutes l => mk_builder (u_routes u ++ l) (u_bindings u) (u_handlers u) (u_decorators u) (u_bound u)
    | CAddBindings l => mk_builder (u_routes u) (u_bindings u ++ l) (u_handlers u) (u_decorators u) (u_bound u)
    | CAddHandlers l => mk_builder (u_routes u) (u_bindings u) (u_handlers u ++ l) (u_decorators u) (u_bound u)
    | CExpose x => mk_builder (u_routes u) (u_bindings u) (u_handlers u) (u_decorators u ++ [x]) (u_bound u)
    | CDecorate k name f => fst (decorate u k name f)
    | CBuild root => fst (build_app u root)
    end.
End build.

(* application.py:24-25, 125-128: the default handler has the number 0; [c] is the
   number of the class RequestRedirect *)
Definition default_handler (c : nat) : hfactory :=
  HHandler (mk_handler c (mk_repr 0 None None None f_one)).
Definition new_builder (default_redirect : option nat) : builder :=
  mk_builder [] [] (match default_redirect with Some c => [default_handler c] | None => [] end) [] [].

(** ** Answering *)
Section answer.
  Variable float_of : str -> option fl.
  Variable fmul : fl -> fl -> fl.
  Variables ip_ok nfkc_ok : str -> bool.
  Variable idna_part : str -> res str.
  Context {U Resp : Type}.
  (* The exceptions: those of routing (routing.py:213-223, exceptions.py), those
     raised by the code modelled here, those of actions and handlers *)
  Inductive xn := XNotFound | XRedirect (url : str) | XModel (e : exn) | XUser (x : U).
  Variable mro_of : xn -> list nat.
  Variable catchable : xn -> bool.
  Variable action : nat -> dict str -> dict ModelRoute.value -> @outcome xn Resp.
  Variable on_exception : nat -> dict str -> xn -> @outcome xn Resp.
  (* a Response seen as what actions return *)
  Variable of_response : response -> Resp.

  (* application.py:24-25; an exception that is no RequestRedirect has no new_url *)
  Definition handle (n : nat) (environ : dict str) (x : xn) : @outcome xn Resp :=
    match n with
    | O => match x with
           | XRedirect url =>
               match redirect idna_part ip_ok nfkc_ok url 301 with
               | Ok r => Ret _ (of_response r)
               | Raise e => Exc _ (XModel e)
               end
           | _ => Exc _ (XModel AttributeError)
           end
    | _ => on_exception n environ x
    end.

  (* application.py:60-62 with requests.py:310-319, 380-384 *)
  Definition app_route (a : ModelUrlMap.adapter) (environ : dict str) : @outcome xn (str * dict ModelRoute.value) :=
    match req_path environ, req_query_string environ with
    | Raise e, _ | _, Raise e => Exc _ (XModel e)
    | Ok p, Ok q =>
        match snd (ModelUrlMap.match_path ip_ok nfkc_ok a p q) with
        | Raise e => Exc _ (XModel e)
        | Ok ModelUrlMap.NotFound => Exc _ XNotFound
        | Ok (ModelUrlMap.Redirect url) => Exc _ (XRedirect url)
        | Ok (ModelUrlMap.Found b values) => Ret _ (r_endpoint (ModelUrlMap.b_route b), values)
        end
    end.
  (* environ['REQUEST_METHOD'], which every WSGI server gives *)
  Definition env_method (environ : dict str) : str := env_or environ (lit "REQUEST_METHOD").
  Definition env_accept (environ : dict str) : option str := dget environ (lit "HTTP_ACCEPT").
  Definition env_language (environ : dict str) : option str := dget environ (lit "HTTP_ACCEPT_LANGUAGE").
  Definition env_charset (environ : dict str) : option str := dget environ (lit "HTTP_ACCEPT_CHARSET").

  (* application.py:56-87: the response, and the application afterwards, whose map
     has been sorted if the request could be read *)
  Definition app_answer (p : application) (environ : dict str) : application * @outcome xn Resp :=
    (mk_application
       (match req_path environ, req_query_string environ with
        | Ok _, Ok _ => ModelUrlMap.update_adapter (p_adapter p)
        | _, _ => p_adapter p
        end) (p_dispatcher p) (p_handlers p),
     get_response float_of fmul mro_of catchable XModel (app_route (p_adapter p)) action handle
       env_method env_accept env_language env_charset (p_dispatcher p) (p_handlers p) environ).
  (* application.py:98-106 [url_for] *)
  Definition url_for (p : application) (endpoint : str) (values : dict (option ModelRoute.value)) : application * res str :=
    let (a, u) := ModelUrlMap.build ip_ok nfkc_ok (p_adapter p) endpoint values false true in
    (mk_application a (p_dispatcher p) (p_handlers p), u).

  (* The life of an application *)
  Inductive event := EAsk (environ : dict str) | EUrl (endpoint : str) (values : dict (option ModelRoute.value)).
  Inductive reply := RAnswer (r : @outcome xn Resp) | RUrl (u : res str).
  Definition live (p : application) (e : event) : application * reply :=
    match e with
    | EAsk environ => let (p', r) := app_answer p environ in (p', RAnswer r)
    | EUrl endpoint values => let (p', u) := url_for p endpoint values in (p', RUrl u)
    end.
  Fixpoint life (p : application) (l : list event) : application * list reply :=
    match l with
    | [] => (p, [])
    | e :: l' => let (p', r) := live p e in let (p'', rs) := life p' l' in (p'', r :: rs)
    end.
End answer.
Arguments xn : clear implicits.
Arguments reply : clear implicits.
