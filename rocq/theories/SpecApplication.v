(** Vocabulary for the claims about the application builder and the application. *)
From Coq Require Import List NArith ZArith Bool.
From Verif Require Import PyStr Utf8 ModelRoute ModelAccept SpecAccept ModelDispatch SpecDispatch ModelApplication.
From Verif Require ModelUrlMap SpecUrlMap.
Import ListNotations.
Open Scope N_scope.

(** ** What a history of calls says *)
(** The decorators made by calls of [expose], as they were asked for. *)
Definition declared (h : list call) : list decorator :=
  flat_map (fun c => match c with CExpose x => [x] | _ => [] end) h.
(** The names of the functions that decorator [k] was applied to. *)
Definition uses (h : list call) (k : nat) : list str :=
  flat_map (fun c => match c with CDecorate k' name _ => if (k =? k')%nat then [name] else [] | _ => [] end) h.
(** Decorators are applied after they were made. *)
Definition proper (h : list call) : Prop :=
  forall h1 k name f h2, h = h1 ++ CDecorate k name f :: h2 -> (k < length (declared h1))%nat.
(** What every call adds, given the calls before it, put together. *)
Inductive collect {A} (adds : list call -> call -> list A) : list call -> list A -> Prop :=
| co_nil : collect adds [] []
| co_snoc h l c : collect adds h l -> collect adds (h ++ [c]) (l ++ adds h c).

(** The endpoint of a decorator: the one it was asked for, or else the name of the
    first function it was applied to. *)
Definition endpoint_of (x : decorator) (names : list str) : str :=
  match x_endpoint x, names with Some e, _ => e | None, n :: _ => n | None, [] => [] end.
(** A route text that cannot be used. *)
Definition unusable (route : option str) : bool :=
  match route with Some (47 :: _) | None => false | Some _ => true end.
(** The route for a text and an endpoint, nothing else being asked for. *)
Definition route_for (text endpoint : str) : ModelUrlMap.spec :=
  ModelUrlMap.Spec text (negb (ends [47] text)) [] None false endpoint None ModelUrlMap.NoRedirect false None.
Definition routes_added (h : list call) (c : call) : list robject :=
  match c with
  | CAddRoutes l => l
  | CDecorate k name f =>
      match nth_error (declared h) k, uses h k with
      | Some x, [] =>
          match x_route x with
          | Some text => if unusable (Some text) then [] else [ORoute (Exposed k) (route_for text (endpoint_of x [name]))]
          | None => []
          end
      | _, _ => []
      end
  | _ => []
  end.
Definition bindings_added (h : list call) (c : call) : list factory :=
  match c with
  | CAddBindings l => l
  | CDecorate k name f =>
      match nth_error (declared h) k with
      | Some x =>
          match uses h k with
          | [] => if unusable (x_route x) then [] else
                    [FView (map (fun m => mk_binding (endpoint_of x [name]) m
                                            (mk_repr f (r_content_type (x_repr x)) (r_language (x_repr x)) (r_charset (x_repr x)) (r_qs (x_repr x))))
                                (x_methods x))]
          | names => [FView (map (fun m => mk_binding (endpoint_of x names) m
                                             (mk_repr f (r_content_type (x_repr x)) (r_language (x_repr x)) (r_charset (x_repr x)) (r_qs (x_repr x))))
                                 (x_methods x))]
          end
      | None => []
      end
  | _ => []
  end.
Definition handlers_added (h : list call) (c : call) : list hfactory :=
  match c with CAddHandlers l => l | _ => [] end.

(** ** What was built *)
Definition factory_of (o : robject) : ModelUrlMap.factory :=
  match o with ORoute _ s => ModelUrlMap.FRoute s | OFactory f => f end.
Definition route_objects (l : list robject) : list rid :=
  flat_map (fun o => match o with ORoute i _ => [i] | OFactory _ => [] end) l.
(** The application's routes *)
Definition app_routes (p : application) : list ModelUrlMap.broute :=
  ModelUrlMap.m_routes (ModelUrlMap.a_map (p_adapter p)).
(** [b] is the route for the path; a map has the domain and a bar before it. *)
Definition routed (p : application) (path : str) (b : ModelUrlMap.broute) : Prop :=
  SpecUrlMap.best true (124 :: path) (app_routes p) b.
Definition unrouted (p : application) (path : str) : Prop :=
  forall b, In b (app_routes p) -> ~ SpecUrlMap.answers true (124 :: path) b.
Definition with_values (path : str) (b : ModelUrlMap.broute) (values : dict ModelRoute.value) : Prop :=
  route_match true (ModelUrlMap.b_route b) (124 :: path) = Ok (MValues values).

(** The route answers the path itself: no redirect is asked of it, and no route of its
    endpoint has defaults. *)
Definition straight (p : application) (path : str) (b : ModelUrlMap.broute) : Prop :=
  (exists values, with_values path b values) /\ ModelUrlMap.b_redirect b = ModelUrlMap.NoRedirect /\
  forall b', In b' (app_routes p) -> r_endpoint (ModelUrlMap.b_route b') = r_endpoint (ModelUrlMap.b_route b) ->
    r_defaults (ModelUrlMap.b_route b') = [].

(** ** What becomes of an exception *)
Section exceptions.
  Context {U Resp : Type}.
  Variable mro_of : xn U -> list nat.
  Variable catchable : xn U -> bool.
  Variable run_handler : nat -> dict str -> xn U -> @outcome (xn U) Resp.
  Variable hs : list handler.
  Variable a : list range.
  Variable environ : dict str.
  (** It reaches the server, or the right handler answers. *)
  Definition left_to_server (x : xn U) : Prop :=
    catchable x = false \/ no_handler hs (mro_of x) a.
  Inductive handled (x : xn U) : @outcome (xn U) Resp -> Prop :=
  | ha_server : left_to_server x -> handled x (Exc _ x)
  | ha_handler r : catchable x = true -> right_handler hs (mro_of x) a r -> handled x (run_handler (r_self r) environ x).
End exceptions.

(** The method of the request, as the environment gives it *)
Definition sent_method (environ : dict str) : str :=
  match dget environ (lit "REQUEST_METHOD") with Some m => m | None => [] end.

(** ** The reasons for an exception: no route answers; the route redirects; something fails
    while it does so; nothing is bound to its endpoint, or nothing for the method, or
    nothing the client accepts; the action raises it. *)
Section reasons.
  Context {U Resp : Type}.
  Variable action : nat -> dict str -> dict ModelRoute.value -> @outcome (xn U) Resp.
  Variables (u : builder) (p : application) (environ : dict str) (path : str).
  Let bindings : list binding := registered (u_bindings u).
  Inductive raised : xn U -> Prop :=
  | ra_not_found : unrouted p path -> raised XNotFound
  | ra_redirect b url : routed p path b -> ~ straight p path b -> raised (XRedirect url)
  | ra_routing b e : routed p path b -> ~ straight p path b -> raised (XModel e)
  | ra_endpoint b values : routed p path b -> with_values path b values ->
      (forall bd, In bd bindings -> b_name bd <> r_endpoint (ModelUrlMap.b_route b)) ->
      raised (XModel NotImplemented)
  | ra_method b values : routed p path b -> with_values path b values ->
      (forall bd, ~ serves bindings (r_endpoint (ModelUrlMap.b_route b)) (sent_method environ) bd) ->
      raised (XModel MethodNotAllowed)
  | ra_negotiation b values bd e : routed p path b -> with_values path b values ->
      serves bindings (r_endpoint (ModelUrlMap.b_route b)) (sent_method environ) bd -> negotiation_error e ->
      raised (XModel e)
  | ra_action b values bd x : routed p path b -> with_values path b values ->
      serves bindings (r_endpoint (ModelUrlMap.b_route b)) (sent_method environ) bd ->
      action (r_self (b_repr bd)) environ values = Exc _ x -> raised x.
End reasons.
