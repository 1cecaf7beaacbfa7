(** * Vocabulary of the dispatch claims *)
From Coq Require Import List NArith Bool.
From Verif Require Import PyStr ModelAccept SpecAccept ModelDispatch.
Import ListNotations.
Open Scope N_scope.

(** The bindings given, in the order they were given, those of nested
    dispatchers included. *)
Fixpoint given (f : factory) : list binding :=
  match f with
  | FBinding b => [b]
  | FView l => l
  | FDispatcher fs => flat_map given fs
  end.
Definition registered (fs : list factory) : list binding := flat_map given fs.

(** Among [bs] the binding [b] serves requests of the method for the name: it is
    registered for them, or it is for GET, the method is HEAD and nothing of the
    name is registered for HEAD. *)
Definition serves (bs : list binding) (name method : str) (b : binding) : Prop :=
  In b bs /\ b_name b = name /\
  (b_method b = method \/
   method = lit "HEAD" /\ b_method b = lit "GET" /\
   forall b', In b' bs -> b_name b' = name -> b_method b' <> lit "HEAD").

(** The three headers can be read, and the media ranges have a single slash;
    [a] is what the Accept header says. *)
Definition good_headers (float_of : str -> option fl) (accept language charset : option str)
    (a : list range) : Prop :=
  parse_accept float_of KContentType (match accept with Some s => s | None => lit "*/*" end) = Ok a
  /\ (exists b, parse_accept float_of KLanguage (match language with Some s => s | None => lit "*" end) = Ok b)
  /\ (exists c, parse_accept float_of KCharset (match charset with Some s => s | None => lit "*" end) = Ok c)
  /\ forall o, In o a -> well_formed (rg_value o).
(** What is offered has a content type with a single slash (or neither content
    type nor language), and no character set. *)
Definition good_offer (r : repr) : Prop :=
  match r_content_type r with Some v => well_formed (v_text v) | None => r_language r = None end
  /\ r_charset r = None.

(** The exceptions that negotiation raises. *)
Definition negotiation_error (e : exn) : Prop :=
  e = ValueError \/ e = AttributeError \/ e = TypeError \/ e = NotAcceptable.

(** The exception handlers given *)
Definition handlers_of (fs : list hfactory) : list handler :=
  flat_map (fun f => match f with HHandler h => [h] | HDispatcher _ => [] end) fs.

(** The handler [r] is the right one for an exception whose class has the
    method resolution order [mro]: acceptable, and registered for a class before
    which no class in the order has an acceptable handler. *)
Definition right_handler (hs : list handler) (mro : list nat) (a : list range) (r : repr) : Prop :=
  exists before c after h,
    mro = before ++ c :: after /\ In h hs /\ h_class h = c /\ h_repr h = r /\ admitted a r
    /\ forall h', In h' hs -> In (h_class h') before -> ~ admitted a (h_repr h').
Definition no_handler (hs : list handler) (mro : list nat) (a : list range) : Prop :=
  forall h, In h hs -> In (h_class h) mro -> ~ admitted a (h_repr h).

(** ** The application

    [found name] is the answer of the dispatcher for an endpoint.  The endpoint's
    answer: the request was routed, a binding was found, its action returned
    [r].  Or [x] was raised: by the router, by the dispatcher, by the action. *)
Section application.
  Context {X Req Args Resp : Type}.
  Variable exc : exn -> X.
  Variable route : Req -> @outcome X (str * Args).
  Variable action : nat -> Req -> Args -> @outcome X Resp.
  Variable found : str -> res repr.
  Definition endpoint_answers (req : Req) (r : Resp) : Prop :=
    exists name args b, route req = Ret _ (name, args) /\ found name = Ok b
                        /\ action (r_self b) req args = Ret _ r.
  Definition goes_wrong (req : Req) (x : X) : Prop :=
    route req = Exc _ x
    \/ (exists name args e, route req = Ret _ (name, args) /\ found name = Raise e /\ x = exc e)
    \/ (exists name args b, route req = Ret _ (name, args) /\ found name = Ok b
                           /\ action (r_self b) req args = Exc _ x).
End application.

(** ** Middleware

    A layer passes a changed request on and a changed response back; a run
    leaves a record of who saw what. *)
Section layers.
  Context {Env Resp : Type}.
  Record layer := mk_layer { l_name : nat; l_request : Env -> Env; l_response : Resp -> Resp }.
  Inductive event := Request (name : nat) (e : Env) | Inner (e : Env) | Response (name : nat) (r : Resp).
  Definition app_run := Env -> list event * Resp.
  Definition layer_wrap (w : layer) (inner : app_run) : app_run := fun e =>
    let '(t, r) := inner (l_request w e) in
    (Request (l_name w) e :: t ++ [Response (l_name w) r], l_response w r).
  Definition innermost (answer : Env -> Resp) : app_run := fun e => ([Inner e], answer e).

  (** The middleware added by a sequence of calls on the builder *)
  Definition added (ops : list (@bop layer)) : list layer :=
    flat_map (fun o => match o with BAddMiddleware w => [w] | _ => [] end) ops.
  Definition builds (ops : list (@bop layer)) : nat :=
    length (filter (fun o => match o with BBuild => true | _ => false end) ops).

  (** A request passed through layers, a response passed back through layers, the
      first of the list first *)
  Definition through (ms : list layer) (e : Env) : Env := fold_left (fun e w => l_request w e) ms e.
  Definition back (ms : list layer) (r : Resp) : Resp := fold_left (fun r w => l_response w r) ms r.

  (** Who and in which direction: the application itself is None *)
  Definition who (v : event) : option nat * bool :=
    match v with Request n _ => (Some n, true) | Inner _ => (None, true) | Response n _ => (Some n, false) end.
End layers.
Arguments layer : clear implicits.
Arguments event : clear implicits.
