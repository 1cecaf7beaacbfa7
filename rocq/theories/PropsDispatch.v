(** * Theorems: dispatch of requests and exceptions, the application (C53-C56) *)
From Coq Require Import Arith List NArith ZArith QArith Bool Lia.
From Verif Require Import PyStr PyStrFacts ModelAccept SpecAccept ProofAccept PropsAccept
  ModelDispatch SpecDispatch ProofDispatch.
Import ListNotations.
Open Scope N_scope.

Definition act (n : nat) (r : repr) : repr :=
  mk_repr n (r_content_type r) (r_language r) (r_charset r) (r_qs r).
Definition ex_factories : list factory :=
  [FBinding (mk_binding (lit "index") (lit "GET") (act 1 html));
   FView (view_bindings (lit "item") [lit "POST"; lit "GET"] (act 2 json));
   FDispatcher [FBinding (mk_binding (lit "index") (lit "GET") (act 3 json));
                FDispatcher [FBinding (mk_binding (lit "index") (lit "HEAD") (act 4 plain))]]].
Definition ex_ask (name method : str) (accept : option str) : res nat :=
  match lookup ex_float ex_mul (add_bindings new_dispatcher ex_factories) name method accept None None with
  | Ok r => Ok (r_self r)
  | Raise e => Raise e
  end.

(** ** C53: endpoint dispatch

    [registered fs] are the bindings given, nested dispatchers included.  What
    is returned serves the name and the method. *)
Theorem C53_found : forall float_of fmul fs name method accept language charset r,
  lookup float_of fmul (add_bindings new_dispatcher fs) name method accept language charset = Ok r ->
  exists b, serves (registered fs) name method b /\ b_repr b = r.
Proof. exact lookup_found. Qed.
Print Assumptions C53_found.
Theorem C53_unknown : forall float_of fmul fs name method accept language charset,
  lookup float_of fmul (add_bindings new_dispatcher fs) name method accept language charset
    = Raise NotImplemented
  <-> forall b, In b (registered fs) -> b_name b <> name.
Proof. exact lookup_unknown. Qed.
Print Assumptions C53_unknown.
Theorem C53_method : forall float_of fmul fs name method accept language charset,
  lookup float_of fmul (add_bindings new_dispatcher fs) name method accept language charset
    = Raise MethodNotAllowed
  <-> (exists b, In b (registered fs) /\ b_name b = name)
      /\ forall b, ~ serves (registered fs) name method b.
Proof. exact lookup_method. Qed.
Print Assumptions C53_method.
(** If some binding serves the name and the method then one that the client
    accepts is returned, and if there is none, NotAcceptable is raised.  Headers
    that cannot be read and some kinds of representation raise other exceptions
    (C49, C55): they are excluded here. *)
Theorem C53_serves_partial : forall float_of fmul fs name method accept language charset a,
  good_headers float_of accept language charset a ->
  (forall b, In b (registered fs) -> good_offer (b_repr b)) ->
  (exists b, serves (registered fs) name method b) ->
  let answer := lookup float_of fmul (add_bindings new_dispatcher fs) name method accept language charset in
  (exists b, serves (registered fs) name method b /\ admitted a (b_repr b) /\ answer = Ok (b_repr b))
  \/ (answer = Raise NotAcceptable
      /\ forall b, serves (registered fs) name method b -> ~ admitted a (b_repr b)).
Proof. exact lookup_serves. Qed.
Print Assumptions C53_serves_partial.

(** Two bindings serve the name and the method and the client accepts both: with
    character sets the lookup fails with TypeError, and so does one that has a
    language only (AttributeError); a header that cannot be read gives ValueError. *)
Theorem C53_refuted :
  let b n ct la ch := mk_binding (lit "page") (lit "GET")
        (act n (new_repr ct la ch None)) in
  let ask l h := lookup ex_float ex_mul (add_bindings new_dispatcher (map FBinding l)) (lit "page") (lit "GET") (Some h) None None in
  let text := Some (lit "text/html") in
  ask [b 1%nat text None (Some (lit "utf-8")); b 2%nat text None (Some (lit "latin1"))] (lit "text/html") = Raise TypeError /\
  ask [b 1%nat None (Some (lit "en")) None] (lit "text/html") = Raise AttributeError /\
  ask [b 1%nat text None None] (lit "text/html, *;q=0.1") = Raise ValueError.
Proof. vm_compute. repeat split. Qed.
Print Assumptions C53_refuted.
Example C53_example :
  ex_ask (lit "index") (lit "GET") (Some (lit "text/html")) = Ok 1%nat
  /\ ex_ask (lit "index") (lit "GET") (Some (lit "application/json")) = Ok 3%nat
  /\ ex_ask (lit "index") (lit "HEAD") None = Ok 4%nat
  /\ ex_ask (lit "item") (lit "HEAD") None = Ok 2%nat
  /\ ex_ask (lit "item") (lit "PUT") None = Raise MethodNotAllowed
  /\ ex_ask (lit "items") (lit "GET") None = Raise NotImplemented
  /\ ex_ask (lit "item") (lit "GET") (Some (lit "text/html")) = Raise NotAcceptable.
Proof. vm_compute. repeat split. Qed.
Lemma ex_good_headers : good_headers ex_float (Some (lit "text/html")) None None [rng (lit "text/html") 1].
Proof.
  split; [vm_compute; reflexivity|]. split; [eexists; vm_compute; reflexivity|].
  split; [eexists; vm_compute; reflexivity|].
  intros o [<-|[]]. exists (lit "text"), (lit "html"). apply media_text_is. reflexivity.
Qed.
Example C53_example_hypotheses :
  good_headers ex_float (Some (lit "text/html")) None None [rng (lit "text/html") 1]
  /\ (forall b, In b (registered ex_factories) -> good_offer (b_repr b))
  /\ serves (registered ex_factories) (lit "index") (lit "GET")
       (mk_binding (lit "index") (lit "GET") (act 3 json))
  /\ serves (registered ex_factories) (lit "item") (lit "HEAD")
       (mk_binding (lit "item") (lit "GET") (act 2 json)).
Proof.
  split; [exact ex_good_headers|]. split; [|split].
  - intros b H. repeat (destruct H as [<-|H]; [split; [|reflexivity]|]); [.. | destruct H].
    + exists (lit "text"), (lit "html"). apply media_text_is. reflexivity.
    + exists (lit "application"), (lit "json"). apply media_text_is. reflexivity.
    + exists (lit "application"), (lit "json"). apply media_text_is. reflexivity.
    + exists (lit "application"), (lit "json"). apply media_text_is. reflexivity.
    + exists (lit "text"), (lit "plain"). apply media_text_is. reflexivity.
  - split; [right; right; right; left; reflexivity|]. split; [reflexivity|]. left. reflexivity.
  - split; [right; right; left; reflexivity|]. split; [reflexivity|]. right.
    split; [reflexivity|]. split; [reflexivity|].
    intros b H. repeat (destruct H as [<-|H]; [cbn; intros; discriminate|]). destruct H.
Qed.

(** ** C54: exception handlers *)
Theorem C54_partial : forall float_of fmul fs d accept language charset a,
  add_exception_handlers [] fs = (d, None) ->
  good_headers float_of accept language charset a ->
  (forall h, In h (handlers_of fs) -> good_offer (h_repr h)) ->
  forall mro,
  (exists r, exception_lookup float_of fmul d mro accept language charset = Ok (Some r)
             /\ right_handler (handlers_of fs) mro a r)
  \/ (exception_lookup float_of fmul d mro accept language charset = Ok None
      /\ no_handler (handlers_of fs) mro a).
Proof. exact exception_lookup_ok. Qed.
Print Assumptions C54_partial.

(** Adding a dispatcher that has handlers fails, whatever else is added: the
    classes are taken for handlers (line 79-80). *)
Theorem C54_nested_refuted : forall fs1 d fs2, d <> [] ->
  exists d', add_exception_handlers [] (fs1 ++ HDispatcher d :: fs2) = (d', Some AttributeError).
Proof. exact nested_fails. Qed.
Print Assumptions C54_nested_refuted.

(** Classes: 0 Exception, 1 HTTPException, 2 NotFound, 3 ValueError. *)
Definition ex_handlers : list hfactory :=
  [HHandler (mk_handler 0 (act 10 html)); HHandler (mk_handler 1 (act 11 json));
   HDispatcher []; HHandler (mk_handler 2 (act 12 plain)); HHandler (mk_handler 1 (act 13 html))].
Definition ex_hs : handlers := fst (add_exception_handlers [] ex_handlers).
Definition ex_handle (mro : list nat) (accept : option str) : res (option nat) :=
  match exception_lookup ex_float ex_mul ex_hs mro accept None None with
  | Ok (Some r) => Ok (Some (r_self r)) | Ok None => Ok None | Raise e => Raise e
  end.
Example C54_example :
  add_exception_handlers [] ex_handlers = (ex_hs, None)
  /\ ex_handle [2; 1; 0]%nat (Some (lit "text/plain")) = Ok (Some 12%nat)
  /\ ex_handle [2; 1; 0]%nat (Some (lit "application/json")) = Ok (Some 11%nat)
  /\ ex_handle [2; 1; 0]%nat (Some (lit "text/html")) = Ok (Some 13%nat)
  /\ ex_handle [3; 0]%nat (Some (lit "text/html")) = Ok (Some 10%nat)
  /\ ex_handle [3; 0]%nat (Some (lit "image/png")) = Ok None.
Proof. vm_compute. repeat split. Qed.
Example C54_example_hypotheses : forall h, In h (handlers_of ex_handlers) -> good_offer (h_repr h).
Proof.
  intros h H. repeat (destruct H as [<-|H]; [split; [|reflexivity]|]); [.. | destruct H].
  - exists (lit "text"), (lit "html"). apply media_text_is. reflexivity.
  - exists (lit "application"), (lit "json"). apply media_text_is. reflexivity.
  - exists (lit "text"), (lit "plain"). apply media_text_is. reflexivity.
  - exists (lit "text"), (lit "html"). apply media_text_is. reflexivity.
Qed.

(** ** C55: the pipeline

    For any router, actions, handlers and exceptions.  [catchable] exceptions
    are the instances of Exception.  Required: accept headers that can be read
    (else the exception is replaced, below). *)
Theorem C55_partial : forall float_of fmul (X Req Args Resp : Type) (mro_of : X -> list nat)
    (catchable : X -> bool) (exc : exn -> X) (route : Req -> outcome (str * Args)%type)
    (action : nat -> Req -> Args -> outcome Resp) (on_exception : nat -> Req -> X -> outcome Resp)
    (method : Req -> str) (accept language charset : Req -> option str) fs hfs hs a req,
  add_exception_handlers [] hfs = (hs, None) ->
  good_headers float_of (accept req) (language req) (charset req) a ->
  (forall h, In h (handlers_of hfs) -> good_offer (h_repr h)) ->
  let d := add_bindings new_dispatcher fs in
  let found name := lookup float_of fmul d name (method req) (accept req) (language req) (charset req) in
  let answer := get_response float_of fmul mro_of catchable exc route action on_exception
                  method accept language charset d hs req in
  (exists r, endpoint_answers route action found req r /\ answer = Ret _ r)
  \/ (exists x, goes_wrong exc route action found req x /\
       ((catchable x = true /\
         exists h, right_handler (handlers_of hfs) (mro_of x) a h
                   /\ answer = on_exception (r_self h) req x)
        \/ ((catchable x = false \/ no_handler (handlers_of hfs) (mro_of x) a) /\ answer = Exc _ x))).
Proof. exact @get_response_cases. Qed.
Print Assumptions C55_partial.

(** A request: path, method, Accept.  Exceptions: those modelled, of two
    classes, and one that is no Exception. *)
Record ex_req := mk_req { q_path : str; q_method : str; q_accept : option str }.
Inductive ex_exc := XModel (e : exn) | XNotFound | XInterrupt.
Definition ex_route (q : ex_req) : @outcome ex_exc (str * nat)%type :=
  if eqs (q_path q) (lit "/") then Ret _ (lit "index", 0%nat)
  else if eqs (q_path q) (lit "/item") then Ret _ (lit "item", 7%nat)
  else Exc _ XNotFound.
Definition ex_action (n : nat) (q : ex_req) (args : nat) : @outcome ex_exc (nat * nat)%type :=
  if Nat.eqb n 2 then (if eqs (q_method q) (lit "POST") then Exc _ XInterrupt else Exc _ XNotFound)
  else Ret _ (n, args).
Definition ex_respond (accept : option str) (method path : str) : @outcome ex_exc (nat * nat)%type :=
  get_response ex_float ex_mul
    (fun x => match x with XModel _ => [3; 0] | XNotFound => [2; 1; 0] | XInterrupt => [9] end)%nat
    (fun x => match x with XInterrupt => false | _ => true end)
    XModel ex_route ex_action (fun n _ _ => Ret _ (n, 404%nat)) q_method q_accept (fun _ => None) (fun _ => None)
    (add_bindings new_dispatcher ex_factories) ex_hs (mk_req path method accept).
Example C55_example :
  ex_respond (Some (lit "text/html")) (lit "GET") (lit "/") = Ret _ (1, 0)%nat
  /\ ex_respond (Some (lit "text/html")) (lit "GET") (lit "/nowhere") = Ret _ (13, 404)%nat
  /\ ex_respond (Some (lit "application/json")) (lit "GET") (lit "/item") = Ret _ (11, 404)%nat
  /\ ex_respond (Some (lit "image/png")) (lit "GET") (lit "/nowhere") = Exc _ XNotFound
  /\ ex_respond (Some (lit "application/json")) (lit "POST") (lit "/item") = Exc _ XInterrupt
  /\ ex_respond (Some (lit "text/html")) (lit "PUT") (lit "/") = Ret _ (10, 404)%nat.
Proof. vm_compute. repeat split. Qed.

(** An Accept header that cannot be read: the page is not found, there is a
    handler for that and one for every Exception, and what reaches the server is
    the ValueError of the second look at the header. *)
Theorem C55_header_refuted :
  ex_respond (Some (lit "html")) (lit "GET") (lit "/nowhere") = Exc _ (XModel ValueError)
  /\ ex_respond (Some (lit "text/html;q=high")) (lit "GET") (lit "/") = Exc _ (XModel ValueError)
  /\ ex_respond (Some (lit "text/html")) (lit "GET") (lit "/nowhere") = Ret _ (13, 404)%nat
  /\ In (mk_handler 0 (act 10 html)) (handlers_of ex_handlers).
Proof. split; [vm_compute; reflexivity|]. split; [vm_compute; reflexivity|].
  split; [vm_compute; reflexivity|]. left. reflexivity. Qed.
Print Assumptions C55_header_refuted.

(** ** C56: middleware

    Any sequence of calls on the builder; the application made by the n-th
    build is wrapped in the middleware added before it. *)
Theorem C56_build : forall (Env Resp : Type) (inner : @app_run Env Resp) before after,
  nth_error (build_run layer_wrap inner [] (before ++ BBuild :: after)) (builds before)
  = Some (build_stack layer_wrap inner (added before)).
Proof. intros Env Resp inner before after. exact (build_nth inner before after []). Qed.
Print Assumptions C56_build.
(** The last added sees the request first and the response last. *)
Theorem C56_order : forall (Env Resp : Type) (answer : Env -> Resp) ms e,
  map who (fst (build_stack layer_wrap (innermost answer) ms e))
  = map (fun w => (Some (l_name w), true)) (rev ms) ++ [(None, true)]
    ++ map (fun w => (Some (l_name w), false)) ms.
Proof. exact @stack_order. Qed.
Print Assumptions C56_order.
(** A middleware sees the request as changed by those added after it, and the
    response as changed by those added before it; so does the client. *)
Theorem C56_sees : forall (Env Resp : Type) (answer : Env -> Resp) ms e before w after,
  ms = before ++ w :: after ->
  let t := fst (build_stack layer_wrap (innermost answer) ms e) in
  In (Request (l_name w) (through (rev after) e)) t
  /\ In (Response (l_name w) (back before (answer (through (rev ms) e)))) t.
Proof. exact @stack_sees. Qed.
Print Assumptions C56_sees.
Theorem C56_result : forall (Env Resp : Type) (answer : Env -> Resp) ms e,
  snd (build_stack layer_wrap (innermost answer) ms e) = back ms (answer (through (rev ms) e)).
Proof. exact @stack_result. Qed.
Print Assumptions C56_result.

Definition ex_layer (n : nat) : layer (list nat) (list nat) := mk_layer n (cons n) (cons (10 + n)%nat).
Definition ex_ops : list (@bop (layer (list nat) (list nat))) :=
  [BAddMiddleware (ex_layer 1); BBuild; BOther; BAddMiddleware (ex_layer 2); BAddMiddleware (ex_layer 3); BBuild].
Example C56_example :
  map (fun run => run []) (build_run layer_wrap (innermost (fun e => e)) [] ex_ops)
  = [([Request 1 []; Inner [1]; Response 1 [1]], [11; 1]);
     ([Request 3 []; Request 2 [3]; Request 1 [2; 3]; Inner [1; 2; 3];
       Response 1 [1; 2; 3]; Response 2 [11; 1; 2; 3]; Response 3 [12; 11; 1; 2; 3]],
      [13; 12; 11; 1; 2; 3])]%nat.
Proof. reflexivity. Qed.
