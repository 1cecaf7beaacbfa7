(** * Theorems: the application and its builder (C100, C101) *)
From Coq Require Import Arith List NArith ZArith Bool Lia.
From Verif Require Import PyStr PyStrFacts Utf8 ModelUrls ModelRoute SpecRoute ModelAccept SpecAccept PropsAccept ModelDispatch SpecDispatch
  ModelHeaders ModelResponse ModelUtils ProofUtils ModelRequest ModelApplication SpecApplication ProofApplication.
From Verif Require ModelUrlMap SpecUrlMap ProofUrlMap PropsUrlMap SpecUrls.
Import ListNotations.
Open Scope N_scope.

(** ** C101: the builder *)
(** After any calls, failed and repeated ones and builds included: the routes, bindings and
    handlers are those that the calls added, in the order of the calls.  A decorator adds
    its route when it is first applied, and binds every function to one endpoint. *)
Theorem C101_collected : forall mk ip_ok nfkc_ok norm default h, proper h ->
  let u := fold_left (step mk ip_ok nfkc_ok norm) h (new_builder default) in
  collect routes_added h (u_routes u) /\ collect bindings_added h (u_bindings u) /\
  exists l, collect handlers_added h l /\
    u_handlers u = match default with Some c => [default_handler c] | None => [] end ++ l.
Proof.
  intros mk ip_ok nfkc_ok norm default h P u. destruct (collected mk ip_ok nfkc_ok norm default h P) as (R & B & H & _).
  split; [exact R|]. split; [exact B|exact H].
Qed.
Print Assumptions C101_collected.
(** What a build makes of them: the routes of the factories, compiled in order; every Route
    object is new to it. *)
Theorem C101_built : forall mk ip_ok nfkc_ok norm u root u' p,
  build_app mk ip_ok nfkc_ok norm u root = (u', Ok p) ->
  NoDup (route_objects (u_routes u)) /\ (forall i, In i (route_objects (u_routes u)) -> ~ In i (u_bound u)) /\
  (forall i, In i (u_bound u') <-> In i (u_bound u) \/ In i (route_objects (u_routes u))) /\
  exists specs, SpecUrlMap.yields (map factory_of (u_routes u)) specs /\
    Forall2 (SpecUrlMap.compiled mk app_config) specs (app_routes p).
Proof.
  intros mk ip_ok nfkc_ok norm u root u' p B.
  destruct (build_app_inv _ _ _ _ _ _ _ _ B) as (m & r & s & E & _ & _ & Em & _).
  apply build_map_ok with (g := app_config) in E as (_ & _ & N & Nb & Hb & specs & new & Y & R & F); [|constructor].
  split; [exact N|]. split; [exact Nb|]. split; [exact Hb|]. exists specs. split; [exact Y|].
  unfold app_routes. rewrite Em, R. exact F.
Qed.
Print Assumptions C101_built.
(** The claim that a builder can be called again is false as soon as it has a Route object:
    whatever is called in between, the second build fails. *)
Theorem C101_again_refuted : forall mk ip_ok nfkc_ok norm u root u' p, build_app mk ip_ok nfkc_ok norm u root = (u', Ok p) ->
  route_objects (u_routes u) <> [] -> forall h root',
  snd (build_app mk ip_ok nfkc_ok norm (fold_left (step mk ip_ok nfkc_ok norm) h u') root') = Raise RuntimeError.
Proof. intros mk ip_ok nfkc_ok norm u root u' p B N h root'. exact (build_again mk ip_ok nfkc_ok norm u root u' p h root' B N). Qed.
Print Assumptions C101_again_refuted.

Definition ex_norm (s : str) : res str := Ok (lower s).
Definition ex_step := step PropsUrlMap.ex_mk PropsUrlMap.yes PropsUrlMap.yes ex_norm.
Definition ex_html : repr := mk_repr 0 (Some (mk_value (lit "text/html") None)) None None f_one.
Definition ex_json : repr := mk_repr 0 (Some (mk_value (lit "application/json") None)) None None f_one.
Definition ex_item (f : nat) : factory := FView (view_bindings (lit "item") [lit "GET"; lit "PUT"] (mk_repr f (r_content_type ex_json) None None f_one)).
(** A decorator without a name applied twice, one whose route has no slash, routes and
    bindings given directly. *)
Definition ex_calls : list call :=
  [CExpose (mk_decorator None (Some (lit "/items/<int:n>")) [lit "GET"] ex_html);
   CExpose (mk_decorator (Some (lit "about")) (Some (lit "about")) [lit "GET"] ex_html);
   CDecorate 0 (lit "item") 1;
   CAddRoutes [ORoute (Given 0) (route_for (lit "/tags/<name>/") (lit "tag"));
               OFactory (ModelUrlMap.FSubmount (lit "/old") [ModelUrlMap.FRoute (route_for (lit "/x") (lit "item"))])];
   CDecorate 1 (lit "f") 2;
   CDecorate 0 (lit "other") 3;
   CDecorate 1 (lit "f") 4;
   CAddBindings [ex_item 5];
   CAddHandlers [HHandler (mk_handler 2 (mk_repr 6 None None None f_one))]].
Definition ex_builder : builder := fold_left ex_step ex_calls (new_builder (Some 1%nat)).
Example C101_example : proper ex_calls /\
  map factory_of (u_routes ex_builder) =
    [ModelUrlMap.FRoute (route_for (lit "/items/<int:n>") (lit "item"));
     ModelUrlMap.FRoute (route_for (lit "/tags/<name>/") (lit "tag"));
     ModelUrlMap.FSubmount (lit "/old") [ModelUrlMap.FRoute (route_for (lit "/x") (lit "item"))]] /\
  map (fun b => (b_name b, b_method b, r_self (b_repr b))) (registered (u_bindings ex_builder)) =
    [(lit "item", lit "GET", 1%nat); (lit "item", lit "GET", 3%nat); (lit "about", lit "GET", 4%nat);
     (lit "item", lit "GET", 5%nat); (lit "item", lit "PUT", 5%nat)] /\
  map (fun h => (h_class h, r_self (h_repr h))) (handlers_of (u_handlers ex_builder)) = [(1, 0); (2, 6)]%nat.
Proof.
  split.
  - intros h1 k name f h2 E. unfold ex_calls in E.
    do 9 (destruct h1 as [|? h1]; cbn [app] in E; [try discriminate E; injection E as <- <- <- <-; cbn; lia|injection E as <- E]). 
    destruct h1; discriminate E.
  - vm_compute. repeat split.
Qed.
(** A decorator is used up by its first application: a second function is bound to the
    endpoint of the first, under which no second route is added; and where the route was
    refused, a second application binds the function without any route. *)
Theorem C101_decorator_refuted : exists h, proper h /\
  let u := fold_left ex_step h (new_builder None) in
  In (CExpose (mk_decorator None (Some (lit "/a")) [lit "GET"] ex_html)) h /\ In (CDecorate 0 (lit "g") 2) h /\
  In (CExpose (mk_decorator (Some (lit "c")) (Some (lit "c")) [lit "GET"] ex_html)) h /\ In (CDecorate 1 (lit "c") 3) h /\
  map factory_of (u_routes u) = [ModelUrlMap.FRoute (route_for (lit "/a") (lit "f"))] /\
  map (fun b => (b_name b, r_self (b_repr b))) (registered (u_bindings u)) = [(lit "f", 1); (lit "f", 2); (lit "c", 4)]%nat.
Proof.
  exists [CExpose (mk_decorator None (Some (lit "/a")) [lit "GET"] ex_html); CExpose (mk_decorator (Some (lit "c")) (Some (lit "c")) [lit "GET"] ex_html);
          CDecorate 0 (lit "f") 1; CDecorate 0 (lit "g") 2; CDecorate 1 (lit "c") 3; CDecorate 1 (lit "c") 4].
  split.
  - intros h1 k name f h2 E. 
    do 6 (destruct h1 as [|? h1]; cbn [app] in E; [try discriminate E; injection E as <- <- <- <-; cbn; lia|injection E as <- E]).
    destruct h1; discriminate E.
  - split; [left; reflexivity|]. split; [do 3 right; left; reflexivity|]. split; [right; left; reflexivity|].
    split; [do 4 right; left; reflexivity|]. vm_compute. repeat split.
Qed.
Print Assumptions C101_decorator_refuted.
Example C101_again_example :
  let b := build_app PropsUrlMap.ex_mk PropsUrlMap.yes PropsUrlMap.yes ex_norm ex_builder (lit "http://example.com/app") in
  match snd b with Ok p => length (app_routes p) = 3%nat | Raise _ => False end /\
  match snd (build_app PropsUrlMap.ex_mk PropsUrlMap.yes PropsUrlMap.yes ex_norm (fst b) []) with Raise RuntimeError => True | _ => False end /\
  length (route_objects (u_routes ex_builder)) = 2%nat.
Proof. vm_compute. repeat split. Qed.

(** ** C100: answers *)
Section answers.
  Variable float_of : str -> option fl.
  Variable fmul : fl -> fl -> fl.
  Variable mk : str -> option str -> res converter.
  Variables ip_ok nfkc_ok : str -> bool.
  Variable norm : str -> res str.
  Variable idna_part : str -> res str.
  Variables U Resp : Type.
  Variable mro_of : xn U -> list nat.
  Variable catchable : xn U -> bool.
  Variable action : nat -> dict str -> dict ModelRoute.value -> @outcome (xn U) Resp.
  Variable on_exception : nat -> dict str -> xn U -> @outcome (xn U) Resp.
  Variable of_response : response -> Resp.
  Notation answer p environ := (snd (app_answer float_of fmul ip_ok nfkc_ok idna_part mro_of catchable action on_exception of_response p environ)).
  Notation run_handler := (handle ip_ok nfkc_ok idna_part on_exception of_response).
  Notation handled := (handled mro_of catchable run_handler).
  Notation build_app := (build_app mk ip_ok nfkc_ok norm).
  Notation accept_headers environ := (good_headers float_of (dget environ (lit "HTTP_ACCEPT")) (dget environ (lit "HTTP_ACCEPT_LANGUAGE")) (dget environ (lit "HTTP_ACCEPT_CHARSET"))).

  (** Every request that can be read: the answer is that of the action of a binding for the
      endpoint of the best route and the method, called with the values of the route; or
      there is a reason for an exception, and the right handler answers, or nobody does. *)
Theorem C100_partial : forall u root u' p environ path q a,
    build_app u root = (u', Ok p) -> norm [] = Ok [] -> accept_headers environ a ->
    (forall h, In h (handlers_of (u_handlers u)) -> good_offer (h_repr h)) ->
    req_path environ = Ok path -> req_query_string environ = Ok q ->
    (exists b values bd r, routed p path b /\ with_values path b values /\
       serves (registered (u_bindings u)) (r_endpoint (ModelUrlMap.b_route b)) (sent_method environ) bd /\
       action (r_self (b_repr bd)) environ values = Ret _ r /\ answer p environ = Ret _ r) \/
    (exists x, raised action u p environ path x /\ handled (handlers_of (u_handlers u)) a environ x (answer p environ)).
  Proof. exact (app_answer_cases float_of fmul mk ip_ok nfkc_ok norm idna_part U Resp mro_of catchable action on_exception of_response). Qed.

  (** Where a binding serves the endpoint of a route that answers itself, one that the client
      accepts is called; if it accepts none, the exception is NotAcceptable. *)
Theorem C100_served_partial : forall u root u' p environ path q a b values,
    build_app u root = (u', Ok p) -> norm [] = Ok [] -> accept_headers environ a ->
    (forall h, In h (handlers_of (u_handlers u)) -> good_offer (h_repr h)) ->
    (forall bd, In bd (registered (u_bindings u)) -> good_offer (b_repr bd)) ->
    req_path environ = Ok path -> req_query_string environ = Ok q ->
    routed p path b -> straight p path b -> with_values path b values ->
    let serving := serves (registered (u_bindings u)) (r_endpoint (ModelUrlMap.b_route b)) (sent_method environ) in
    (exists bd, serving bd) ->
    (exists bd, serving bd /\ admitted a (b_repr bd) /\
       match action (r_self (b_repr bd)) environ values with
       | Ret _ r => answer p environ = Ret _ r
       | Exc _ x => handled (handlers_of (u_handlers u)) a environ x (answer p environ)
       end) \/
    ((forall bd, serving bd -> ~ admitted a (b_repr bd)) /\
     handled (handlers_of (u_handlers u)) a environ (XModel NotAcceptable) (answer p environ)).
  Proof. exact (app_served float_of fmul mk ip_ok nfkc_ok norm idna_part U Resp mro_of catchable action on_exception of_response). Qed.

  (** A path that no route answers: the exception is NotFound. *)
Theorem C100_not_found_partial : forall u root u' p environ path q a,
    build_app u root = (u', Ok p) -> norm [] = Ok [] -> accept_headers environ a ->
    (forall h, In h (handlers_of (u_handlers u)) -> good_offer (h_repr h)) ->
    req_path environ = Ok path -> req_query_string environ = Ok q -> unrouted p path ->
    handled (handlers_of (u_handlers u)) a environ XNotFound (answer p environ).
  Proof. exact (app_not_found float_of fmul mk ip_ok nfkc_ok norm idna_part U Resp mro_of catchable action on_exception of_response). Qed.

  (** The best route wants a slash and nothing but the default handler is there for redirects:
      the response has status 301 and the location is the path asked for and a slash, below
      the application's root. *)
Theorem C100_slash : forall u root u' p environ path q a b c rel top,
    build_app u root = (u', Ok p) -> norm [] = Ok [] -> accept_headers environ a ->
    (forall h, In h (handlers_of (u_handlers u)) -> good_offer (h_repr h)) ->
    req_path environ = Ok path -> req_query_string environ = Ok q ->
    routed p path b -> route_match true (ModelUrlMap.b_route b) (124 :: path) = Ok MSlash ->
    SpecRoute.plain_route (ModelUrlMap.b_route b) -> (forall v, path <> v ++ [10]) -> SpecUrls.unicode_text path ->
    ModelUrlMap.a_scheme (p_adapter p) <> [] -> ModelUrlMap.a_server (p_adapter p) <> [] ->
    SpecUrlMap.root_of (ModelUrlMap.a_script (p_adapter p)) top -> SpecUrlMap.relative path rel ->
    In (default_handler c) (u_handlers u) ->
    (forall url, In c (mro_of (XRedirect url)) /\ catchable (XRedirect url) = true /\
       forall h, In h (handlers_of (u_handlers u)) -> In (h_class h) (mro_of (XRedirect url)) -> r_self (h_repr h) = 0%nat) ->
    exists quoted, SpecRoute.decodes quoted rel /\
      let url := ModelUrlMap.a_scheme (p_adapter p) ++ lit "://" ++ ModelUrlMap.a_server (p_adapter p) ++ top ++ quoted ++ [47] ++ SpecUrlMap.query_suffix q in
      forall r, redirect idna_part ip_ok nfkc_ok url 301 = Ok r ->
        answer p environ = Ret _ (of_response r) /\ st_line (rs_status r) = lit "301 MOVED PERMANENTLY" /\
        exists uri, iri_to_uri idna_part ip_ok nfkc_ok url = Ok uri /\ h_getlist (rs_headers r) (lit "Location") = [uri].
  Proof.
    intros u root u' p environ path q a b c rel top B N G GO Hp Hq R Hm P Nn Ut Sc Sv Rt Rl Hd Only.
    destruct (app_made mk ip_ok nfkc_ok norm _ _ _ _ B) as [M C]. pose proof (app_subdomain mk ip_ok nfkc_ok norm _ _ _ _ N B) as S.
    pose proof (path_asked _ _ _ C S Hp) as A.
    destruct (build_app_inv _ _ _ _ _ _ _ _ B) as (m & r0 & s & _ & _ & _ & _ & _ & _ & _ & _ & _ & D & H).
    assert (Rd : ModelUrlMap.g_redirect_defaults (ModelUrlMap.m_config (ModelUrlMap.a_map (p_adapter p))) = true) by (rewrite C; auto).
    pose proof (PropsUrlMap.C61_redirect_url ip_ok nfkc_ok mk app_config (p_adapter p) path q b (124 :: path) (ModelUrlMap.a_server (p_adapter p)) top rel M A) as Sl.
    rewrite Rd in Sl. specialize (Sl R Hm P).
    destruct Sl as (quoted & E & Dq & _); auto.
    - intros v Hv. destruct v as [|x v]; [discriminate|]. injection Hv as <- Hv. apply (Nn v Hv).
    - apply (SpecUrlMap.own_sub _ [] _); [rewrite C; auto|auto|]. apply SpecUrlMap.th_top. rewrite C. auto.
    - exists quoted. split; [exact Dq|]. intros url r Er. destruct (Only url) as (O1 & O2 & O3).
      split.
      + rewrite (app_redirects float_of fmul ip_ok nfkc_ok idna_part U Resp mro_of catchable action on_exception of_response u p environ path q url c a H G GO Hp Hq E Hd O1 O2 O3).
        rewrite Er. reflexivity.
      + apply redirect_spec in Er as (uri & e1 & e2 & bb & Ei & _ & _ & _ & _ & Es & _ & L). split; [rewrite Es; vm_compute; reflexivity|]. exists uri. auto.
  Qed.

  (** Nothing is remembered from one request to the next: whatever the application has been
      asked before, its replies are those of the application as built. *)
Theorem C100_independent : forall p events,
    snd (life float_of fmul ip_ok nfkc_ok idna_part mro_of catchable action on_exception of_response p events) =
    map (fun e => snd (live float_of fmul ip_ok nfkc_ok idna_part mro_of catchable action on_exception of_response p e)) events.
  Proof. intros p events. apply life_replies. Qed.
End answers.
Print Assumptions C100_partial.
Print Assumptions C100_served_partial.
Print Assumptions C100_not_found_partial.
Print Assumptions C100_slash.
Print Assumptions C100_independent.

(** Classes: 0 Exception, 1 RequestRedirect, 2 NotFound. *)
Definition ex_app : res application :=
  snd (build_app PropsUrlMap.ex_mk PropsUrlMap.yes PropsUrlMap.yes ex_norm ex_builder (lit "http://example.com/app")).
Definition ex_env (method path query : str) (accept : option str) : dict str :=
  [(lit "REQUEST_METHOD", method); (lit "PATH_INFO", path); (lit "QUERY_STRING", query)]
  ++ match accept with Some s => [(lit "HTTP_ACCEPT", s)] | None => [] end.
Definition ex_answer (environ : dict str) : @outcome (xn nat) (nat * list str) :=
  match ex_app with
  | Raise e => Exc _ (XModel e)
  | Ok p => snd (app_answer ex_float ex_mul PropsUrlMap.yes PropsUrlMap.yes (fun s => Ok s)
      (fun x => match x with XNotFound => [2; 0] | XRedirect _ => [1; 0] | _ => [3; 0] end)%nat (fun _ => true)
      (fun n _ values => if (n =? 5)%nat then Exc _ (XUser 7%nat) else Ret _ (n, map fst values))
      (fun n environ x => Ret _ (n, []))
      (fun r => (301%nat, st_line (rs_status r) :: h_getlist (rs_headers r) (lit "Location"))) p environ)
  end.
Example C100_example :
  ex_answer (ex_env (lit "GET") (lit "/items/12") [] (Some (lit "text/html"))) = Ret _ (3%nat, [lit "n"]) /\
  ex_answer (ex_env (lit "HEAD") (lit "/old/x") [] (Some (lit "text/html"))) = Ret _ (3%nat, []) /\
  ex_answer (ex_env (lit "GET") (lit "/items/12") [] (Some (lit "application/json"))) = Exc _ (XUser 7%nat) /\
  ex_answer (ex_env (lit "POST") (lit "/items/12") [] None) = Exc _ (XModel MethodNotAllowed) /\
  ex_answer (ex_env (lit "GET") (lit "/tags/a b/") [] None) = Exc _ (XModel NotImplemented) /\
  ex_answer (ex_env (lit "GET") (lit "/tags/a b") (lit "x=1") None) =
    Ret _ (301%nat, [lit "301 MOVED PERMANENTLY"; lit "http://example.com/app/tags/a%20b/?x=1"]) /\
  ex_answer (ex_env (lit "GET") (lit "/nowhere") [] None) = Ret _ (6%nat, []).
Proof. vm_compute. repeat split. Qed.
(** A request whose Accept header cannot be read: there is a route, a binding and a handler
    for every exception, and what reaches the server is the ValueError of the second look at
    the header. *)
Theorem C100_header_refuted : exists u,
  let p := snd (build_app PropsUrlMap.ex_mk PropsUrlMap.yes PropsUrlMap.yes ex_norm u []) in
  In (HHandler (mk_handler 0 (mk_repr 6 None None None f_one))) (u_handlers u) /\
  match p with
  | Ok p =>
      let ask accept := snd (app_answer ex_float ex_mul PropsUrlMap.yes PropsUrlMap.yes (fun s => Ok s)
          (fun _ => [0%nat]) (fun _ => true) (fun n _ _ => Ret _ n) (fun n _ _ => Ret _ n) (fun _ => 0%nat)
          p (ex_env (lit "GET") (lit "/a") [] (Some accept))) in
      ask (lit "text/html") = @Ret (xn nat) _ 1%nat /\ ask (lit "image/png") = Ret _ 6%nat /\
      ask (lit "text/html, *;q=0.1") = Exc _ (XModel ValueError)
  | Raise _ => False
  end.
Proof.
  exists (fold_left ex_step [CExpose (mk_decorator None (Some (lit "/a")) [lit "GET"] ex_html); CDecorate 0 (lit "f") 1;
     CAddHandlers [HHandler (mk_handler 0 (mk_repr 6 None None None f_one))]] (new_builder None)).
  split; [vm_compute; auto|]. vm_compute. repeat split.
Qed.
Print Assumptions C100_header_refuted.
