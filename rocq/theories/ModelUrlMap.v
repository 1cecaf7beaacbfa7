(** Model of verktyg/routing.py, part two: route factories, URLMap and MapAdapter. *)
From Coq Require Import Arith List NArith ZArith Bool.
From Verif Require Import PyStr Regex Utf8 ModelUrls ModelRoute.
Import ListNotations.
Open Scope N_scope.

(** ** Unbound routes (routing.py:506-547)
    Endpoints are strings.  [redirect_to] is absent, a text or a function; the function's
    first argument, the adapter, is part of the function here. *)
Inductive redirect := NoRedirect | RedirectText (s : str) | RedirectCall (f : dict value -> res str).
Record spec := Spec {
  s_string : str;
  s_leaf : bool;
  s_defaults : dict value;            (* None and {} are not told apart by the code *)
  s_subdomain : option str;
  s_build_only : bool;
  s_endpoint : str;
  s_strict : option bool;
  s_redirect : redirect;
  s_alias : bool;
  s_host : option str }.
Definition is_slash (c : N) : bool := c =? 47.
(** Route.__init__ *)
Definition new_route (string : str) (defaults : dict value) (subdomain : option str) (build_only : bool)
    (endpoint : str) (strict : option bool) (redirect_to : redirect) (alias : bool) (host : option str) : res spec :=
  if starts [47] string
  then Ok (Spec string (negb (ends [47] string)) defaults subdomain build_only endpoint strict redirect_to alias host)
  else Raise ValueError.
(** Route.empty (routing.py:533-544) *)
Definition empty_route (s : spec) : res spec :=
  new_route (s_string s) (s_defaults s) (s_subdomain s) (s_build_only s) (s_endpoint s) (s_strict s)
            (s_redirect s) (s_alias s) (s_host s).

(** ** Factories (routing.py:254-408)
    [FTemplate fmt l] is RouteTemplate(l)( **context) where [fmt] is what str.format makes
    with that context. *)
Inductive factory :=
| FRoute (s : spec)
| FSubdomain (subdomain : str) (l : list factory)
| FSubmount (path : str) (l : list factory)
| FEndpointPrefix (prefix : str) (l : list factory)
| FTemplate (fmt : str -> res str) (l : list factory).

(** A run of a generator: what it yields, and the exception that ends it if any. *)
Definition gen := (list spec * option exn)%type.
Definition gen_app (a b : gen) : gen :=
  match a with
  | (l, Some e) => (l, Some e)
  | (l, None) => let (l', e) := b in (l ++ l', e)
  end.
Fixpoint gen_map_list (f : spec -> res spec) (l : list spec) (e : option exn) : gen :=
  match l with
  | [] => ([], e)
  | s :: l' =>
      match f s with
      | Ok s' => let (r, e') := gen_map_list f l' e in (s' :: r, e')
      | Raise x => ([], Some x)
      end
  end.
Definition gen_map (f : spec -> res spec) (g : gen) : gen := gen_map_list f (fst g) (snd g).

(** assignment to one attribute of a route *)
Definition set_subdomain (x : str) (s : spec) : spec :=
  Spec (s_string s) (s_leaf s) (s_defaults s) (Some x) (s_build_only s) (s_endpoint s) (s_strict s) (s_redirect s) (s_alias s) (s_host s).
Definition set_string (x : str) (s : spec) : spec :=
  Spec x (s_leaf s) (s_defaults s) (s_subdomain s) (s_build_only s) (s_endpoint s) (s_strict s) (s_redirect s) (s_alias s) (s_host s).
Definition set_endpoint (x : str) (s : spec) : spec :=
  Spec (s_string s) (s_leaf s) (s_defaults s) (s_subdomain s) (s_build_only s) x (s_strict s) (s_redirect s) (s_alias s) (s_host s).

(** [value.format( **context)] for the defaults that are strings *)
Fixpoint format_defaults (fmt : str -> res str) (d : dict value) : res (dict value) :=
  match d with
  | [] => Ok []
  | (k, VStr s) :: d' => do s' <- fmt s; do r <- format_defaults fmt d'; Ok ((k, VStr s') :: r)
  | (k, v) :: d' => do r <- format_defaults fmt d'; Ok ((k, v) :: r)
  end.
(** RouteTemplateFactory.get_routes, for one route (routing.py:385-408) *)
Definition fill_template (fmt : str -> res str) (s : spec) : res spec :=
  do defaults <- format_defaults fmt (s_defaults s);
  do subdomain <- match s_subdomain s with
                  | Some x => do x' <- fmt x; Ok (Some x')
                  | None => Ok None
                  end;
  do endpoint <- fmt (s_endpoint s);
  do string <- fmt (s_string s);
  new_route string defaults subdomain (s_build_only s) endpoint (s_strict s) NoRedirect false None.

Fixpoint get_routes (f : factory) : gen :=
  let all := fix all (l : list factory) : gen :=
    match l with
    | [] => ([], None)
    | f' :: l' => gen_app (get_routes f') (all l')
    end in
  match f with
  | FRoute s => ([s], None)
  | FSubdomain x l => gen_map (fun s => do s' <- empty_route s; Ok (set_subdomain x s')) (all l)
  | FSubmount p l =>
      gen_map (fun s => do s' <- empty_route s; Ok (set_string (rstrip_by is_slash p ++ s_string s') s')) (all l)
  | FEndpointPrefix p l => gen_map (fun s => do s' <- empty_route s; Ok (set_endpoint (p ++ s_endpoint s') s')) (all l)
  | FTemplate fmt l => gen_map (fill_template fmt) (all l)
  end.

(** ** Binding a route (routing.py:556-636)
    [mk name args] is get_converter with the parsed arguments; it may raise LookupError
    and others. *)
Record config := Config {
  g_default_subdomain : str;
  g_strict : bool;
  g_redirect_defaults : bool;
  g_host_matching : bool }.
Record broute := BRoute { b_id : nat; b_route : route; b_redirect : redirect }.

Fixpoint make_pieces (mk : str -> option str -> res converter) (l : list raw_piece) : res (list piece) :=
  match l with
  | [] => Ok []
  | Static s :: l' => do r <- make_pieces mk l'; Ok (PStatic s :: r)
  | Dynamic conv args var :: l' => do c <- mk conv args; do r <- make_pieces mk l'; Ok (PVar var c :: r)
  end.
(** the same group name twice in a regular expression *)
Fixpoint repeats (l : list str) : bool :=
  match l with [] => false | x :: l' => existsb (eqs x) l' || repeats l' end.
Definition compile_route (mk : str -> option str -> res converter) (g : config) (s : spec) : res route :=
  let strict := match s_strict s with Some b => b | None => g_strict g end in
  let domain :=
    if g_host_matching g then match s_host s with Some h => h | None => [] end
    else match s_subdomain s with Some x => x | None => g_default_subdomain g end in
  do dp <- parse_route domain;
  do dp' <- make_pieces mk dp;
  do pp <- parse_route (if s_leaf s then s_string s else rstrip_by is_slash (s_string s));
  do pp' <- make_pieces mk pp;
  let r := Route dp' pp' (s_leaf s) strict (s_defaults s) (s_build_only s) (s_alias s) (s_endpoint s) in
  if negb (s_build_only s)
     && repeats (var_names r ++ if negb (s_leaf s) || negb strict then [lit "__suffix__"] else [])
  then Raise ReError
  else Ok r.

(** ** URLMap (routing.py:998-1249)
    Objects are known by numbers, given in the order of registration.  That a Route object
    can be bound only once is not modelled. *)
Record url_map := UrlMap {
  m_config : config;
  m_routes : list broute;
  m_endpoints : dict (list broute);
  m_remap : bool;
  m_next : nat }.
Definition empty_map (g : config) : url_map := UrlMap g [] [] true 0.

(** one turn of the loop of add_routes *)
Definition add_route (mk : str -> option str -> res converter) (m : url_map) (s : spec) : res url_map :=
  do r <- compile_route mk (m_config m) s;
  let b := BRoute (m_next m) r (s_redirect s) in
  let old := match dget (m_endpoints m) (r_endpoint r) with Some l => l | None => [] end in
  Ok (UrlMap (m_config m) (m_routes m ++ [b]) (dset (m_endpoints m) (r_endpoint r) (old ++ [b])) (m_remap m) (S (m_next m))).
(** The map after the loop, and the exception that ended it if any *)
Fixpoint add_list (mk : str -> option str -> res converter) (m : url_map) (l : list spec) : url_map * option exn :=
  match l with
  | [] => (m, None)
  | s :: l' => match add_route mk m s with Ok m' => add_list mk m' l' | Raise e => (m, Some e) end
  end.
Fixpoint add_factories (mk : str -> option str -> res converter) (m : url_map) (l : list factory) : url_map * option exn :=
  match l with
  | [] => (UrlMap (m_config m) (m_routes m) (m_endpoints m) true (m_next m), None)
  | f :: l' =>
      let (specs, e) := get_routes f in
      match add_list mk m specs, e with
      | (m', Some e'), _ => (m', Some e')
      | (m', None), Some e' => (m', Some e')
      | (m', None), None => add_factories mk m' l'
      end
  end.
(** URLMap.add_routes (routing.py:1095-1109) *)
Definition add_routes := add_factories.

(** [list.sort(key=...)]: stable *)
Fixpoint insert_by {A} (ltb : A -> A -> bool) (x : A) (l : list A) : list A :=
  match l with
  | [] => [x]
  | y :: l' => if ltb x y then x :: l else y :: insert_by ltb x l'
  end.
Definition sort_by {A} (ltb : A -> A -> bool) (l : list A) : list A := fold_left (fun acc x => insert_by ltb x acc) l [].
Definition pair_ltb (a b : Z * Z) : bool := (fst a <? fst b)%Z || ((fst a =? fst b)%Z && (snd a <? snd b)%Z).
Definition pair_eqb (a b : Z * Z) : bool := (fst a =? fst b)%Z && (snd a =? snd b)%Z.
Fixpoint weights_ltb (a b : list (Z * Z)) : bool :=
  match a, b with
  | [], [] => false
  | [], _ :: _ => true
  | _ :: _, [] => false
  | x :: a', y :: b' => pair_ltb x y || (pair_eqb x y && weights_ltb a' b')
  end.
Definition match_ltb (x y : broute) : bool :=
  let '(p, n, w) := match_key (b_route x) in
  let '(p', n', w') := match_key (b_route y) in
  (negb p && p') || (Bool.eqb p p' && ((n <? n')%Z || ((n =? n')%Z && weights_ltb w w'))).
Definition build_ltb (x y : broute) : bool :=
  let '(p, n, w) := build_key (b_route x) in
  let '(p', n', w') := build_key (b_route y) in
  (p <? p')%Z || ((p =? p')%Z && ((n <? n')%Z || ((n =? n')%Z && (w <? w')%Z))).
(** URLMap.update (routing.py:1237-1245) *)
Definition update (m : url_map) : url_map :=
  if m_remap m
  then UrlMap (m_config m) (sort_by match_ltb (m_routes m))
              (map (fun kv => (fst kv, sort_by build_ltb (snd kv))) (m_endpoints m)) false (m_next m)
  else m.

(** ** urllib.parse.urlparse, urlunparse and urljoin; posixpath.join *)
Section Join.
  Variable ip_ok : str -> bool.
  Variable nfkc_ok : str -> bool.

  Record parse_result := Parsed {
    p_scheme : str; p_netloc : str; p_path : str; p_params : str; p_query : str; p_fragment : str }.
  Definition uses_relative : list str :=
    [[]; lit "ftp"; lit "http"; lit "gopher"; lit "nntp"; lit "imap"; lit "wais"; lit "file"; lit "https"; lit "shttp";
     lit "mms"; lit "prospero"; lit "rtsp"; lit "rtsps"; lit "rtspu"; lit "sftp"; lit "svn"; lit "svn+ssh"; lit "ws"; lit "wss"].
  Definition uses_params : list str :=
    [[]; lit "ftp"; lit "hdl"; lit "prospero"; lit "http"; lit "imap"; lit "https"; lit "shttp"; lit "rtsp"; lit "rtsps";
     lit "rtspu"; lit "sip"; lit "sips"; lit "mms"; lit "sftp"; lit "tel"].
  (** _splitparams: at the first semicolon after the last slash *)
  Definition split_params (url : str) : str * str :=
    let (pre, seg) := match rsplit1 47 url with Some (a, b) => (a ++ [47], b) | None => ([], url) end in
    match split1 59 seg with Some (a, b) => (pre ++ a, b) | None => (url, []) end.
  (** urlsplit(url, scheme): the given scheme is used if the text has none *)
  Definition urlparse (url scheme : str) : res parse_result :=
    do u <- urlsplit ip_ok nfkc_ok url;
    let scheme := if is_nil (u_scheme u) then scheme else u_scheme u in
    let (path, params) :=
      if existsb (eqs scheme) uses_params then split_params (u_path u) else (u_path u, []) in
    Ok (Parsed scheme (u_netloc u) path params (u_query u) (u_fragment u)).
  Definition urlunparse (p : parse_result) : str :=
    let url := if is_nil (p_params p) then p_path p else p_path p ++ 59 :: p_params p in
    urlunsplit (Split (p_scheme p) (p_netloc p) url (p_query p) (p_fragment p)).

  (** [resolved_path], as a reversed list *)
  Fixpoint resolve (acc : list str) (segments : list str) : list str :=
    match segments with
    | [] => rev acc
    | s :: l =>
        if eqs s (lit "..") then resolve (tl acc) l
        else if eqs s (lit ".") then resolve acc l
        else resolve (s :: acc) l
    end.
  (** [segments[1:-1] = filter(None, segments[1:-1])] *)
  Definition drop_empty (l : list str) : list str :=
    match l with
    | [] => []
    | [x] => [x]
    | x :: l' => x :: filter (fun s => negb (is_nil s)) (removelast l') ++ [last l' []]
    end.
  Definition drop_last_file (l : list str) : list str :=
    if is_nil (last l []) then l else removelast l.
  Definition urljoin (base url : str) : res str :=
    if is_nil base then Ok url
    else if is_nil url then Ok base
    else
      do b <- urlparse base [];
      do u <- urlparse url (p_scheme b);
      if negb (eqs (p_scheme u) (p_scheme b)) || negb (existsb (eqs (p_scheme u)) uses_relative) then Ok url
      else if existsb (eqs (p_scheme u)) uses_netloc && negb (is_nil (p_netloc u)) then Ok (urlunparse u)
      else
        let netloc := if existsb (eqs (p_scheme u)) uses_netloc then p_netloc b else p_netloc u in
        if is_nil (p_path u) && is_nil (p_params u)
        then Ok (urlunparse (Parsed (p_scheme u) netloc (p_path b) (p_params b)
                                    (if is_nil (p_query u) then p_query b else p_query u) (p_fragment u)))
        else
          let segments :=
            if starts [47] (p_path u) then split_on 47 (p_path u)
            else drop_empty (drop_last_file (split_on 47 (p_path b)) ++ split_on 47 (p_path u)) in
          let resolved := resolve [] segments in
          let resolved :=
            if eqs (last segments []) (lit ".") || eqs (last segments []) (lit "..") then resolved ++ [[]] else resolved in
          let path := join [47] resolved in
          Ok (urlunparse (Parsed (p_scheme u) netloc (if is_nil path then [47] else path)
                                 (p_params u) (p_query u) (p_fragment u))).

  Definition posix_join (a b : str) : str :=
    if starts [47] b then b
    else if is_nil a || ends [47] a then a ++ b
    else a ++ 47 :: b.

  (** ** MapAdapter (routing.py:1252-1567)
      The server name is a string, it may be empty; the subdomain is None with host
      matching only; the script name has its final slash. *)
  Record adapter := Adapter {
    a_map : url_map;
    a_server : str;
    a_script : str;
    a_subdomain : option str;
    a_scheme : str }.

  (** URLMap.bind and MapAdapter.__init__ (routing.py:1111-1155, 1257-1270); [norm] is
      [x.lower().encode('idna').decode('ascii')].  The server name is given. *)
  Definition bind_map (norm : str -> res str) (m : url_map) (server : str) (script subdomain : option str) (scheme : str)
      : res adapter :=
    do sub <- (if g_host_matching (m_config m)
               then match subdomain with Some _ => Raise RuntimeError | None => Ok None end
               else Ok (Some (match subdomain with Some x => x | None => g_default_subdomain (m_config m) end)));
    do sub <- match sub with Some x => do y <- norm x; Ok (Some y) | None => Ok None end;
    do server <- norm server;
    let script := match script with Some x => x | None => [47] end in
    match sub with
    | Some (_ :: _) =>
        if is_nil server then Raise TypeError
        else Ok (Adapter m server (if ends [47] script then script else script ++ [47]) sub scheme)
    | _ => Ok (Adapter m server (if ends [47] script then script else script ++ [47]) sub scheme)
    end.

  Definition host_matching (a : adapter) : bool := g_host_matching (m_config (a_map a)).
  Definition lstrip_slash (s : str) : str := lstrip_by is_slash s.
  (** the text [None] prints as *)
  Definition show_option (o : option str) : str := match o with Some s => s | None => lit "None" end.
  Definition full_path (a : adapter) (path_info : str) : str :=
    (if host_matching a && negb (is_nil (a_server a)) then a_server a else show_option (a_subdomain a))
    ++ lit "|/" ++ lstrip_slash path_info.

  (** get_host (routing.py:1408-1424) *)
  Definition get_host (a : adapter) (domain_part : option str) : str :=
    if host_matching a
    then match domain_part with Some d => d | None => a_server a end
    else
      let sub := match domain_part with Some d => Some d | None => a_subdomain a end in
      match sub with Some (c :: s) => (c :: s) ++ 46 :: a_server a | _ => a_server a end.

  (** make_redirect_url (routing.py:1453-1466); the query is a string, empty when absent *)
  Definition make_redirect_url (a : adapter) (path_info query : str) (domain_part : option str) : str :=
    urlunparse (Parsed (a_scheme a) (get_host a domain_part)
                       (posix_join (strip_by is_slash (a_script a)) (lstrip_slash path_info)) [] query []).

  (** build (routing.py:1480-1567); the values given as None are dropped.  A MultiDict of
      values raises AttributeError (iteritems) and is not modelled. *)
  Definition drop_none (values : dict (option value)) : dict value :=
    flat_map (fun kv => match snd kv with Some v => [(fst kv, v)] | None => [] end) values.
  Fixpoint first_build (l : list broute) (values : dict value) (append_unknown : bool) : res (str * str) :=
    match l with
    | [] => Raise BuildError
    | b :: l' =>
        if suitable_for (b_route b) values
        then
          do rv <- route_build (b_route b) values append_unknown;
          match rv with
          | Some x => Ok x
          | None => first_build l' values append_unknown
          end
        else first_build l' values append_unknown
    end.
  Definition endpoint_routes (m : url_map) (endpoint : str) : list broute :=
    match dget (m_endpoints m) endpoint with Some l => l | None => [] end.
  (** after update() *)
  Definition build_updated (a : adapter) (endpoint : str) (values : dict value) (force_external append_unknown : bool) : res str :=
    do rv <- first_build (endpoint_routes (a_map a) endpoint) values append_unknown;
    let (domain_part, path) := rv in
    let host := get_host a (Some domain_part) in
    if negb force_external
       && ((host_matching a && eqs host (a_server a))
           || (negb (host_matching a)
               && match a_subdomain a with Some s => eqs domain_part s | None => false end))
    then urljoin (a_script a) (lit "./" ++ lstrip_slash path)
    else Ok (urlunparse (Parsed (a_scheme a) host (posix_join (a_script a) (lstrip_slash path)) [] [] [])).
  Definition update_adapter (a : adapter) : adapter :=
    Adapter (update (a_map a)) (a_server a) (a_script a) (a_subdomain a) (a_scheme a).
  Definition build (a : adapter) (endpoint : str) (values : dict (option value)) (force_external append_unknown : bool)
      : adapter * res str :=
    let a := update_adapter a in (a, build_updated a endpoint (drop_none values) force_external append_unknown).

  (** get_default_redirect (routing.py:1426-1446); a build that gives None cannot be
      unpacked: TypeError *)
  Fixpoint default_redirect (a : adapter) (l : list broute) (b : broute) (values : dict value) (query : str) : res (option str) :=
    match l with
    | [] => Ok None
    | r :: l' =>
        if (b_id r =? b_id b)%nat then Ok None
        else if provides_defaults_for (b_route r) (b_route b) && suitable_for (b_route r) values
        then
          do rv <- route_build (b_route r) (update_all values (r_defaults (b_route r))) true;
          match rv with
          | None => Raise TypeError
          | Some (domain_part, path) => Ok (Some (make_redirect_url a path query (Some domain_part)))
          end
        else default_redirect a l' b values query
    end.

  (** make_alias_redirect_url (routing.py:1468-1478) *)
  Definition alias_redirect (a : adapter) (path endpoint : str) (values : dict value) (query : str) : res str :=
    do url <- build_updated a endpoint values true false;
    let url := if is_nil query then url else url ++ 63 :: query in
    if eqs url path then Raise AssertionError else Ok url.

  (** The replacement of placeholders in redirect_to (routing.py:1367-1374, 120): every
      longest text without a closing bracket between brackets *)
  Definition simple_route_re : re := RSeq (RChr 60) (RSeq (RGroup 1 (RPlus true (RSet (fun c => negb (c =? 62))))) (RChr 62)).
  Definition placeholder (b : broute) (values : dict value) (name : str) : res str :=
    match dget values name with
    | None => Raise KeyError
    | Some v =>
        match find (fun nc => eqs (fst nc) name) (route_vars (b_route b)) with
        | None => Raise KeyError
        | Some (_, c) => do u <- c_to_url c v; match u with Some t => Ok t | None => Raise ValueError end
        end
    end.
  Fixpoint fill_redirect (fuel : nat) (b : broute) (values : dict value) (s : str) : res str :=
    match fuel with
    | O => Ok s
    | S f =>
        match re_search simple_route_re s with
        | None => Ok s
        | Some (skipped, m) =>
            do t <- placeholder b values (match cap (s_caps m) 1 with Some x => x | None => [] end);
            do rest <- fill_redirect f b values (s_rest m);
            Ok (skipped ++ t ++ rest)
        end
    end.
  Definition redirect_base (a : adapter) : str :=
    a_scheme a ++ lit "://" ++ match a_subdomain a with Some (c :: s) => (c :: s) ++ [46] | _ => [] end
    ++ a_server a ++ a_script a.

  (** match (routing.py:1272-1390) *)
  Inductive outcome := NotFound | Redirect (url : str) | Found (b : broute) (values : dict value).
  Definition matched (a : adapter) (b : broute) (values : dict value) (query : str) : res outcome :=
    do d <- (if g_redirect_defaults (m_config (a_map a))
             then default_redirect a (endpoint_routes (a_map a) (r_endpoint (b_route b))) b values query
             else Ok None);
    match d with
    | Some url => Ok (Redirect url)
    | None =>
        match b_redirect b with
        | NoRedirect => Ok (Found b values)
        | RedirectText s => do t <- fill_redirect (length s) b values s; do u <- urljoin (redirect_base a) t; Ok (Redirect u)
        | RedirectCall f => do t <- f values; do u <- urljoin (redirect_base a) t; Ok (Redirect u)
        end
    end.
  Fixpoint match_routes (a : adapter) (l : list broute) (path_info query : str) : res outcome :=
    match l with
    | [] => Ok NotFound
    | b :: l' =>
        do rv <- route_match (g_redirect_defaults (m_config (a_map a))) (b_route b) (full_path a path_info);
        match rv with
        | MNone => match_routes a l' path_info query
        | MSlash => do q <- urlquote (lit "/:|+") path_info; Ok (Redirect (make_redirect_url a (q ++ [47]) query None))
        | MAlias values =>
            do u <- alias_redirect a (full_path a path_info) (r_endpoint (b_route b)) values query; Ok (Redirect u)
        | MValues values => matched a b values query
        end
    end.
  Definition match_updated (a : adapter) (path_info query : str) : res outcome :=
    match_routes a (m_routes (a_map a)) path_info query.
  Definition match_path (a : adapter) (path_info query : str) : adapter * res outcome :=
    let a := update_adapter a in (a, match_updated a path_info query).
End Join.
