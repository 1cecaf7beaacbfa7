(** Vocabulary for the claims about factories, maps and adapters. *)
From Coq Require Import List NArith ZArith Bool Permutation.
From Verif Require Import PyStr Regex Utf8 ModelUrls SpecUrls ModelRoute SpecRoute ModelUrlMap.
Import ListNotations.
Open Scope N_scope.

(** ** Priority *)
(** Lexicographic order of lists of pairs. *)
Inductive lex : list (Z * Z) -> list (Z * Z) -> Prop :=
| lex_nil y b : lex [] (y :: b)
| lex_first x1 x2 y1 y2 a b : (x1 < y1)%Z -> lex ((x1, x2) :: a) ((y1, y2) :: b)
| lex_second x x2 y2 a b : (x2 < y2)%Z -> lex ((x, x2) :: a) ((x, y2) :: b)
| lex_rest x a b : lex a b -> lex (x :: a) (x :: b).
(** The names a route takes: the variables of its templates and the keys of its defaults. *)
Definition takes (r : route) (k : str) : Prop :=
  (exists c, In (PVar k c) (r_domain r ++ r_path r)) \/ (exists v, In (k, v) (r_defaults r)).
Definition takes_none (r : route) : Prop := forall k, ~ takes r k.
(** It takes [n] different names. *)
Definition takes_many (r : route) (n : nat) : Prop :=
  exists l, NoDup l /\ (forall k, In k l <-> takes r k) /\ length l = n.
(** The parts of a static text: what stands between slashes, where something stands. *)
Inductive parts : str -> list str -> Prop :=
| pa_nil : parts [] []
| pa_slash s l : parts s l -> parts (47 :: s) l
| pa_last x : x <> [] -> ~ In 47 x -> parts x [x]
| pa_next x s l : x <> [] -> ~ In 47 x -> parts s l -> parts (x ++ 47 :: s) (x :: l).
(** Static parts weigh less than variables, long ones less than short ones; a variable has
    the weight of its converter. *)
Inductive ranks : list piece -> list (Z * Z) -> Prop :=
| ra_nil : ranks [] []
| ra_static s ps l w : parts s ps -> ranks l w ->
    ranks (PStatic s :: l) (map (fun x => (0, - Z.of_nat (length x))%Z) ps ++ w)
| ra_var n c l w : ranks l w -> ranks (PVar n c :: l) ((1%Z, c_weight c) :: w).
Definition ranked (r : route) (w : list (Z * Z)) : Prop := ranks (r_domain r ++ r_path r) w.
(** The documented priority: routes without arguments, then routes of more parts, then
    by the weights of the parts. *)
Inductive before (r r' : route) : Prop :=
| be_args : takes_none r -> ~ takes_none r' -> before r r'
| be_parts w w' : ranked r w -> ranked r' w' -> (takes_none r <-> takes_none r') -> lt (length w') (length w) -> before r r'
| be_weights w w' : ranked r w -> ranked r' w' -> (takes_none r <-> takes_none r') -> length w = length w' ->
    lex w w' -> before r r'.
Definition same_priority (r r' : route) : Prop :=
  (takes_none r <-> takes_none r') /\ exists w, ranked r w /\ ranked r' w.

(** The order for building: canonical routes before aliases, then more arguments first,
    then more defaults first. *)
Inductive build_before (r r' : route) : Prop :=
| bb_alias : r_alias r = false -> r_alias r' = true -> build_before r r'
| bb_args n n' : takes_many r n -> takes_many r' n' -> r_alias r = r_alias r' -> lt n' n -> build_before r r'
| bb_defaults n : takes_many r n -> takes_many r' n -> r_alias r = r_alias r' ->
    lt (length (r_defaults r')) (length (r_defaults r)) -> build_before r r'.
Definition same_build_priority (r r' : route) : Prop :=
  r_alias r = r_alias r' /\ (exists n, takes_many r n /\ takes_many r' n) /\ length (r_defaults r) = length (r_defaults r').
(** The values suit a route: every name it takes has a value or a default, and no value
    differs from a default. *)
Definition suits (r : route) (values : dict value) : Prop :=
  (forall k, takes r k -> (exists d, In (k, d) (r_defaults r)) \/ exists v, dget values k = Some v) /\
  (forall k d v, In (k, d) (r_defaults r) -> dget values k = Some v -> v = d).

(** ** Histories: maps made by successful registrations and updates, in any order *)
Inductive made (mk : str -> option str -> res converter) (g : config) : url_map -> Prop :=
| made_empty : made mk g (empty_map g)
| made_add m fs m' : made mk g m -> add_routes mk m fs = (m', None) -> made mk g m'
| made_update m : made mk g m -> made mk g (update m).

(** [b] is the first of the list to answer the path. *)
Definition answers (rd : bool) (path : str) (b : broute) : Prop := route_match rd (b_route b) path <> Ok MNone.
Inductive chosen (rd : bool) (path : str) : list broute -> broute -> Prop :=
| ch_intro l1 b l2 : (forall x, In x l1 -> ~ answers rd path x) -> answers rd path b ->
    chosen rd path (l1 ++ b :: l2) b.

(** A built or refused route. *)
Definition refused (values : dict value) (au : bool) (b : broute) : Prop :=
  ~ suits (b_route b) values \/ route_build (b_route b) values au = Ok None.

(** ** Factories: a route with some fields changed *)
Definition same_but_subdomain (a b : spec) : Prop :=
  s_string a = s_string b /\ s_defaults a = s_defaults b /\ s_build_only a = s_build_only b /\
  s_endpoint a = s_endpoint b /\ s_strict a = s_strict b /\ s_redirect a = s_redirect b /\ s_alias a = s_alias b /\ s_host a = s_host b.
Definition same_but_string (a b : spec) : Prop :=
  s_subdomain a = s_subdomain b /\ s_defaults a = s_defaults b /\ s_build_only a = s_build_only b /\
  s_endpoint a = s_endpoint b /\ s_strict a = s_strict b /\ s_redirect a = s_redirect b /\ s_alias a = s_alias b /\ s_host a = s_host b.
Definition same_but_endpoint (a b : spec) : Prop :=
  s_string a = s_string b /\ s_subdomain a = s_subdomain b /\ s_defaults a = s_defaults b /\ s_build_only a = s_build_only b /\
  s_strict a = s_strict b /\ s_redirect a = s_redirect b /\ s_alias a = s_alias b /\ s_host a = s_host b.
(** is_leaf says whether the string ends in a slash. *)
Definition leaf_ok (s : spec) : Prop := s_leaf s = true <-> ~ exists u, s_string s = u ++ [47].
(** All the routes of the list of factories, one after the other. *)
Inductive yields : list factory -> list spec -> Prop :=
| yi_nil : yields [] []
| yi_cons f l s1 s2 : get_routes f = (s1, None) -> yields l s2 -> yields (f :: l) (s1 ++ s2).
(** [fmt] applied to the strings among the values. *)
Inductive formatted (fmt : str -> res str) : dict value -> dict value -> Prop :=
| fo_nil : formatted fmt [] []
| fo_str k s s' d d' : fmt s = Ok s' -> formatted fmt d d' -> formatted fmt ((k, VStr s) :: d) ((k, VStr s') :: d')
| fo_other k v d d' : (forall s, v <> VStr s) -> formatted fmt d d' -> formatted fmt ((k, v) :: d) ((k, v) :: d').
(** [s'] is [s] with the string, the endpoint, the subdomain and the defaults formatted; it
    is neither a redirect nor an alias and has no host. *)
Definition template_of (fmt : str -> res str) (s s' : spec) : Prop :=
  fmt (s_string s) = Ok (s_string s') /\ fmt (s_endpoint s) = Ok (s_endpoint s') /\
  match s_subdomain s with
  | Some x => exists x', fmt x = Ok x' /\ s_subdomain s' = Some x'
  | None => s_subdomain s' = None
  end /\
  formatted fmt (s_defaults s) (s_defaults s') /\ (exists u, s_string s' = 47 :: u) /\
  s_build_only s' = s_build_only s /\ s_strict s' = s_strict s /\ leaf_ok s' /\
  s_redirect s' = NoRedirect /\ s_alias s' = false /\ s_host s' = None.

(** ** Registration: [b] is [s] compiled for the map. *)
Definition compiled (mk : str -> option str -> res converter) (g : config) (s : spec) (b : broute) : Prop :=
  compile_route mk g s = Ok (b_route b) /\ b_redirect b = s_redirect s.

(** ** Addresses *)
Definition slashes (s : str) : Prop := forall c, In c s -> c = 47.
(** [root] is the script name with one slash at either end. *)
Inductive root_of : str -> str -> Prop :=
| root_top s : slashes s -> root_of s [47]
| root_sub s1 name s2 : slashes s1 -> slashes s2 -> name <> [] -> (forall u, name <> 47 :: u) -> (forall u, name <> u ++ [47]) ->
    root_of (s1 ++ name ++ s2) (47 :: name ++ [47]).
(** [rel] is the path without the slashes before it. *)
Definition relative (p rel : str) : Prop := exists s, p = s ++ rel /\ slashes s /\ forall u, rel <> 47 :: u.
(** The host of a domain part: that of a subdomain of the server, or the domain part
    itself when hosts are matched. *)
Inductive target_host (a : adapter) : str -> str -> Prop :=
| th_matching d : g_host_matching (m_config (a_map a)) = true -> target_host a d d
| th_top : g_host_matching (m_config (a_map a)) = false -> target_host a [] (a_server a)
| th_sub d : g_host_matching (m_config (a_map a)) = false -> d <> [] -> target_host a d (d ++ [46] ++ a_server a).
(** The adapter's own host. *)
Inductive own_host (a : adapter) : str -> Prop :=
| own_matching : g_host_matching (m_config (a_map a)) = true -> own_host a (a_server a)
| own_none : g_host_matching (m_config (a_map a)) = false -> a_subdomain a = None -> own_host a (a_server a)
| own_sub d h : g_host_matching (m_config (a_map a)) = false -> a_subdomain a = Some d -> target_host a d h -> own_host a h.
Definition query_suffix (q : str) : str := match q with [] => [] | _ => 63 :: q end.
(** The rest of the URL after the host: nothing, a path or a query. *)
Definition after_host (rest : str) : Prop := rest = [] \/ exists u, rest = 47 :: u \/ rest = 63 :: u.
(** The host is the adapter's own, or that of a domain part built by a registered route of
    the endpoint [e]. *)
Inductive allowed_host (a : adapter) (e : str) : str -> Prop :=
| ah_own h : own_host a h -> allowed_host a e h
| ah_built b values au d path h : In b (m_routes (a_map a)) -> r_endpoint (b_route b) = e ->
    route_build (b_route b) values au = Ok (Some (d, path)) -> target_host a d h -> allowed_host a e h.

(** ** The values given for building: those that are not None. *)
Inductive given : dict (option value) -> dict value -> Prop :=
| gi_nil : given [] []
| gi_none k l r : given l r -> given ((k, None) :: l) r
| gi_some k v l r : given l r -> given ((k, Some v) :: l) ((k, v) :: r).

(** ** What is asked of the map: the domain, a bar and the path with one slash before it. *)
Inductive asked (a : adapter) (p : str) : str -> Prop :=
| as_host rel : g_host_matching (m_config (a_map a)) = true -> a_server a <> [] -> relative p rel ->
    asked a p (a_server a ++ lit "|/" ++ rel)
| as_subdomain d rel : g_host_matching (m_config (a_map a)) = false -> a_subdomain a = Some d -> relative p rel ->
    asked a p (d ++ lit "|/" ++ rel).
(** The best of the routes that answer the path; of several of the same priority the one
    that was registered first. *)
Record best (rd : bool) (path : str) (l : list broute) (b : broute) : Prop := {
  best_in : In b l;
  best_answers : answers rd path b;
  best_least : forall b', In b' l -> answers rd path b' -> b' = b \/ before (b_route b) (b_route b') \/
    (same_priority (b_route b) (b_route b') /\ (b_id b < b_id b')%nat) }.
(** The URL for the domain part and path that a route has built. *)
Inductive addressed (ip_ok nfkc_ok : str -> bool) (a : adapter) (external : bool) (d path : str) : res str -> Prop :=
| ad_external host rel root u : target_host a d host -> relative path rel ->
    external = true \/ ~ own_host a host -> a_scheme a <> [] -> host <> [] -> a_script a = root ++ [47] ->
    u = a_scheme a ++ lit "://" ++ host ++ (if starts [47] (a_script a) then [] else [47]) ++ root ++ [47] ++ rel ->
    addressed ip_ok nfkc_ok a external d path (Ok u)
| ad_relative host rel : target_host a d host -> relative path rel -> external = false -> own_host a host ->
    addressed ip_ok nfkc_ok a external d path (urljoin ip_ok nfkc_ok (a_script a) (lit "./" ++ rel)).
