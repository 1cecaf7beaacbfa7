(** Vocabulary for the claims about adapters bound to an environ (C117) and about what a
    route builds (C118). *)
From Coq Require Import List NArith ZArith Bool Permutation Sorting.Sorted.
From Verif Require Import PyStr Utf8 SpecUrls ModelRoute SpecRoute ModelUrlMap SpecUrlMap SpecRequest.
Import ListNotations.
Open Scope N_scope.

(** ** The request of an environ *)
Definition default_port (scheme port : str) : Prop :=
  scheme = lit "https" /\ port = lit "443" \/ scheme = lit "http" /\ port = lit "80".
(** The host the request went to: the Host header, or the name of the server with its port
    if that is not the usual one. *)
Inductive asked_host (environ : dict str) : str -> Prop :=
| ah_header h : dget environ (lit "HTTP_HOST") = Some h -> asked_host environ h
| ah_usual name scheme port : dget environ (lit "HTTP_HOST") = None -> dget environ (lit "SERVER_NAME") = Some name ->
    dget environ (lit "wsgi.url_scheme") = Some scheme -> dget environ (lit "SERVER_PORT") = Some port ->
    default_port scheme port -> asked_host environ name
| ah_port name scheme port : dget environ (lit "HTTP_HOST") = None -> dget environ (lit "SERVER_NAME") = Some name ->
    dget environ (lit "wsgi.url_scheme") = Some scheme -> dget environ (lit "SERVER_PORT") = Some port ->
    ~ default_port scheme port -> asked_host environ (name ++ [58] ++ port).
(** A variable of the environ stands for a text: it is its UTF-8. *)
Inductive stands_for (environ : dict str) (k : str) : option str -> Prop :=
| sf_none : dget environ k = None -> stands_for environ k None
| sf_text w t : dget environ k = Some w -> utf8_encode t = Ok w -> stands_for environ k (Some t).
(** The root of the application, with a slash at its end. *)
Inductive rooted : option str -> str -> Prop :=
| ro_none : rooted None [47]
| ro_slash s : rooted (Some (s ++ [47])) (s ++ [47])
| ro_open s : (forall r, s <> r ++ [47]) -> rooted (Some s) (s ++ [47]).
Record requests (environ : dict str) (root scheme : str) (path query : option str) : Prop := {
  rq_root : exists script, stands_for environ (lit "SCRIPT_NAME") script /\ rooted script root;
  rq_scheme : dget environ (lit "wsgi.url_scheme") = Some scheme;
  rq_path : stands_for environ (lit "PATH_INFO") path;
  rq_query : stands_for environ (lit "QUERY_STRING") query }.

(** ** Subdomains: labels before the server name; empty ones do not count. *)
Definition dotted (labels : list str) : str := join [46] labels.
Inductive below (server : str) : str -> str -> Prop :=
| bl_same : below server server []
| bl_sub labels : labels <> [] -> Forall (fun x => ~ In 46 x) labels ->
    below server (dotted labels ++ [46] ++ server) (dotted (filter (fun x => negb (eqs x [])) labels)).
(** The route is for one subdomain. *)
Definition only_for (r : route) (d : str) : Prop :=
  ~ In 124 d /\ (r_domain r = [PStatic d] \/ r_domain r = [] /\ d = []).

(** ** What a route builds *)
Section Build.
  Variable values : dict value.
  (** Static text percent-encoded, variables as their converters write them. *)
  Inductive spells : list piece -> str -> Prop :=
  | sp_nil : spells [] []
  | sp_static s q l t : quoted_form (lit "/:|+") q -> decodes q s -> spells l t -> spells (PStatic s :: l) (q ++ t)
  | sp_var n c v x l t : dget values n = Some v -> c_to_url c v = Ok (Some x) -> spells l t -> spells (PVar n c :: l) (x ++ t).
  (** The first variable that cannot be written has no value, or is refused by its
      converter. *)
  Inductive lacks : list piece -> Prop :=
  | la_static s l : unicode_text s -> lacks l -> lacks (PStatic s :: l)
  | la_var n c v x l : dget values n = Some v -> c_to_url c v = Ok (Some x) -> lacks l -> lacks (PVar n c :: l)
  | la_here n c l : dget values n = None -> lacks (PVar n c :: l).
  Inductive declined : list piece -> Prop :=
  | de_static s l : unicode_text s -> declined l -> declined (PStatic s :: l)
  | de_var n c v x l : dget values n = Some v -> c_to_url c v = Ok (Some x) -> declined l -> declined (PVar n c :: l)
  | de_here n c v l : dget values n = Some v -> c_to_url c v = Ok None -> declined (PVar n c :: l).
  Inductive fails (e : exn) : list piece -> Prop :=
  | fa_static s l : unicode_text s -> fails e l -> fails e (PStatic s :: l)
  | fa_var n c v x l : dget values n = Some v -> c_to_url c v = Ok (Some x) -> fails e l -> fails e (PVar n c :: l)
  | fa_here n c v l : dget values n = Some v -> c_to_url c v = Raise e -> fails e (PVar n c :: l).
End Build.
(** The pieces of the path, with the slash of a branch. *)
Definition path_pieces (r : route) : list piece := r_path r ++ if r_leaf r then [] else [PStatic [47]].
(** The order of texts by code points. *)
Inductive text_lt : str -> str -> Prop :=
| tl_nil c s : text_lt [] (c :: s)
| tl_first c d s t : c < d -> text_lt (c :: s) (d :: t)
| tl_rest c s t : text_lt s t -> text_lt (c :: s) (c :: t).
(** The values that the route does not take, in the order of their names. *)
Record others (r : route) (values : dict value) (l : list (str * value)) : Prop := {
  ot_which : forall k v, In (k, v) l <-> In (k, v) values /\ ~ takes r k;
  ot_order : StronglySorted (fun x y => text_lt (fst x) (fst y)) l }.
Inductive shows : value -> str -> Prop :=
| sh_text s : shows (VStr s) s
| sh_int z : shows (VInt z) (zdec z)
| sh_uuid n : shows (VUuid n) (uuid_text n)
| sh_object t : shows (VObj t) t.
(** A piece of a query: name and value, "+" for a space, escapes for other bytes. *)
Inductive pair_means : str -> str * value -> Prop :=
| pm_intro rawname rawvalue name v s : ~ In 38 rawname -> ~ In 61 rawname -> ~ In 38 rawvalue -> ~ In 35 rawname -> ~ In 35 rawvalue ->
    form_decodes rawname name -> form_decodes rawvalue s -> shows v s -> pair_means (rawname ++ 61 :: rawvalue) (name, v).
(** The query that says the values, one after the other; none for no values. *)
Inductive query_says : list (str * value) -> str -> Prop :=
| qs_none : query_says [] []
| qs_some l raws : l <> [] -> Forall2 pair_means raws l -> query_says l (63 :: join [38] raws).
