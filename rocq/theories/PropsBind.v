(** Theorems about adapters bound to an environ (C117) and about what a route builds (C118). *)
From Coq Require Import Arith List NArith ZArith Bool Lia.
From Verif Require Import PyStr PyStrFacts Regex Utf8 Utf8Facts ModelUrls SpecUrls ModelRoute SpecRoute ProofRoute PropsRoute ModelUrlMap SpecUrlMap ProofUrlMap PropsUrlMap
  ModelMultiDict ModelRequest SpecRequest ModelBind SpecBind ProofBind.
Import ListNotations.
Open Scope N_scope.

(** ** C117 *)
(** Without a server name the adapter stands for the host of the request, on the default
    subdomain, or with host matching on none; it remembers root, scheme, path and query. *)
Theorem C117_host : forall norm m environ h root scheme path query n d, g_host_matching (m_config m) = false ->
  asked_host environ h -> requests environ root scheme path query ->
  norm h = Ok n -> norm (g_default_subdomain (m_config m)) = Ok d -> d = [] \/ n <> [] ->
  bind_environ norm m environ None None = Ok (Bound (Adapter m n root (Some d) scheme) path query).
Proof. exact bind_host. Qed.
Print Assumptions C117_host.
Theorem C117_host_matching : forall norm m environ h root scheme path query n, g_host_matching (m_config m) = true ->
  asked_host environ h -> requests environ root scheme path query -> norm h = Ok n ->
  bind_environ norm m environ None None = Ok (Bound (Adapter m n root None scheme) path query).
Proof. exact bind_host_matching. Qed.
Print Assumptions C117_host_matching.
(** With a server name the subdomain is what stands before it in the host of the request,
    whatever the case of either. *)
Theorem C117_subdomain : forall norm m environ h s sub root scheme path query n d, g_host_matching (m_config m) = false ->
  asked_host environ h -> below (lower s) (lower h) sub -> requests environ root scheme path query ->
  norm (lower s) = Ok n -> norm sub = Ok d -> d = [] \/ n <> [] ->
  bind_environ norm m environ (Some s) None = Ok (Bound (Adapter m n root (Some d) scheme) path query).
Proof. exact bind_subdomain. Qed.
Print Assumptions C117_subdomain.
(** Names that are given are taken as they are; a subdomain with host matching is an error. *)
Theorem C117_given : forall norm m environ s sub root scheme path query n d, g_host_matching (m_config m) = false ->
  requests environ root scheme path query -> norm s = Ok n -> norm sub = Ok d -> d = [] \/ n <> [] ->
  bind_environ norm m environ (Some s) (Some sub) = Ok (Bound (Adapter m n root (Some d) scheme) path query).
Proof. exact bind_given. Qed.
Print Assumptions C117_given.
Theorem C117_given_matching : forall norm m environ s root scheme path query n, g_host_matching (m_config m) = true ->
  requests environ root scheme path query -> norm s = Ok n ->
  bind_environ norm m environ (Some s) None = Ok (Bound (Adapter m n root None scheme) path query) /\
  forall sub, bind_environ norm m environ (Some s) (Some sub) = Raise RuntimeError.
Proof. exact bind_given_matching. Qed.
Print Assumptions C117_given_matching.
(** The URLs of the adapter are for the host that was asked, if its labels are not empty. *)
Theorem C117_own_host : forall norm m environ h s labels root scheme path query, g_host_matching (m_config m) = false ->
  asked_host environ h -> requests environ root scheme path query -> s <> [] ->
  norm (lower s) = Ok (lower s) -> norm (dotted labels) = Ok (dotted labels) ->
  Forall (fun x => x <> [] /\ ~ In 46 x) labels -> lower h = flat_map (fun x => x ++ [46]) labels ++ lower s ->
  exists b, bind_environ norm m environ (Some s) None = Ok b /\ own_host (bd_adapter b) (lower h).
Proof.
  intros norm m environ h s labels root scheme path query G H R Hs Hn Hl F E.
  assert (Ls : lower s <> []) by (destruct s; [destruct Hs; auto|discriminate]).
  assert (D : labels = [] \/ flat_map (fun x => x ++ [46]) labels = dotted labels ++ [46]).
  { clear. induction labels as [|x l [->|IH]]; [left; auto|right; cbn; rewrite app_nil_r; reflexivity|right].
    cbn [flat_map]. rewrite IH. destruct l as [|y l]; [discriminate|]. unfold dotted. rewrite ProofBind.join_step, <- !app_assoc. reflexivity. }
  assert (X : filter (fun x => negb (eqs x [])) labels = labels).
  { clear - F. induction F as [|x l [Hx _] _ IH]; auto. cbn [filter]. destruct x; [destruct Hx; auto|]. cbn. f_equal; auto. }
  assert (B : below (lower s) (lower h) (dotted labels)).
  { destruct labels as [|x l]; [rewrite E; apply bl_same|]. destruct D as [D|D]; [discriminate|]. rewrite E, D, <- app_assoc. rewrite <- X at 2.
    apply bl_sub; [discriminate|]. eapply Forall_impl; [|exact F]. intros a Ha. apply Ha. }
  rewrite (bind_subdomain norm m environ h s (dotted labels) root scheme path query (lower s) (dotted labels)); auto.
  eexists. split; [reflexivity|]. apply (own_sub _ (dotted labels)); auto. cbn [bd_adapter].
  destruct labels as [|x l].
  - rewrite E. cbn [dotted flat_map join app]. apply th_top; auto.
  - destruct D as [D|D]; [discriminate|]. rewrite E, D, <- app_assoc. apply th_sub; auto.
    inversion F as [|x' l' [Hx _] _]; subst. unfold dotted. destruct l; [exact Hx|]. rewrite ProofBind.join_step. destruct x; [destruct Hx; auto|discriminate].
Qed.
Print Assumptions C117_own_host.
(** A request for a host that is not below the server name finds no route, if the routes
    are each for one subdomain, which is not the text <invalid>. *)
Theorem C117_elsewhere_partial : forall ip_ok nfkc_ok mk g norm m environ h s root scheme p query n, made mk g m -> g_host_matching (m_config m) = false ->
  asked_host environ h -> (forall sub, ~ below (lower s) (lower h) sub) -> requests environ root scheme (Some p) query ->
  norm (lower s) = Ok n -> norm (lit "<invalid>") = Ok (lit "<invalid>") -> n <> [] ->
  (forall b, In b (m_routes m) -> plain_route (b_route b) /\ exists d, only_for (b_route b) d /\ d <> lit "<invalid>") ->
  exists b, bind_environ norm m environ (Some s) None = Ok b /\ snd (match_bound ip_ok nfkc_ok b) = Ok NotFound.
Proof.
  intros ip_ok nfkc_ok mk g norm m environ h s root scheme p query n M G H B R Hn Hi Hx Hr.
  rewrite (bind_elsewhere norm m environ h s root scheme (Some p) query n G H B R Hn Hi Hx). eexists. split; [reflexivity|].
  unfold match_bound. cbn [bd_path bd_query bd_adapter]. apply (no_route ip_ok nfkc_ok mk g _ (lit "<invalid>")); auto. vm_compute. intuition lia.
Qed.
Print Assumptions C117_elsewhere_partial.
(** Matching without arguments is matching the path of the environ; the query is carried
    to redirects; without a path it fails. *)
Theorem C117_match : forall ip_ok nfkc_ok a,
  (forall p q, match_bound ip_ok nfkc_ok (Bound a (Some p) (Some q)) = match_path ip_ok nfkc_ok a p q) /\
  (forall p, match_bound ip_ok nfkc_ok (Bound a (Some p) None) = match_path ip_ok nfkc_ok a p []) /\
  (forall q, snd (match_bound ip_ok nfkc_ok (Bound a None q)) = Raise AttributeError).
Proof. intros. split; [|split]; reflexivity. Qed.
Print Assumptions C117_match.

Definition ex_users : url_map :=
  ex_map [FSubdomain (lit "<user>") [FRoute (ex_spec (lit "/<page>") (lit "user"))]; FRoute (ex_spec (lit "/about") (lit "about"))].
Definition ex_environ (host path : str) : dict str :=
  [(lit "HTTP_HOST", host); (lit "wsgi.url_scheme", lit "http"); (lit "SCRIPT_NAME", lit "/app"); (lit "PATH_INFO", path); (lit "QUERY_STRING", lit "x=1")].
Definition ex_outcome (b : res bound) : option (str * dict value) :=
  match b with
  | Ok b => match snd (match_bound yes yes b) with Ok (Found r values) => Some (r_endpoint (b_route r), values) | _ => None end
  | Raise _ => None
  end.
Definition ex_norm (s : str) : res str := Ok (lower s).
(** Finding: a route for every subdomain also answers for every other host, with the
    subdomain <invalid>. *)
Theorem C117_refuted : exists mk g m environ h s values, made mk g m /\ asked_host environ h /\ (forall sub, ~ below (lower s) (lower h) sub) /\
  h = lit "evil.org" /\ s = lit "example.com" /\
  ex_outcome (bind_environ ex_norm m environ (Some s) None) = Some (lit "user", values) /\ dget values (lit "user") = Some (VStr (lit "<invalid>")).
Proof.
  exists ex_mk, ex_config, ex_users, (ex_environ (lit "evil.org") (lit "/home")), (lit "evil.org"), (lit "example.com"), [(lit "user", VStr (lit "<invalid>")); (lit "page", VStr (lit "home"))].
  split; [apply made_first; vm_compute; reflexivity|]. split; [apply ah_header; reflexivity|]. split.
  - intros sub B. inversion B as [|labels N F E E']. apply (f_equal (@rev BinNums.N)) in E. rewrite !rev_app_distr in E. discriminate E.
  - split; [reflexivity|]. split; [reflexivity|]. split; vm_compute; reflexivity.
Qed.
Print Assumptions C117_refuted.
Example C117_example :
  let bind h p s := bind_environ ex_norm ex_users (ex_environ h p) s None in
  asked_host (ex_environ (lit "Bob.Example.com") (lit "/home")) (lit "Bob.Example.com") /\
  below (lower (lit "example.COM")) (lower (lit "Bob.Example.com")) (lit "bob") /\
  requests (ex_environ (lit "Bob.Example.com") (lit "/home")) (lit "/app/") (lit "http") (Some (lit "/home")) (Some (lit "x=1")) /\
  bind (lit "Bob.Example.com") (lit "/home") (Some (lit "example.COM")) =
    Ok (Bound (Adapter ex_users (lit "example.com") (lit "/app/") (Some (lit "bob")) (lit "http")) (Some (lit "/home")) (Some (lit "x=1"))) /\
  ex_outcome (bind (lit "Bob.Example.com") (lit "/home") (Some (lit "example.COM"))) = Some (lit "user", [(lit "user", VStr (lit "bob")); (lit "page", VStr (lit "home"))]) /\
  ex_outcome (bind (lit "example.com") (lit "/about") (Some (lit "example.com"))) = Some (lit "about", []) /\
  ex_outcome (bind (lit "bob.example.com") (lit "/about") None) = Some (lit "about", []).
Proof.
  intros bind. split; [apply ah_header; reflexivity|]. split.
  { apply (bl_sub (lit "example.com") [lit "bob"]); [discriminate|]. constructor; [vm_compute; intuition lia|constructor]. }
  split.
  { constructor; [|reflexivity|apply (sf_text _ _ (lit "/home")); reflexivity|apply (sf_text _ _ (lit "x=1")); reflexivity].
    exists (Some (lit "/app")). split; [apply (sf_text _ _ (lit "/app")); reflexivity|]. apply ro_open. intros r E.
    apply (f_equal (@rev N)) in E. rewrite rev_app_distr in E. discriminate E. }
  split; [reflexivity|]. vm_compute. auto.
Qed.

(** ** C118 *)
(** What a route builds: its domain and path with the static text encoded and every variable
    as its converter writes it, and a query that says the values it does not take, in the
    order of their names. *)
Theorem C118_built : forall r values au d path, NoDup (map fst values) -> (forall u, spells values (r_domain r) u -> ~ In 124 u) ->
  route_build r values au = Ok (Some (d, path)) ->
  exists u q, spells values (r_domain r) d /\ spells values (path_pieces r) u /\ path = u ++ q /\
    (au = false -> q = []) /\ (au = true -> exists l, others r values l /\ query_says l q).
Proof. exact build_spec. Qed.
Print Assumptions C118_built.
(** It builds whenever every variable can be written and the texts are Unicode. *)
Theorem C118_total : forall r values au,
  (forall p, In p (r_domain r ++ path_pieces r) -> match p with
     | PStatic s => unicode_text s
     | PVar n c => exists v x, dget values n = Some v /\ c_to_url c v = Ok (Some x) end) -> NoDup (map fst values) ->
  (au = true -> forall k v s, In (k, v) values -> ~ takes r k -> shows v s -> unicode_text k /\ unicode_text s) ->
  exists d path, route_build r values au = Ok (Some (d, path)).
Proof. exact build_total. Qed.
Print Assumptions C118_total.
(** The first variable that cannot be written decides: without a value a KeyError, refused
    by its converter the route gives up. *)
Theorem C118_missing : forall r values au, lacks values (r_domain r ++ path_pieces r) -> route_build r values au = Raise KeyError.
Proof. exact build_lack. Qed.
Print Assumptions C118_missing.
Theorem C118_refused : forall r values au, declined values (r_domain r ++ path_pieces r) -> route_build r values au = Ok None.
Proof. exact build_decline. Qed.
Print Assumptions C118_refused.
(** An exception of a converter is the exception of the route. *)
Theorem C118_raises : forall r values au e, fails values e (r_domain r ++ path_pieces r) -> route_build r values au = Raise e.
Proof. exact build_fail. Qed.
Print Assumptions C118_raises.
(** A whole number may be given as text; other texts are ValueErrors, other objects TypeErrors. *)
Theorem C118_int : forall fixed mn mx,
  (forall z, c_to_url (conv_int fixed mn mx) (VStr (zdec z)) = c_to_url (conv_int fixed mn mx) (VInt z)) /\
  (forall s c, In c s -> is_ascii_digit c = false -> ~ In c (lit "_+-") -> is_space c = false ->
     c_to_url (conv_int fixed mn mx) (VStr s) = Raise ValueError) /\
  c_to_url (conv_int fixed mn mx) (VStr []) = Raise ValueError /\
  (forall s, c_to_url (conv_int fixed mn mx) (VObj s) = Raise TypeError).
Proof. exact int_written. Qed.
Print Assumptions C118_int.
(** A request with this query reads the values again as texts; empty ones are lost. *)
Theorem C118_read_back : forall environ l w, query_says l (63 :: w) -> dget environ (lit "QUERY_STRING") = Some w ->
  exists d, req_args environ = Ok d /\ forall k, m_getlist d k =
    flat_map (fun kv => if list_eq_dec N.eq_dec (fst kv) k then match value_str (snd kv) with [] => [] | s => [s] end else []) l.
Proof. exact query_read. Qed.
Print Assumptions C118_read_back.

Definition ex_archive : route :=
  Route [] [PStatic (lit "/a b/"); PVar (lit "year") (conv_int 4 None None)] false true [(lit "lang", VStr (lit "en"))] false false (lit "archive").
Definition ex_values : dict value :=
  [(lit "tag", VStr (lit "x & y")); (lit "year", VInt 814); (lit "lang", VStr (lit "en")); (lit "page", VInt 2)].
Example C118_example :
  route_build ex_archive ex_values true = Ok (Some ([], lit "/a%20b/0814/?page=2&tag=x+%26+y")) /\
  route_build ex_archive ex_values false = Ok (Some ([], lit "/a%20b/0814/")) /\
  route_build ex_archive [(lit "page", VInt 2)] true = Raise KeyError /\
  (forall u, spells ex_values (r_domain ex_archive) u -> ~ In 124 u) /\
  lacks [(lit "page", VInt 2)] (r_domain ex_archive ++ path_pieces ex_archive) /\
  others ex_archive ex_values [(lit "page", VInt 2); (lit "tag", VStr (lit "x & y"))] /\
  (exists d, req_args [(lit "QUERY_STRING", lit "page=2&tag=x+%26+y")] = Ok d /\ m_getlist d (lit "tag") = [lit "x & y"]).
Proof.
  split; [vm_compute; reflexivity|]. split; [vm_compute; reflexivity|]. split; [vm_compute; reflexivity|].
  split; [intros u H; inversion H; intros []|]. split.
  { cbn [ex_archive r_domain path_pieces r_path r_leaf app]. apply la_static; [|apply la_here; reflexivity].
    intros c Hc. vm_compute in Hc. intuition subst; try lia. }
  split.
  { pose proof (others_sorted ex_archive ex_values) as O. apply O. repeat constructor; vm_compute; intuition discriminate. }
  eexists. split; vm_compute; reflexivity.
Qed.
Example C118_raises_example :
  fails [(lit "year", VStr (lit "abc"))] ValueError (r_domain ex_archive ++ path_pieces ex_archive) /\
  route_build ex_archive [(lit "year", VStr (lit "abc"))] true = Raise ValueError /\
  route_build ex_archive [(lit "year", VStr (lit "814"))] true = Ok (Some ([], lit "/a%20b/0814/")).
Proof.
  split; [|split; vm_compute; reflexivity].
  cbn [ex_archive r_domain path_pieces r_path r_leaf app]. apply fa_static.
  - intros c Hc. vm_compute in Hc. intuition subst; lia.
  - eapply fa_here; reflexivity.
Qed.
