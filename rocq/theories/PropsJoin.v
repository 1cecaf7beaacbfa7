(** Theorems about redirect_to (C116) and relative URLs of an adapter (C59, C65). *)
From Coq Require Import Arith List NArith ZArith Bool Lia.
From Verif Require Import PyStr PyStrFacts Regex ModelUrls SpecUrls ModelRoute SpecRoute ProofRoute PropsRoute ModelUrlMap SpecUrlMap ProofUrlMap PropsUrlMap SpecRequest SpecCanon SpecJoin ProofJoin.
Import ListNotations.
Open Scope N_scope.

(** ** C116 *)
(** A matched route with a redirect_to text: the answer is a redirect to where the text
    leads, seen from the root of the application, once its placeholders are replaced by the
    values as the converters write them.  The query of the request plays no part. *)
Theorem C116_text : forall ip_ok nfkc_ok mk g a p q b path values s t u name host root,
  made mk g (a_map a) -> asked a p path ->
  let rd := g_redirect_defaults (m_config (a_map a)) in
  best rd path (m_routes (a_map a)) b -> route_match rd (b_route b) path = Ok (MValues values) -> has_no_canonical a b values ->
  a_scheme a = lit "http" \/ a_scheme a = lit "https" -> own_host a host -> plain_host name host ->
  (g_host_matching (m_config (a_map a)) = true -> a_subdomain a = None) ->
  a_script a = 47 :: folders root -> Forall folder root -> no_dots root ->
  b_redirect b = RedirectText s -> spelled (b_route b) values s t -> leads (a_scheme a) host root t u ->
  snd (match_path ip_ok nfkc_ok a p q) = Ok (Redirect u).
Proof.
  intros ip_ok nfkc_ok mk g a p q b path values s t u name host root M A rd B Hm Nc Hs Ho Hh Hg Es Hr (N1 & N2) Er Sp L.
  rewrite (match_redirect ip_ok nfkc_ok mk g a p q b path values M A B Hm Nc), Er, (fill_spelled ip_ok nfkc_ok b values (length s) s t Sp (le_n _)). cbn [bind].
  rewrite (base_of a host root Ho Hg Es), (join_leads ip_ok nfkc_ok (a_scheme a) name host root t u Hs Hh Hr N1 N2 L). reflexivity.
Qed.
Print Assumptions C116_text.
(** A redirect_to function is called with the values; a redirect to where its text leads, or
    its exception. *)
Theorem C116_call : forall ip_ok nfkc_ok mk g a p q b path values f name host root,
  made mk g (a_map a) -> asked a p path ->
  let rd := g_redirect_defaults (m_config (a_map a)) in
  best rd path (m_routes (a_map a)) b -> route_match rd (b_route b) path = Ok (MValues values) -> has_no_canonical a b values ->
  a_scheme a = lit "http" \/ a_scheme a = lit "https" -> own_host a host -> plain_host name host ->
  (g_host_matching (m_config (a_map a)) = true -> a_subdomain a = None) ->
  a_script a = 47 :: folders root -> Forall folder root -> no_dots root -> b_redirect b = RedirectCall f ->
  (forall t u, f values = Ok t -> leads (a_scheme a) host root t u -> snd (match_path ip_ok nfkc_ok a p q) = Ok (Redirect u)) /\
  (forall e, f values = Raise e -> snd (match_path ip_ok nfkc_ok a p q) = Raise e).
Proof.
  intros ip_ok nfkc_ok mk g a p q b path values f name host root M A rd B Hm Nc Hs Ho Hh Hg Es Hr (N1 & N2) Er.
  rewrite (match_redirect ip_ok nfkc_ok mk g a p q b path values M A B Hm Nc), Er. split.
  - intros t u E L. rewrite E. cbn [bind]. rewrite (base_of a host root Ho Hg Es), (join_leads ip_ok nfkc_ok (a_scheme a) name host root t u Hs Hh Hr N1 N2 L). reflexivity.
  - intros e E. rewrite E. reflexivity.
Qed.
Print Assumptions C116_call.
(** A placeholder that names no variable of the route, or one without a value, is a
    KeyError. *)
Theorem C116_unknown : forall ip_ok nfkc_ok mk g a p q b path values s, made mk g (a_map a) -> asked a p path ->
  let rd := g_redirect_defaults (m_config (a_map a)) in
  best rd path (m_routes (a_map a)) b -> route_match rd (b_route b) path = Ok (MValues values) -> has_no_canonical a b values ->
  b_redirect b = RedirectText s -> misnamed (b_route b) values s -> snd (match_path ip_ok nfkc_ok a p q) = Raise KeyError.
Proof.
  intros ip_ok nfkc_ok mk g a p q b path values s M A rd B Hm Nc Er Sp.
  rewrite (match_redirect ip_ok nfkc_ok mk g a p q b path values M A B Hm Nc), Er, (fill_misnamed ip_ok nfkc_ok b values (length s) s Sp (le_n _)). reflexivity.
Qed.
Print Assumptions C116_unknown.

Definition ex_moved (string target : str) : factory :=
  FRoute (Spec string true [] None false (lit "old") None (RedirectText target) false None).
Definition ex_moved_map : url_map :=
  ex_map [ex_moved (lit "/old/<int:n>/<name>") (lit "new/<name>/../<n>;v=1?page=<n>#top"); ex_moved (lit "/up") (lit "/a/./b/..");
          ex_moved (lit "/away") (lit "https://example.org/x"); ex_moved (lit "/odd") (lit "a<b<>c<"); ex_moved (lit "/no/<x>") (lit "<x>/<y>")].
Definition ex_moved_adapter : adapter := Adapter ex_moved_map (lit "example.com") (lit "/app/") (Some []) (lit "http").
Example C116_example : made ex_mk ex_config ex_moved_map /\
  snd (match_path yes yes ex_moved_adapter (lit "/old/12/a b") (lit "q=1")) = Ok (Redirect (lit "http://example.com/app/new/12;v=1?page=12#top")) /\
  snd (match_path yes yes ex_moved_adapter (lit "/up") []) = Ok (Redirect (lit "http://example.com/a/")) /\
  snd (match_path yes yes ex_moved_adapter (lit "/away") []) = Ok (Redirect (lit "https://example.org/x")) /\
  snd (match_path yes yes ex_moved_adapter (lit "/odd") []) = Raise KeyError /\
  snd (match_path yes yes ex_moved_adapter (lit "/no/1") []) = Raise KeyError.
Proof. split; [apply made_first; vm_compute; reflexivity|]. vm_compute. repeat split. Qed.
(** The texts of the example, in the vocabulary. *)
Example C116_example_leads :
  leads (lit "http") (lit "example.com") [lit "app"] (lit "new/a%20b/../12;v=1?page=12#top") (lit "http://example.com/app/new/12;v=1?page=12#top") /\
  leads (lit "http") (lit "example.com") [lit "app"] (lit "/a/./b/..") (lit "http://example.com/a/") /\
  leads (lit "http") (lit "example.com") [lit "app"] (lit "?x=1") (lit "http://example.com/app/?x=1") /\
  (exists n v, spelled (Route [] [PVar (lit "n") (conv_int 0 None None)] true true [] false false (lit "old")) [(lit "n", VInt 12)] (n ++ lit "<n>") (n ++ v) /\ n = lit "a<>/" /\ v = lit "12").
Proof.
  assert (W : forall s, forallb (fun c => (32 <? c) && negb (c =? 47) && negb (c =? 63) && negb (c =? 35)) s = true -> word s).
  { intros s H c Hc. rewrite forallb_forall in H. specialize (H c Hc). rewrite !andb_true_iff, !negb_true_iff, N.ltb_lt, !N.eqb_neq in H. tauto. }
  assert (O : forall s, forallb (fun c => negb (mem c [9; 10; 13])) s = true -> one_line s).
  { intros s H. rewrite forallb_forall in H. repeat split; intros X; apply H in X; discriminate. }
  split; [|split; [|split]].
  - apply (le_relative (lit "http") (lit "example.com") [lit "app"] [lit "new"; lit "a%20b"; lit ".."] (lit "12;v=1") [lit "app"; lit "new"] (lit "12;v=1") (lit "?page=12#top")).
    + repeat apply Forall_cons; try apply Forall_nil; (split; [apply W; reflexivity|discriminate]).
    + apply (fi_params (lit "12") (lit "v=1")); try (apply W; reflexivity); try discriminate. vm_compute. intuition lia.
    + discriminate.
    + vm_compute. intuition lia.
    + exists (lit "page=12"), (lit "top"). repeat split; try reflexivity; vm_compute; intuition lia.
    + apply ar_file; [|discriminate|discriminate]. apply wa_down; [discriminate|discriminate|]. apply wa_down; [discriminate|discriminate|].
      apply (wa_up [lit "app"; lit "new"] (lit "a%20b")). apply wa_end.
  - apply (le_absolute (lit "http") (lit "example.com") [lit "app"] [lit "a"; lit "."; lit "b"] (lit "..") [lit "a"] [] []).
    + repeat apply Forall_cons; try apply Forall_nil; apply W; reflexivity.
    + intros l E. discriminate.
    + apply fi_name; [apply W; reflexivity|vm_compute; intuition lia].
    + exists [], []. repeat split; try reflexivity; intros [].
    + apply (ar_up _ _ [lit "a"] (lit "b")). apply wa_down; [discriminate|discriminate|]. apply wa_stay. apply wa_down; [discriminate|discriminate|]. apply wa_end.
  - apply (le_nothing (lit "http") (lit "example.com") [lit "app"] (lit "?x=1")). exists (lit "x=1"), []. repeat split; try reflexivity; vm_compute; intuition lia.
  - exists (lit "a<>/"), (lit "12"). split; [|split; reflexivity].
    apply sp_char; [vm_compute; discriminate|]. apply sp_open; [right; eexists; reflexivity|]. apply sp_char; [vm_compute; discriminate|]. apply sp_char; [vm_compute; discriminate|].
    apply (sp_slot _ _ (lit "n") (lit "12") [] []); [discriminate|vm_compute; intuition lia| |apply sp_nil].
    exists (conv_int 0 None None), (VInt 12). split; [left; reflexivity|]. split; [intros c' [E|[]]; inversion E; auto|]. split; vm_compute; reflexivity.
Qed.
(** What a text above the root leads to is the top itself. *)
Example C116_finding_above_root :
  urljoin yes yes (lit "http://example.com/app/") (lit "../../x") = Ok (lit "http://example.com/x") /\
  urljoin yes yes (lit "/") (lit "./../x") = Ok (lit "x").
Proof. vm_compute. split; reflexivity. Qed.

(** ** C65: the URL for the adapter's own host *)
(** The script name and the path that the route has built, with dot segments resolved. *)
Theorem C65_relative : forall ip_ok nfkc_ok mk g a e vals values au b d path root dirs x t d' x', made mk g (a_map a) -> given vals values ->
  builder_of a e values au b -> route_build (b_route b) values au = Ok (Some (d, path)) -> own_domain a d ->
  a_script a = 47 :: folders root -> Forall folder root -> no_dots root ->
  path = 47 :: folders dirs ++ x ++ t -> Forall folder dirs -> file x -> ending t -> arrives root dirs x d' x' ->
  snd (build ip_ok nfkc_ok a e vals false au) = Ok (47 :: folders d' ++ x' ++ t).
Proof. exact build_own. Qed.
Print Assumptions C65_relative.

(** ** C59, with an adapter *)
(** What the adapter builds for its own host, without dot segments: the script name, the
    path and the query; the path, decoded and asked of the adapter, leads to the same route
    and the same values, if no better route answers and no redirect is due. *)
Theorem C59_adapter : forall ip_ok nfkc_ok mk g a e vals values au b d path root dirs x query, made mk g (a_map a) -> given vals values ->
  builder_of a e values au b -> route_build (b_route b) values au = Ok (Some (d, path)) -> own_domain a d -> ~ In 37 d ->
  plain_route (b_route b) -> separated_route (b_route b) -> open_end (b_route b) -> r_build_only (b_route b) = false ->
  NoDup (map fst (r_defaults (b_route b))) -> (forall s, In (PStatic s) (r_domain (b_route b)) -> ~ In 124 s) ->
  (forall n c v, In (n, c) (route_vars (b_route b)) -> dget values n = Some v -> exists t, faithful c v t) ->
  a_script a = 47 :: folders root -> Forall folder root -> no_dots root ->
  path = 47 :: folders dirs ++ x ++ query_suffix query -> Forall folder dirs -> file x -> ~ In 35 query -> one_line query -> no_dots (x :: dirs) ->
  snd (build ip_ok nfkc_ok a e vals false au) = Ok (47 :: folders root ++ folders dirs ++ x ++ query_suffix query) /\
  exists p, decodes (47 :: folders dirs ++ x) p /\
    (asked a p (d ++ 124 :: p) -> (forall u, p <> u ++ [10]) ->
     best (g_redirect_defaults (m_config (a_map a))) (d ++ 124 :: p) (m_routes (a_map a)) b ->
     b_redirect b = NoRedirect -> r_alias (b_route b) = false ->
     exists found, (forall k, dget found k = match dget (r_defaults (b_route b)) k with
                             | Some v => Some v
                             | None => if existsb (eqs k) (var_names (b_route b)) then dget values k else None
                             end) /\
       (has_no_canonical a b found -> forall q, snd (match_path ip_ok nfkc_ok a p q) = Ok (Found b found))).
Proof. exact build_and_match. Qed.
Print Assumptions C59_adapter.
Definition ex_blog_adapter : adapter :=
  Adapter (ex_map [FRoute (ex_spec (lit "/blog/<int:year>/<slug>") (lit "post")); FRoute (ex_spec (lit "/blog/") (lit "post"))]) (lit "example.com") (lit "/app/") (Some []) (lit "http").
Definition ex_answer (o : res outcome) : option (str * dict value) :=
  match o with Ok (Found b values) => Some (r_endpoint (b_route b), values) | _ => None end.
Example C59_example_adapter :
  let values := [(lit "year", VInt 2014); (lit "slug", VStr (lit "a b;")); (lit "page", VInt 2)] in
  exists b, builder_of ex_blog_adapter (lit "post") values true b /\
    route_build (b_route b) values true = Ok (Some ([], lit "/blog/2014/a%20b%3B?page=2")) /\ own_domain ex_blog_adapter [] /\
    lit "/blog/2014/a%20b%3B?page=2" = 47 :: folders [lit "blog"; lit "2014"] ++ lit "a%20b%3B" ++ query_suffix (lit "page=2") /\
    snd (build yes yes ex_blog_adapter (lit "post") (map (fun kv => (fst kv, Some (snd kv))) values) false true) = Ok (lit "/app/blog/2014/a%20b%3B?page=2") /\
    ex_answer (snd (match_path yes yes ex_blog_adapter (lit "/blog/2014/a b;") [])) = Some (lit "post", [(lit "year", VInt 2014); (lit "slug", VStr (lit "a b;"))]).
Proof.
  intros values. remember (m_routes (a_map ex_blog_adapter)) as l eqn:El. pose (none := BRoute 0 (Route [] [] true true [] false false []) NoRedirect).
  exists (nth 0 l none).
  assert (Hl : length l = 2%nat) by (subst l; vm_compute; reflexivity).
  assert (Hin : forall x, In x l -> x = nth 0 l none \/ x = nth 1 l none).
  { clear El. destruct l as [|x [|y [|z l]]]; try discriminate. intros w [<-|[<-|[]]]; auto. }
  split; [|split; [subst l; vm_compute; reflexivity|split; [apply od_sub; reflexivity|split; [vm_compute; reflexivity|split; vm_compute; reflexivity]]]].
  constructor.
  - rewrite <- El. apply nth_In. rewrite Hl. lia.
  - subst l. vm_compute. reflexivity.
  - apply suitable_iff. subst l. vm_compute. reflexivity.
  - intros b' Hb' _ P. exfalso. rewrite <- El in Hb'. destruct (Hin b' Hb') as [->| ->].
    + apply (ProofCanon.precedes_irrefl _ _ P P).
    + apply (ProofCanon.precedes_irrefl _ _ P). left. apply build_before_spec. subst l. vm_compute. reflexivity.
Qed.
