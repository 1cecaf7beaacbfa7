(** Claims about route factories, URL maps and adapters (C60-C63, C65, C66). *)
From Coq Require Import List NArith ZArith Bool Lia Permutation Sorted.
From Verif Require Import PyStr PyStrFacts Regex Utf8 ModelUrls SpecUrls ProofUrls ModelRoute SpecRoute ProofRoute ModelUrlMap SpecUrlMap ProofUrlMap ModelBind.
Import ListNotations.
Open Scope N_scope.

(** ** Maps for the examples *)
Definition ex_mk (name : str) (args : option str) : res converter :=
  if eqs name (lit "default") then Ok (conv_string 1 None)
  else if eqs name (lit "int") then Ok (conv_int 0 None None)
  else if eqs name (lit "path") then Ok conv_path
  else Raise LookupError.
Definition ex_config : config := Config [] true true false.
Definition ex_spec (string endpoint : str) : spec :=
  Spec string (negb (ends [47] string)) [] None false endpoint None NoRedirect false None.
Definition ex_map (l : list factory) : url_map := fst (add_routes ex_mk (empty_map ex_config) l).
Lemma made_first mk g l : snd (add_routes mk (empty_map g) l) = None -> made mk g (fst (add_routes mk (empty_map g) l)).
Proof. intros H. apply (made_add mk g (empty_map g) l); [apply made_empty|]. rewrite <- H. apply surjective_pairing. Qed.
Definition ex_adapter (m : url_map) : adapter := Adapter m (lit "example.com") [47] (Some []) (lit "http").
Definition yes (s : str) : bool := true.
Definition endpoint_of (x : adapter * res outcome) : option str :=
  match snd x with Ok (Found b _) => Some (r_endpoint (b_route b)) | _ => None end.

(** ** C60 *)
(** Every outcome other than NotFound comes from the best of the routes that answer. *)
Theorem C60_best : forall ip_ok nfkc_ok mk g a p q path, made mk g (a_map a) -> asked a p path ->
  let rd := g_redirect_defaults (m_config (a_map a)) in
  (snd (match_path ip_ok nfkc_ok a p q) = Ok NotFound /\ forall b, In b (m_routes (a_map a)) -> ~ answers rd path b) \/
  exists b, best rd path (m_routes (a_map a)) b /\ snd (match_path ip_ok nfkc_ok a p q) <> Ok NotFound /\
    (forall b' values, snd (match_path ip_ok nfkc_ok a p q) = Ok (Found b' values) ->
       b' = b /\ route_match rd (b_route b) path = Ok (MValues values)).
Proof. exact outcome_best. Qed.
Print Assumptions C60_best.
(** The same routes registered in any order and grouped in any way: the same choice. *)
Theorem C60_any_order : forall mk g m1 m2 rd path b1 b2, made mk g m1 -> made mk g m2 ->
  Permutation (map b_route (m_routes m1)) (map b_route (m_routes m2)) ->
  (forall r r', In r (map b_route (m_routes m1)) -> In r' (map b_route (m_routes m1)) -> same_priority r r' -> r = r') ->
  best rd path (m_routes m1) b1 -> best rd path (m_routes m2) b2 -> b_route b1 = b_route b2.
Proof. exact orders_agree. Qed.
Print Assumptions C60_any_order.
(** Of routes of the same priority the one registered first is chosen; the choice is
    unique. *)
Theorem C60_unique : forall rd path l b b', best rd path l b -> best rd path l b' -> b = b'.
Proof. exact best_unique. Qed.
Print Assumptions C60_unique.

Definition ex_routes : list factory :=
  [FRoute (ex_spec (lit "/<path:p>") (lit "any")); FRoute (ex_spec (lit "/<int:n>") (lit "number"));
   FRoute (ex_spec (lit "/about") (lit "about"))].
Example C60_example : made ex_mk ex_config (ex_map ex_routes) /\ made ex_mk ex_config (ex_map (rev ex_routes)) /\
  endpoint_of (match_path yes yes (ex_adapter (ex_map ex_routes)) (lit "/about") []) = Some (lit "about") /\
  endpoint_of (match_path yes yes (ex_adapter (ex_map (rev ex_routes))) (lit "/about") []) = Some (lit "about") /\
  endpoint_of (match_path yes yes (ex_adapter (ex_map ex_routes)) (lit "/12") []) = Some (lit "number") /\
  endpoint_of (match_path yes yes (ex_adapter (ex_map (rev ex_routes))) (lit "/12") []) = Some (lit "number") /\
  endpoint_of (match_path yes yes (ex_adapter (ex_map ex_routes)) (lit "/a/b") []) = Some (lit "any").
Proof.
  split; [apply made_first; vm_compute; reflexivity|]. split; [apply made_first; vm_compute; reflexivity|].
  vm_compute. repeat split.
Qed.
(** A registration that fails half-way adds routes without asking for the map to be
    sorted again: the new static route loses against the general one. *)
Example C60_finding_failed_registration :
  let m := update (ex_map [FRoute (ex_spec (lit "/<path:p>") (lit "any"))]) in
  let m' := fst (add_routes ex_mk m [FRoute (ex_spec (lit "/about") (lit "about")); FRoute (ex_spec (lit "/<no_such:x>") (lit "e"))]) in
  snd (add_routes ex_mk m [FRoute (ex_spec (lit "/about") (lit "about")); FRoute (ex_spec (lit "/<no_such:x>") (lit "e"))]) = Some LookupError /\
  length (m_routes m') = 2%nat /\
  endpoint_of (match_path yes yes (ex_adapter m') (lit "/about") []) = Some (lit "any").
Proof. vm_compute. repeat split. Qed.

(** ** C61, with an adapter *)
(** A chosen strict branch route asked for without its slash: the redirect goes to the
    adapter's own host, to the path asked for and a slash, and that is what the adapter is
    asked then. *)
Theorem C61_redirect_url : forall ip_ok nfkc_ok mk g a p q b path host root rel,
  made mk g (a_map a) -> asked a p path ->
  best (g_redirect_defaults (m_config (a_map a))) path (m_routes (a_map a)) b ->
  route_match (g_redirect_defaults (m_config (a_map a))) (b_route b) path = Ok MSlash ->
  plain_route (b_route b) -> (forall u, path <> u ++ [10]) -> unicode_text p ->
  a_scheme a <> [] -> own_host a host -> host <> [] -> root_of (a_script a) root -> relative p rel ->
  exists quoted,
    snd (match_path ip_ok nfkc_ok a p q) =
      Ok (Redirect (a_scheme a ++ lit "://" ++ host ++ root ++ quoted ++ [47] ++ query_suffix q)) /\
    decodes quoted rel /\ ~ In 63 quoted /\ ~ In 35 quoted /\ asked a (p ++ [47]) (path ++ [47]).
Proof.
  intros ip_ok nfkc_ok mk g a p q b path host root rel M A B Hm P Hn U Hs Ho Hh R Hr.
  pose proof (asked_path _ _ _ A) as E. subst path. pose proof (best_chosen _ _ _ _ _ _ M B) as C.
  pose proof (slash_path _ _ _ _ P Hn Hm) as Hne.
  destruct (slash_redirect_url ip_ok nfkc_ok a p q b host root rel C Hm P Hn U Hs Ho Hh R Hr) as (x & H1 & H2 & H3 & H4 & H5).
  exists x. split; [exact H1|]. split; [exact H2|]. split; [exact H3|]. split; [exact H4|].
  assert (Hrel : rel <> []) by (rewrite <- (relative_unique _ _ Hr); auto). clear - A Hr Hrel Hne.
  remember (full_path a p) as path. destruct A as [rel' Hh Hs R|d rel' Hh Hd R]; (assert (rel' = rel) as -> by (rewrite <- (relative_unique _ _ R), <- (relative_unique _ _ Hr); auto)).
  - replace ((a_server a ++ lit "|/" ++ rel) ++ [47]) with (a_server a ++ lit "|/" ++ (rel ++ [47])) by (rewrite <- !app_assoc; auto). apply as_host; auto using relative_snoc.
  - replace ((d ++ lit "|/" ++ rel) ++ [47]) with (d ++ lit "|/" ++ (rel ++ [47])) by (rewrite <- !app_assoc; auto). apply as_subdomain; auto using relative_snoc.
Qed.
Print Assumptions C61_redirect_url.
(** The redirected request: if no better route answers it, the same route is chosen, there
    is no second redirect for a slash, and the values are those of the path. *)
Theorem C61_followed_partial : forall ip_ok nfkc_ok mk g a p q b path,
  made mk g (a_map a) -> asked a p path -> asked a (p ++ [47]) (path ++ [47]) ->
  let rd := g_redirect_defaults (m_config (a_map a)) in
  best rd path (m_routes (a_map a)) b -> route_match rd (b_route b) path = Ok MSlash ->
  plain_route (b_route b) -> NoDup (map fst (r_defaults (b_route b))) -> (forall u, path <> u ++ [10]) ->
  exists ts, instance (b_route b) ts [] path /\ instance (b_route b) ts [47] (path ++ [47]) /\
    route_match rd (b_route b) (path ++ [47]) <> Ok MSlash /\
    forall vals, reads (route_vars (b_route b)) ts vals -> best rd (path ++ [47]) (m_routes (a_map a)) b ->
      exists d, route_match rd (b_route b) (path ++ [47]) = Ok (if r_alias (b_route b) && rd then MAlias d else MValues d) /\
        (forall k, dget d k = match dget (r_defaults (b_route b)) k with Some v => Some v | None => dget vals k end) /\
        (rd = false -> b_redirect b = NoRedirect -> snd (match_path ip_ok nfkc_ok a (p ++ [47]) q) = Ok (Found b d)).
Proof.
  intros ip_ok nfkc_ok mk g a p q b path M A A' rd B Hm P Nd Hn.
  destruct (slash_redirect_values rd (b_route b) path P Nd Hn Hm) as (_ & _ & _ & ts & I1 & I2 & H1 & H2 & _).
  exists ts. split; [exact I1|]. split; [exact I2|]. split; [exact H1|]. intros vals Rv B'. destruct (H2 vals Rv) as (d & Hd & Hk).
  exists d. split; [exact Hd|]. split; [exact Hk|]. intros Hrd Hnr. pose proof (asked_path _ _ _ A') as E.
  assert (C : chosen (rdefaults a) (full_path a (p ++ [47])) (m_routes (update (a_map a))) b) by (rewrite E; eapply best_chosen; eauto).
  rewrite (match_chosen ip_ok nfkc_ok a (p ++ [47]) q b C). unfold respond. rewrite update_adapter_rd, update_adapter_path, E.
  change (rdefaults a) with rd. rewrite Hd, Hrd, andb_false_r. cbn [bind]. unfold matched. cbn [a_map update_adapter]. rewrite update_config. fold rd. rewrite Hrd. cbn [bind]. rewrite Hnr. reflexivity.
Qed.
Print Assumptions C61_followed_partial.
Example C61_example_adapter :
  let a := Adapter (ex_map [FRoute (ex_spec (lit "/tags/<int:n>/") (lit "tag"))]) (lit "example.com") (lit "/app/") (Some (lit "www")) (lit "http") in
  snd (match_path yes yes a (lit "//tags/12") (lit "x=1")) = Ok NotFound /\
  let a := Adapter (ex_map [FSubdomain (lit "www") [FRoute (ex_spec (lit "/tags/<name>/") (lit "tag"))]]) (lit "example.com") (lit "/app/") (Some (lit "www")) (lit "http") in
  snd (match_path yes yes a (lit "//tags/a b") (lit "x=1")) = Ok (Redirect (lit "http://www.example.com/app/tags/a%20b/?x=1")) /\
  endpoint_of (match_path yes yes a (lit "//tags/a b/") (lit "x=1")) = Some (lit "tag").
Proof. vm_compute. repeat split. Qed.
(** Another route may answer the redirected request: the leaf for the text of one fixed
    file is better than the branch. *)
Theorem C61_other_route_refuted : exists mk g a b, made mk g (a_map a) /\ asked a (lit "/x") (lit "|/x") /\
  best true (lit "|/x") (m_routes (a_map a)) b /\ r_endpoint (b_route b) = lit "branch" /\
  snd (match_path yes yes a (lit "/x") []) = Ok (Redirect (lit "http://example.com/x/")) /\
  endpoint_of (match_path yes yes a (lit "/x/") []) = Some (lit "leaf").
Proof.
  pose (mk := fun name (args : option str) => if eqs name (lit "any") then Ok (conv_any [lit "x/"]) else ex_mk name args).
  pose (m := fst (add_routes mk (empty_map ex_config) [FRoute (ex_spec (lit "/<any:a>") (lit "leaf")); FRoute (ex_spec (lit "/<path:p>/") (lit "branch"))])).
  assert (M : made mk ex_config m) by (apply made_first; vm_compute; reflexivity).
  assert (A : asked (ex_adapter m) (lit "/x") (lit "|/x")).
  { apply (as_subdomain (ex_adapter m) (lit "/x") [] (lit "x")); [reflexivity|reflexivity|]. exists [47]. split; [reflexivity|]. split; [intros c [<-|[]]; auto|discriminate]. }
  destruct (C60_best yes yes mk ex_config (ex_adapter m) (lit "/x") [] (lit "|/x") M A) as [[N _]|(b & B & _ & _)].
  - exfalso. vm_compute in N. discriminate.
  - exists mk, ex_config, (ex_adapter m), b. split; [exact M|]. split; [exact A|]. split; [exact B|].
    split; [|split; vm_compute; reflexivity]. destruct B as [B1 B2 _]. cbn [ex_adapter a_map] in B1, B2.
    assert (In (r_endpoint (b_route b)) (map (fun b => r_endpoint (b_route b)) (filter (fun b => match route_match true (b_route b) (lit "|/x") with Ok MNone => false | _ => true end) (m_routes m)))) as H.
    { apply (in_map (fun b => r_endpoint (b_route b))). apply filter_In. split; [exact B1|]. assert (B3 : answers true (lit "|/x") b) by exact B2. clear B2. unfold answers in B3.
      destruct (route_match true (b_route b) (lit "|/x")) as [[| | |]|]; congruence. }
    vm_compute in H. destruct H as [H|[]]. vm_compute. auto.
Qed.
Print Assumptions C61_other_route_refuted.

(** ** C62 *)
(** Every redirect that does not come from redirect_to goes to the adapter's scheme and to
    its own host or that of the domain part of a route of the same endpoint; whatever the
    path contains, the host is followed by a slash, a question mark or nothing. *)
Theorem C62_partial : forall ip_ok nfkc_ok mk g a p q u path,
  made mk g (a_map a) -> asked a p path -> a_scheme a <> [] ->
  snd (match_path ip_ok nfkc_ok a p q) = Ok (Redirect u) ->
  exists b, best (g_redirect_defaults (m_config (a_map a))) path (m_routes (a_map a)) b /\
    (b_redirect b = NoRedirect ->
     exists host, allowed_host a (r_endpoint (b_route b)) host /\
       (host <> [] -> exists rest, u = a_scheme a ++ lit "://" ++ host ++ rest /\ after_host rest)).
Proof.
  intros ip_ok nfkc_ok mk g a p q u path M A Hs H. destruct (redirect_host ip_ok nfkc_ok mk g a p q u M Hs H) as (b & C & R).
  exists b. split; [|exact R]. rewrite <- (asked_path _ _ _ A). eapply chosen_best; eauto.
Qed.
Print Assumptions C62_partial.
(** A redirect for a slash goes to the own host and a slash follows (C61_redirect_url). *)
Definition ex_language : list factory :=
  [FRoute (Spec (lit "/") false [(lit "lang", VStr (lit "en"))] None false (lit "home") None NoRedirect false None);
   FRoute (ex_spec (lit "/<lang>/") (lit "home"));
   FRoute (Spec (lit "/index") true [(lit "lang", VStr (lit "de"))] None false (lit "home") None NoRedirect true None)].
Example C62_example :
  let a := ex_adapter (ex_map ex_language) in
  made ex_mk ex_config (a_map a) /\
  snd (match_path yes yes a (lit "/de") (lit "q=1")) = Ok (Redirect (lit "http://example.com/de/?q=1")) /\
  snd (match_path yes yes a (lit "////evil.com") []) = Ok (Redirect (lit "http://example.com/evil.com/")) /\
  snd (match_path yes yes a (lit "/index") []) = Ok (Redirect (lit "http://example.com/de/")).
Proof. split; [apply made_first; vm_compute; reflexivity|]. vm_compute. repeat split. Qed.
(** Not every redirect has a slash after the host, and a redirect_to with a placeholder
    may lead anywhere: "/go/<path:to>" with redirect_to "<to>". *)
Theorem C62_refuted :
  (exists mk g a, made mk g (a_map a) /\ a_server a = lit "example.com" /\
     snd (match_path yes yes a (lit "/en/") []) = Ok (Redirect (lit "http://example.com"))) /\
  (exists mk g a, made mk g (a_map a) /\ a_server a = lit "example.com" /\
     snd (match_path yes yes a (lit "/go/http://evil.com/x") []) = Ok (Redirect (lit "http://evil.com/x"))).
Proof.
  split.
  - exists ex_mk, ex_config, (ex_adapter (ex_map ex_language)).
    split; [apply made_first; vm_compute; reflexivity|]. split; vm_compute; reflexivity.
  - exists ex_mk, ex_config, (ex_adapter (ex_map [FRoute (Spec (lit "/go/<path:to>") true [] None false (lit "go") None (RedirectText (lit "<to>")) false None)])).
    split; [apply made_first; vm_compute; reflexivity|]. split; vm_compute; reflexivity.
Qed.
Print Assumptions C62_refuted.
(** With an empty server name and scheme the path is the URL; a Host header may make a
    subdomain with a slash in it. *)
Example C62_finding_no_server :
  let a := Adapter (ex_map [FRoute (ex_spec (lit "/<path:p>/") (lit "e"))]) [] [47] (Some []) [] in
  snd (match_path yes yes a (lit "/http://evil.com") []) = Ok (Redirect (lit "http://evil.com/")) /\
  split_subdomain (lit "example.com") (lit "evil.com/.example.com") = lit "evil.com/".
Proof. vm_compute. repeat split. Qed.

(** ** C63 *)
(** Each factory yields what its factories yield, in order, and changes one field only;
    the routes must begin with a slash, as all routes made by the constructor do. *)
Theorem C63_subdomain : forall x l r, get_routes (FSubdomain x l) = (r, None) <-> exists specs, yields l specs /\
  Forall2 (fun s s' => (exists u, s_string s = 47 :: u) /\ same_but_subdomain s s' /\ s_subdomain s' = Some x /\ leaf_ok s') specs r.
Proof. exact subdomain_routes. Qed.
Print Assumptions C63_subdomain.
Theorem C63_submount : forall path base s l r, path = base ++ s -> slashes s -> (forall u, base <> u ++ [47]) ->
  get_routes (FSubmount path l) = (r, None) <-> exists specs, yields l specs /\
  Forall2 (fun s s' => (exists u, s_string s = 47 :: u) /\ same_but_string s s' /\ s_string s' = base ++ s_string s /\ leaf_ok s') specs r.
Proof.
  intros path base s l r -> Hs Hb. pose proof (submount_routes (base ++ s) l r) as H.
  assert (E : rstrip_by is_slash (base ++ s) = base).
  { rewrite rstrip_by_app by (apply slashes_forall; auto). apply rstrip_by_id. intros c v ->. destruct (is_slash c) eqn:Ec; auto.
    apply slash_char in Ec as ->. exfalso. exact (Hb v eq_refl). }
  rewrite E in H. exact H.
Qed.
Print Assumptions C63_submount.
Theorem C63_endpoint_prefix : forall p l r, get_routes (FEndpointPrefix p l) = (r, None) <-> exists specs, yields l specs /\
  Forall2 (fun s s' => (exists u, s_string s = 47 :: u) /\ same_but_endpoint s s' /\ s_endpoint s' = p ++ s_endpoint s /\ leaf_ok s') specs r.
Proof. exact prefix_routes. Qed.
Print Assumptions C63_endpoint_prefix.
(** A template formats four fields, and drops redirect_to, alias and host (see the
    refutation). *)
Theorem C63_template_partial : forall fmt l r, get_routes (FTemplate fmt l) = (r, None) <->
  exists specs, yields l specs /\ Forall2 (template_of fmt) specs r.
Proof. exact template_routes. Qed.
Print Assumptions C63_template_partial.
Example C63_example :
  get_routes (FSubdomain (lit "kb") [FSubmount (lit "/base//") [FRoute (ex_spec (lit "/") (lit "index"));
                                      FEndpointPrefix (lit "blog.") [FRoute (ex_spec (lit "/<id>") (lit "show"))]];
                                     FRoute (ex_spec (lit "/x") (lit "x"))]) =
  ([Spec (lit "/base/") false [] (Some (lit "kb")) false (lit "index") None NoRedirect false None;
    Spec (lit "/base/<id>") true [] (Some (lit "kb")) false (lit "blog.show") None NoRedirect false None;
    Spec (lit "/x") true [] (Some (lit "kb")) false (lit "x") None NoRedirect false None], None).
Proof. vm_compute. reflexivity. Qed.
Theorem C63_refuted : exists s s', get_routes (FTemplate (fun t => Ok t) [FRoute s]) = ([s'], None) /\
  s_alias s = true /\ s_alias s' = false /\ s_host s = Some (lit "h") /\ s_host s' = None /\
  s_redirect s = RedirectText (lit "/y") /\ s_redirect s' = NoRedirect.
Proof.
  exists (Spec (lit "/x") true [] None false (lit "x") None (RedirectText (lit "/y")) true (Some (lit "h"))).
  eexists. split; [vm_compute; reflexivity|]. repeat split.
Qed.
Print Assumptions C63_refuted.

(** ** C65 *)
(** The routes of the endpoint are tried in build order; the first that is suitable and
    does not give up decides; BuildError comes when there is none. *)
Theorem C65_build_partial : forall ip_ok nfkc_ok mk g a e vals values external au, made mk g (a_map a) -> given vals values ->
  exists l, Permutation l (filter (fun b => eqs (r_endpoint (b_route b)) e) (m_routes (a_map a))) /\
    StronglySorted (fun x y => build_before (b_route x) (b_route y) \/
      (same_build_priority (b_route x) (b_route y) /\ (b_id x < b_id y)%nat)) l /\
    ((snd (build ip_ok nfkc_ok a e vals external au) = Raise BuildError /\ forall b, In b l -> refused values au b) \/
     exists l1 b l2, l = l1 ++ b :: l2 /\ (forall x, In x l1 -> refused values au x) /\ suits (b_route b) values /\
       ((exists d path, route_build (b_route b) values au = Ok (Some (d, path)) /\
          (a_scheme a <> [] -> ends [47] (a_script a) = true -> get_host a (Some d) <> [] ->
           (g_host_matching (m_config (a_map a)) = false -> a_subdomain a <> None) ->
           addressed ip_ok nfkc_ok a external d path (snd (build ip_ok nfkc_ok a e vals external au)))) \/
        (exists x, route_build (b_route b) values au = Raise x /\ snd (build ip_ok nfkc_ok a e vals external au) = Raise x))).
Proof. exact build_cases. Qed.
Print Assumptions C65_build_partial.
Definition ex_build_map : list factory :=
  [FRoute (ex_spec (lit "/") (lit "blog")); FRoute (ex_spec (lit "/<int:year>/") (lit "blog")); FRoute (ex_spec (lit "/<int:year>/<slug>") (lit "blog"))].
Example C65_example :
  let a := ex_adapter (ex_map ex_build_map) in
  made ex_mk ex_config (a_map a) /\
  snd (build yes yes a (lit "blog") [] false true) = Ok (lit "/") /\
  snd (build yes yes a (lit "blog") [(lit "year", Some (VInt 2014)); (lit "slug", None)] false true) = Ok (lit "/2014/") /\
  snd (build yes yes a (lit "blog") [(lit "year", Some (VInt 2014)); (lit "slug", Some (VStr (lit "a b")))] true true) = Ok (lit "http://example.com/2014/a%20b") /\
  snd (build yes yes a (lit "other") [] false true) = Raise BuildError.
Proof. split; [apply made_first; vm_compute; reflexivity|]. vm_compute. repeat split. Qed.
(** A variable with a default is not needed for being suitable, but building needs it: a
    KeyError instead of BuildError, although the next route would do. *)
Theorem C65_refuted : exists mk g a, made mk g (a_map a) /\
  (forall b, In b (m_routes (a_map a)) -> r_endpoint (b_route b) = lit "page" /\ suitable_for (b_route b) [] = true) /\
  (exists b path, In b (m_routes (a_map a)) /\ route_build (b_route b) [] true = Ok (Some ([], path))) /\
  snd (build yes yes a (lit "page") [] false true) = Raise KeyError.
Proof.
  pose (m := ex_map [FRoute (Spec (lit "/page/<n>") true [(lit "n", VStr (lit "1"))] None false (lit "page") None NoRedirect false None);
                     FRoute (ex_spec (lit "/pages") (lit "page"))]).
  exists ex_mk, ex_config, (ex_adapter m). split; [apply made_first; vm_compute; reflexivity|].
  split.
  - intros b Hb. assert (F : forallb (fun b => eqs (r_endpoint (b_route b)) (lit "page") && suitable_for (b_route b) []) (m_routes m) = true) by (vm_compute; reflexivity).
    rewrite forallb_forall in F. specialize (F b Hb). apply andb_true_iff in F as [F1 F2]. split; [apply eqs_eq; exact F1|exact F2].
  - split; [|vm_compute; reflexivity]. exists (nth 1 (m_routes m) (BRoute 0 (Route [] [] true true [] false false []) NoRedirect)), (lit "/pages").
    split; [apply nth_In; apply (Nat.ltb_lt 1); vm_compute; reflexivity|]. vm_compute. reflexivity.
Qed.
Print Assumptions C65_refuted.

(** ** C66 *)
Theorem C66_not_found : forall ip_ok nfkc_ok mk g a p q path, made mk g (a_map a) -> asked a p path ->
  snd (match_path ip_ok nfkc_ok a p q) = Ok NotFound <->
  forall b, In b (m_routes (a_map a)) -> route_match (g_redirect_defaults (m_config (a_map a))) (b_route b) path = Ok MNone.
Proof. intros ip_ok nfkc_ok mk g a p q path M A. apply asked_path in A. subst path. exact (not_found ip_ok nfkc_ok mk g a p q M). Qed.
Print Assumptions C66_not_found.
(** In terms of the texts that the routes stand for: not found if every route is
    build-only or has no instance that is the path; and where a route has one, only if the
    converters refuse an instance. *)
Theorem C66_not_found_texts : forall ip_ok nfkc_ok mk g a p q path, made mk g (a_map a) -> asked a p path ->
  (forall b, In b (m_routes (a_map a)) -> plain_route (b_route b)) ->
  ((forall b, In b (m_routes (a_map a)) -> r_build_only (b_route b) = true \/
      forall ts slash, ~ up_to_newline (instance (b_route b) ts slash) path) ->
   snd (match_path ip_ok nfkc_ok a p q) = Ok NotFound) /\
  (snd (match_path ip_ok nfkc_ok a p q) = Ok NotFound ->
   forall b ts slash, In b (m_routes (a_map a)) -> r_build_only (b_route b) = false -> up_to_newline (instance (b_route b) ts slash) path ->
   exists ts' slash', up_to_newline (instance (b_route b) ts' slash') path /\ refuses (route_vars (b_route b)) ts').
Proof.
  intros ip_ok nfkc_ok mk g a p q path M A P. split.
  - intros H. apply (C66_not_found ip_ok nfkc_ok mk g a p q path M A). intros b Hb. destruct (H b Hb) as [Hbo|Hno].
    + unfold route_match. rewrite Hbo. reflexivity.
    + apply route_match_no_instance; auto.
  - intros H b ts slash Hb Hbo Hi. eapply route_match_none; eauto. apply (C66_not_found ip_ok nfkc_ok mk g a p q path M A); auto.
Qed.
Print Assumptions C66_not_found_texts.
(** What is found is a registered route that is not build-only, with the values of its
    match. *)
Theorem C66_found : forall ip_ok nfkc_ok mk g a p q path b values, made mk g (a_map a) -> asked a p path ->
  snd (match_path ip_ok nfkc_ok a p q) = Ok (Found b values) ->
  In b (m_routes (a_map a)) /\ r_build_only (b_route b) = false /\ b_redirect b = NoRedirect /\
  route_match (g_redirect_defaults (m_config (a_map a))) (b_route b) path = Ok (MValues values).
Proof.
  intros ip_ok nfkc_ok mk g a p q path b values M A H. apply asked_path in A. subst path.
  destruct (found ip_ok nfkc_ok a p q b values H) as (C & Hm & Hn). pose proof (best_in _ _ _ _ (chosen_best _ _ _ _ _ _ M C)) as Hi.
  split; [exact Hi|]. split; [|auto]. unfold route_match in Hm. destruct (r_build_only (b_route b)); [discriminate|auto].
Qed.
Print Assumptions C66_found.
(** Registered are exactly the routes that the factories yield. *)
Theorem C66_registered : forall mk m fs m', add_routes mk m fs = (m', None) ->
  m_config m' = m_config m /\
  exists specs new, yields fs specs /\ m_routes m' = m_routes m ++ new /\ Forall2 (compiled mk (m_config m)) specs new.
Proof. intros mk m fs m'. exact (add_factories_routes mk fs m m'). Qed.
Print Assumptions C66_registered.
Example C66_example :
  let a := ex_adapter (ex_map [FRoute (ex_spec (lit "/a") (lit "a")); FRoute (Spec (lit "/b") true [] None true (lit "b") None NoRedirect false None)]) in
  made ex_mk ex_config (a_map a) /\
  endpoint_of (match_path yes yes a (lit "/a") []) = Some (lit "a") /\
  snd (match_path yes yes a (lit "/b") []) = Ok NotFound /\ snd (match_path yes yes a (lit "/c") []) = Ok NotFound /\
  snd (build yes yes a (lit "b") [] false true) = Ok (lit "/b").
Proof. split; [apply made_first; vm_compute; reflexivity|]. vm_compute. repeat split. Qed.

(** ** C59, with an adapter *)
(** A value with dot segments does not survive the resolution of the relative URL. *)
Theorem C59_adapter_refuted : exists mk g a, made mk g (a_map a) /\
  faithful conv_path (VStr (lit "a/../b")) (lit "a/../b") /\
  snd (build yes yes a (lit "e") [(lit "p", Some (VStr (lit "a/../b")))] false true) = Ok (lit "/x/b") /\
  match snd (match_path yes yes a (lit "/x/b") []) with Ok (Found _ values) => values = [(lit "p", VStr (lit "b"))] | _ => False end.
Proof.
  exists ex_mk, ex_config, (ex_adapter (ex_map [FRoute (ex_spec (lit "/x/<path:p>") (lit "e"))])).
  split; [apply made_first; vm_compute; reflexivity|]. split.
  - apply base_faithful; [apply lang_path; exists 97, (lit "/../b"); repeat split; [lia|vm_compute; intuition lia]|].
    intros c Hc. vm_compute in Hc. repeat (destruct Hc as [<-|Hc]; [lia|]). destruct Hc.
  - split; vm_compute; reflexivity.
Qed.
Print Assumptions C59_adapter_refuted.
