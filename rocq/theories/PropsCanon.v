(** Theorems about redirects to canonical URLs (C73, C74). *)
From Coq Require Import Arith List NArith ZArith Bool Lia Permutation Sorted.
From Verif Require Import PyStr PyStrFacts Regex ModelUrls ModelRoute SpecRoute ModelUrlMap SpecUrlMap ProofUrlMap PropsUrlMap SpecCanon ProofCanon.
Import ListNotations.
Open Scope N_scope.

(** ** C73 *)
(** A route has matched with values.  If another route has the canonical URL for them the
    answer is a redirect to that URL (of several, the first for building); otherwise, or
    if redirect_defaults is off, the route is found with its values. *)
Theorem C73_defaults : forall ip_ok nfkc_ok mk g a p q b path values root, made mk g (a_map a) -> asked a p path ->
  let rd := g_redirect_defaults (m_config (a_map a)) in
  best rd path (m_routes (a_map a)) b -> route_match rd (b_route b) path = Ok (MValues values) ->
  (forall r, In r (m_routes (a_map a)) -> NoDup (map fst (r_defaults (b_route r)))) ->
  a_scheme a <> [] -> root_of (a_script a) root ->
  (rd = false \/ (forall r, In r (m_routes (a_map a)) -> ~ canonical values b r) ->
     b_redirect b = NoRedirect -> snd (match_path ip_ok nfkc_ok a p q) = Ok (Found b values)) /\
  (rd = true -> (exists r, In r (m_routes (a_map a)) /\ canonical values b r) ->
   exists r vals, In r (m_routes (a_map a)) /\ canonical values b r /\
     (forall r', In r' (m_routes (a_map a)) -> canonical values b r' -> r' = r \/ precedes r r') /\
     with_defaults values (r_defaults (b_route r)) vals /\
     match route_build (b_route r) vals true with
     | Ok (Some (d, x)) => forall host, target_host a d host -> host <> [] ->
         exists u, landing a d x q u /\ snd (match_path ip_ok nfkc_ok a p q) = Ok (Redirect u)
     | Ok None => snd (match_path ip_ok nfkc_ok a p q) = Raise TypeError
     | Raise e => snd (match_path ip_ok nfkc_ok a p q) = Raise e
     end).
Proof. exact default_canonical. Qed.
Print Assumptions C73_defaults.
Example C73_example :
  let l := [FRoute (Spec (lit "/all/") false [(lit "page", VInt 1)] None false (lit "all") None NoRedirect false None);
            FRoute (ex_spec (lit "/all/page/<int:page>") (lit "all"))] in
  let a := ex_adapter (ex_map l) in
  made ex_mk ex_config (a_map a) /\ g_redirect_defaults ex_config = true /\
  snd (match_path yes yes a (lit "/all/page/1") (lit "q=1")) = Ok (Redirect (lit "http://example.com/all/?q=1")) /\
  endpoint_of (match_path yes yes a (lit "/all/page/2") []) = Some (lit "all") /\
  endpoint_of (match_path yes yes a (lit "/all/") []) = Some (lit "all").
Proof. split; [apply made_first; vm_compute; reflexivity|]. vm_compute. repeat split. Qed.

(** ** C74 *)
(** An alias has matched.  The answer is a redirect to what building the URL for the
    endpoint and the values gives: the first suitable route for building, and canonical
    routes are tried before aliases. *)
Theorem C74_alias_partial : forall ip_ok nfkc_ok mk g a p q b path values, made mk g (a_map a) -> asked a p path ->
  let rd := g_redirect_defaults (m_config (a_map a)) in
  best rd path (m_routes (a_map a)) b -> route_match rd (b_route b) path = Ok (MAlias values) ->
  a_scheme a <> [] -> ends [47] (a_script a) = true ->
  (g_host_matching (m_config (a_map a)) = false -> a_subdomain a <> None) ->
  (snd (match_path ip_ok nfkc_ok a p q) = Raise BuildError /\
     forall r, In r (m_routes (a_map a)) -> r_endpoint (b_route r) = r_endpoint (b_route b) -> refused values false r) \/
  exists r, In r (m_routes (a_map a)) /\ r_endpoint (b_route r) = r_endpoint (b_route b) /\ suits (b_route r) values /\
    (forall r', In r' (m_routes (a_map a)) -> r_endpoint (b_route r') = r_endpoint (b_route b) -> precedes r' r -> refused values false r') /\
    match route_build (b_route r) values false with
    | Ok (Some (d, x)) => forall host, target_host a d host -> host <> [] -> exists u, addressed ip_ok nfkc_ok a true d x (Ok u) /\
        snd (match_path ip_ok nfkc_ok a p q) =
          (if eqs (u ++ query_suffix q) path then Raise AssertionError else Ok (Redirect (u ++ query_suffix q)))
    | Ok None => False
    | Raise e => snd (match_path ip_ok nfkc_ok a p q) = Raise e
    end.
Proof. exact alias_canonical. Qed.
Print Assumptions C74_alias_partial.
Theorem C74_canonical_first : forall x y, r_alias (b_route x) = false -> r_alias (b_route y) = true -> precedes x y.
Proof. intros x y H1 H2. left. apply bb_alias; auto. Qed.
Print Assumptions C74_canonical_first.
Definition ex_alias (string endpoint : str) : spec := Spec string (negb (ends [47] string)) [] None false endpoint None NoRedirect true None.
Example C74_example :
  let a := ex_adapter (ex_map [FRoute (ex_alias (lit "/users.html") (lit "users")); FRoute (ex_spec (lit "/users/") (lit "users"))]) in
  made ex_mk ex_config (a_map a) /\
  snd (match_path yes yes a (lit "/users.html") (lit "q=1")) = Ok (Redirect (lit "http://example.com/users/?q=1")) /\
  endpoint_of (match_path yes yes a (lit "/users/") []) = Some (lit "users").
Proof. split; [apply made_first; vm_compute; reflexivity|]. vm_compute. repeat split. Qed.
(** The assertion against an alias without a canonical route compares the URL with
    "subdomain|/path", so it does not fire: such an alias redirects to itself for ever. *)
Theorem C74_refuted : exists mk g a, made mk g (a_map a) /\
  (forall b, In b (m_routes (a_map a)) -> r_alias (b_route b) = true) /\
  snd (match_path yes yes a (lit "/users") []) = Ok (Redirect (lit "http://example.com/users")).
Proof.
  exists ex_mk, ex_config, (ex_adapter (ex_map [FRoute (ex_alias (lit "/users") (lit "users"))])).
  split; [apply made_first; vm_compute; reflexivity|]. split; [|vm_compute; reflexivity].
  intros b Hb. assert (F : forallb (fun b => r_alias (b_route b)) (m_routes (ex_map [FRoute (ex_alias (lit "/users") (lit "users"))])) = true) by (vm_compute; reflexivity).
  rewrite forallb_forall in F. apply F. exact Hb.
Qed.
Print Assumptions C74_refuted.
