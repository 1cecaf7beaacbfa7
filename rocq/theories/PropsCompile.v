(** C57: which route a template becomes when it is added to a map, and when it is refused. *)
From Coq Require Import List NArith ZArith Bool Lia.
From Verif Require Import PyStr PyStrFacts ModelRoute SpecRoute ModelUrlMap SpecCompile ProofCompile PropsUrlMap.
Import ListNotations.
Open Scope N_scope.

(** The pieces of domain and path, with the converters that were made for them, are the
    route; unless it is for building only, names that clash are refused. *)
Theorem C57_route : forall mk g s dt pt dps pps dp pp, domain_text g s dt -> path_text s pt ->
  parse_route dt = Ok dps -> parse_route pt = Ok pps -> Forall2 (piece_for mk) dps dp -> Forall2 (piece_for mk) pps pp ->
  (s_build_only s = true \/ ~ clash g s (raw_vars dps ++ raw_vars pps) ->
     compile_route mk g s = Ok (Route dp pp (s_leaf s) (is_strict g s) (s_defaults s) (s_build_only s) (s_alias s) (s_endpoint s))) /\
  (s_build_only s = false -> clash g s (raw_vars dps ++ raw_vars pps) -> compile_route mk g s = Raise ReError).
Proof. exact route_compiled. Qed.
Print Assumptions C57_route.

(** Nothing else becomes a route and nothing else is refused: every answer is explained by
    the templates, the converters and the names. *)
Theorem C57_route_answers : forall mk g s, exists dt pt, domain_text g s dt /\ path_text s pt /\
  match compile_route mk g s with
  | Ok r => exists dps pps, parse_route dt = Ok dps /\ parse_route pt = Ok pps /\
      Forall2 (piece_for mk) dps (r_domain r) /\ Forall2 (piece_for mk) pps (r_path r) /\
      (s_build_only s = false -> ~ clash g s (raw_vars dps ++ raw_vars pps))
  | Raise e => parse_route dt = Raise e \/ parse_route pt = Raise e \/
      (exists ps conv args v, (parse_route dt = Ok ps \/ parse_route pt = Ok ps) /\ In (Dynamic conv args v) ps /\ mk conv args = Raise e) \/
      (e = ReError /\ s_build_only s = false /\ exists dps pps, parse_route dt = Ok dps /\ parse_route pt = Ok pps /\ clash g s (raw_vars dps ++ raw_vars pps))
  end.
Proof. exact compile_answers. Qed.
Print Assumptions C57_route_answers.

Definition branch_at (sub path : str) (build_only : bool) : spec :=
  Spec path false [] (Some sub) build_only (lit "e") None NoRedirect false None.
Definition names_of (x : res route) : res (list str) := match x with Ok r => Ok (var_names r) | Raise e => Raise e end.
Example C57_route_example :
  names_of (compile_route ex_mk ex_config (branch_at (lit "<user>") (lit "/blog/<int:page>//") false)) = Ok [lit "user"; lit "page"] /\
  names_of (compile_route ex_mk ex_config (branch_at (lit "<page>") (lit "/blog/<int:page>/") false)) = Raise ReError /\
  names_of (compile_route ex_mk ex_config (branch_at [] (lit "/<__suffix__>/") false)) = Raise ReError /\
  names_of (compile_route ex_mk ex_config (branch_at (lit "<page>") (lit "/blog/<int:page>/") true)) = Ok [lit "page"; lit "page"] /\
  names_of (compile_route ex_mk ex_config (branch_at [] (lit "/<hex:page>/") false)) = Raise LookupError /\
  path_text (branch_at [] (lit "/blog/<int:page>//") false) (lit "/blog/<int:page>").
Proof. rewrite path_unique. vm_compute. repeat split. Qed.
