(** Vocabulary for the claims about canonical URLs. *)
From Coq Require Import List NArith ZArith Bool.
From Verif Require Import PyStr ModelUrls ModelRoute ModelUrlMap SpecUrlMap.
Import ListNotations.
Open Scope N_scope.

(** [x] comes before [y] when routes are tried for building. *)
Definition precedes (x y : broute) : Prop :=
  build_before (b_route x) (b_route y) \/
  (same_build_priority (b_route x) (b_route y) /\ lt (b_id x) (b_id y)).
(** The whole template: domain, bar, path, and the slash of a branch. *)
Definition template (r : route) : list piece :=
  r_domain r ++ PStatic (lit "|") :: r_path r ++ (if r_leaf r then [] else [PStatic (lit "/")]).
Inductive alike : piece -> piece -> Prop :=
| al_static s : alike (PStatic s) (PStatic s)
| al_var n c c' : alike (PVar n c) (PVar n c').
(** [r] has the canonical URL for what [b] matched with [values]: it comes first for
    building, can be matched, has defaults, is another template of the same endpoint for
    the same names, and the values suit it. *)
Record canonical (values : dict value) (b r : broute) : Prop := {
  ca_precedes : precedes r b;
  ca_matched : r_build_only (b_route r) = false;
  ca_defaults : r_defaults (b_route r) <> [];
  ca_endpoint : r_endpoint (b_route r) = r_endpoint (b_route b);
  ca_template : ~ Forall2 alike (template (b_route r)) (template (b_route b));
  ca_names : forall k, takes (b_route r) k <-> takes (b_route b) k;
  ca_suits : suits (b_route r) values }.
(** The values with the defaults in place. *)
Definition with_defaults (values defaults vals : dict value) : Prop :=
  forall k, dget vals k = match dget defaults k with Some v => Some v | None => dget values k end.
(** The address of a redirect to a domain part and a path; to the top without a path there
    is no slash after the host. *)
Inductive landing (a : adapter) (d path q : str) : str -> Prop :=
| la_top host : target_host a d host -> host <> [] -> root_of (a_script a) [47] -> slashes path ->
    landing a d path q (a_scheme a ++ lit "://" ++ host ++ query_suffix q)
| la_path host root rel : target_host a d host -> host <> [] -> root_of (a_script a) root -> relative path rel ->
    root <> [47] \/ rel <> [] -> landing a d path q (a_scheme a ++ lit "://" ++ host ++ root ++ rel ++ query_suffix q).
