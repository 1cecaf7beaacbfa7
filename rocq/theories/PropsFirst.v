(** Which of several ways to read a path a route takes. *)
From Coq Require Import Arith List NArith ZArith Bool Lia.
From Verif Require Import PyStr PyStrFacts Regex ModelRoute SpecRoute ProofRoute SpecFirst ProofFirst.
Import ListNotations.
Open Scope N_scope.

(** ** C119 *)
(** If the path can be read as an instance of the route at all, one way of reading it is
    better than all others: at the first variable at which another way differs, the
    string, int, float and uuid converters have the longer text, path the shorter one,
    and any the item listed first. *)
Theorem C119_choice : forall r hs path ts slash, habits r hs -> up_to_newline (instance r ts slash) path ->
  exists ts' slash', chosen r hs path ts' slash' /\
    forall ts2 slash2, chosen r hs path ts2 slash2 -> ts2 = ts' /\ slash2 = slash'.
Proof.
  intros r hs path ts slash H I. destruct (chosen_exists r hs path ts slash H I) as (ts' & slash' & C).
  exists ts', slash'. split; [exact C|]. intros ts2 slash2 C2. exact (chosen_unique r hs path _ _ _ _ C2 C).
Qed.
Print Assumptions C119_choice.
(** That way alone decides what Route.match answers: the request for the missing slash
    of a strict branch; the values that the converters make of its texts, overridden by
    the defaults; or no match if one of the converters refuses its text. *)
Theorem C119_outcome : forall rd r hs path ts slash, habits r hs -> r_build_only r = false -> NoDup (map fst (r_defaults r)) ->
  chosen r hs path ts slash ->
  (r_strict r = true -> r_leaf r = false -> slash = [] -> route_match rd r path = Ok MSlash) /\
  ((r_strict r = true -> r_leaf r = false -> slash = [47]) ->
     (forall vals, reads (route_vars r) ts vals ->
        exists d, route_match rd r path = Ok (if r_alias r && rd then MAlias d else MValues d) /\
          forall k, dget d k = match dget (r_defaults r) k with Some v => Some v | None => dget vals k end) /\
     (refuses (route_vars r) ts -> route_match rd r path = Ok MNone)).
Proof. exact chosen_outcome. Qed.
Print Assumptions C119_outcome.

(** "/<a>-<b>", "/<path:a>/<path:b>", "/<any(a, ab):x><y>" *)
Definition leaf_route (l : list piece) : route := Route [] l true true [] false false (lit "e").
Definition ex_dash : route :=
  leaf_route [PStatic (lit "/"); PVar (lit "a") (conv_string 1 None); PStatic (lit "-"); PVar (lit "b") (conv_string 1 None)].
Definition ex_paths : route :=
  leaf_route [PStatic (lit "/"); PVar (lit "a") conv_path; PStatic (lit "/"); PVar (lit "b") conv_path].
Definition ex_any : route :=
  leaf_route [PStatic (lit "/"); PVar (lit "x") (conv_any [lit "a"; lit "ab"]); PVar (lit "y") (conv_string 1 None)].

Example C119_example :
  habits ex_dash [Longest; Longest] /\ chosen ex_dash [Longest; Longest] (lit "|/x-y-z") [lit "x-y"; lit "z"] [] /\
  up_to_newline (instance ex_dash [lit "x"; lit "y-z"] []) (lit "|/x-y-z") /\
  route_match false ex_dash (lit "|/x-y-z") = Ok (MValues [(lit "a", VStr (lit "x-y")); (lit "b", VStr (lit "z"))]) /\
  route_match false ex_paths (lit "|/p/q/r") = Ok (MValues [(lit "a", VStr (lit "p")); (lit "b", VStr (lit "q/r"))]) /\
  route_match false ex_any (lit "|/abc") = Ok (MValues [(lit "x", VStr (lit "a")); (lit "y", VStr (lit "bc"))]).
Proof.
  assert (H : habits ex_dash [Longest; Longest]).
  { unfold habits. cbn [ex_dash leaf_route route_vars piece_vars flat_map r_domain r_path app].
    apply Forall2_cons; [apply (bi_string 1 None)|]. apply Forall2_cons; [apply (bi_string 1 None)|]. apply Forall2_nil. }
  split; [exact H|]. split.
  { destruct (re_match (route_regex ex_dash) (lit "|/x-y-z")) as [m|] eqn:E; [|vm_compute in E; discriminate].
    assert (Ec : s_caps m = [(2%nat, lit "z"); (1%nat, lit "x-y")]) by (vm_compute in E; inversion E; reflexivity).
    destruct (re_match_first _ _ _ _ H E) as (ts & slash & C & Hl & Hc). rewrite Ec in Hc.
    destruct ts as [|t1 [|t2 [|t3 ts]]]; try discriminate Hl. cbn in Hc. injection Hc as <- <-.
    assert (slash = []) as ->; [|exact C].
    destruct C as [[I|(p & _ & I)] _]; inversion I as [q A B T|s q A B T]; auto; cbn in A; destruct A; discriminate. }
  split.
  { left. apply in_exact; auto. exists [], [lit "x"; lit "y-z"], [], (lit "/x-y-z"). split; [constructor|]. split; [|split; reflexivity].
    apply (fi_static (lit "/") _ _ (lit "x-y-z")). apply (fi_var _ _ _ (lit "x") _ (lit "-y-z")).
    - apply lang_string; [discriminate|]. cbn. split; [intros [E|[]]; discriminate|]. split; [auto|discriminate].
    - apply (fi_static (lit "-") _ _ (lit "y-z")). apply (fi_var _ _ _ (lit "y-z") _ []); [|constructor].
      apply lang_string; [discriminate|]. cbn. split; [intros [E|[E|[E|[]]]]; discriminate|]. split; [auto with arith|discriminate]. }
  vm_compute. auto.
Qed.
(** The choice is made before the converters look at the texts, and there is no second
    try: "/<int(max=9):a><int:b>" refuses "123" because [a] takes "12", although 1 and
    23 would do. *)
Definition ex_digits : route :=
  leaf_route [PStatic (lit "/"); PVar (lit "a") (conv_int 0 None (Some 9%Z)); PVar (lit "b") (conv_int 0 None None)].
Example C119_finding_no_second_try :
  (exists vals, reads (route_vars ex_digits) [lit "1"; lit "23"] vals) /\
  up_to_newline (instance ex_digits [lit "1"; lit "23"] []) (lit "|/123") /\
  route_match false ex_digits (lit "|/123") = Ok MNone.
Proof.
  split; [|split].
  - exists [(lit "a", VInt 1); (lit "b", VInt 23)]. repeat (apply re_var; [vm_compute; reflexivity|]). apply re_nil.
  - left. apply in_exact; auto. exists [], [lit "1"; lit "23"], [], (lit "/123"). split; [constructor|]. split; [|split; reflexivity].
    apply (fi_static (lit "/") _ _ (lit "123")). apply (fi_var _ _ _ (lit "1") _ (lit "23")).
    + apply lang_int. split; [discriminate|vm_compute; reflexivity].
    + apply (fi_var _ _ _ (lit "23") _ []); [|constructor]. apply lang_int. split; [discriminate|vm_compute; reflexivity].
  - vm_compute. reflexivity.
Qed.
