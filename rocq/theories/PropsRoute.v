(** Claims about route templates, converters and single routes (C57-C59, C61, C64). *)
From Coq Require Import List NArith ZArith Bool Lia.
From Verif Require Import PyStr Regex Utf8 ModelUrls SpecUrls ProofUrls ModelRoute SpecRoute ProofRoute.
Import ListNotations.
Open Scope N_scope.

(** ** C57 *)
Theorem C57_parsed_completely : forall t ps, parse_route t = Ok ps -> renders ps t /\ NoDup (raw_vars ps).
Proof. exact parse_sound. Qed.
Print Assumptions C57_parsed_completely.
Theorem C57_only_value_error : forall t e, parse_route t = Raise e -> e = ValueError.
Proof. exact parse_error. Qed.
Print Assumptions C57_only_value_error.
(** Templates are not rejected for nothing. *)
Theorem C57_accepts : forall ps t, renders ps t -> readable ps -> NoDup (raw_vars ps) -> parse_route t = Ok ps.
Proof. exact parse_complete. Qed.
Print Assumptions C57_accepts.

Example C57_example :
  parse_route (lit "/blog/<int(min=1):id>/<slug>/x") =
    Ok [Static (lit "/blog/"); Dynamic (lit "int") (Some (lit "min=1")) (lit "id"); Static (lit "/");
        Dynamic (lit "default") None (lit "slug"); Static (lit "/x")] /\
  parse_route (lit "/<a>/<int:a>") = Raise ValueError /\
  parse_route (lit "/<int:>") = Raise ValueError.
Proof. vm_compute. auto. Qed.
(** A stray closing bracket is an error at the end of the template only, and the
    arguments of a converter may run over its end. *)
Example C57_finding_stray_bracket :
  parse_route (lit "/a>b") = Raise ValueError /\
  parse_route (lit "/a>b/<x>") = Ok [Static (lit "/a>b/"); Dynamic (lit "default") None (lit "x")] /\
  parse_route (lit "/<a(x):b>/<c(y):d>") = Ok [Static (lit "/"); Dynamic (lit "a") (Some (lit "x")) (lit "b"); Static (lit "/");
     Dynamic (lit "c") (Some (lit "y")) (lit "d")] /\
  parse_route (lit "/<a(x):1>/<c(y):d>") = Ok [Static (lit "/"); Dynamic (lit "a") (Some (lit "x):1>/<c(y")) (lit "d")].
Proof. vm_compute. auto. Qed.

(** ** C58 *)
(** A result with values: up to one final newline (see below) the path is the route's
    static text with the variables replaced by texts of their converters, and the values
    are what the converters make of exactly those texts, overridden by the defaults.  A
    build-only route never matches. *)
Theorem C58_values_partial : forall rd r path res d, plain_route r -> NoDup (map fst (r_defaults r)) ->
  route_match rd r path = Ok res -> res = MValues d \/ res = MAlias d ->
  r_build_only r = false /\
  exists ts slash vals, up_to_newline (instance r ts slash) path /\
    (r_strict r = true -> r_leaf r = false -> slash = [47]) /\
    reads (route_vars r) ts vals /\
    forall k, dget d k = match dget (r_defaults r) k with Some v => Some v | None => dget vals k end.
Proof. intros rd r path res d P N H [-> | ->]; exact (route_match_sound rd r path _ P N H). Qed.
Print Assumptions C58_values_partial.

(** Without a final newline in the path the claim holds as it stands. *)
Theorem C58_values : forall rd r path res d, plain_route r -> NoDup (map fst (r_defaults r)) ->
  (forall p, path <> p ++ [10]) ->
  route_match rd r path = Ok res -> res = MValues d \/ res = MAlias d ->
  exists ts slash vals, instance r ts slash path /\ reads (route_vars r) ts vals /\
    forall k, dget d k = match dget (r_defaults r) k with Some v => Some v | None => dget vals k end.
Proof.
  intros rd r path res d P N Hn H E.
  destruct (C58_values_partial rd r path res d P N H E) as (_ & ts & slash & vals & [I|(p & Hp & _)] & _ & R & G).
  - exists ts, slash, vals. auto.
  - exfalso. exact (Hn p Hp).
Qed.
Print Assumptions C58_values.

(** Conversely a path that is an instance of the route is not refused, unless one of
    the converters refuses its text; and no other path is accepted. *)
Theorem C58_complete : forall rd r path ts slash, plain_route r -> r_build_only r = false ->
  up_to_newline (instance r ts slash) path -> route_match rd r path = Ok MNone ->
  exists ts' slash', up_to_newline (instance r ts' slash') path /\ refuses (route_vars r) ts'.
Proof. exact route_match_none. Qed.
Print Assumptions C58_complete.
Theorem C58_no_instance : forall rd r path, plain_route r ->
  (forall ts slash, ~ up_to_newline (instance r ts slash) path) -> route_match rd r path = Ok MNone.
Proof. exact route_match_no_instance. Qed.
Print Assumptions C58_no_instance.
(** Where the texts of the variables can be told apart the outcome is determined: the
    values are those of the one way to read the path. *)
Theorem C58_separated : forall rd r path ts slash vals, plain_route r -> separated_route r -> r_build_only r = false ->
  (forall p, path <> p ++ [10]) -> instance r ts slash path -> reads (route_vars r) ts vals ->
  NoDup (map fst (r_defaults r)) -> (r_strict r = true -> r_leaf r = false -> slash = [47]) ->
  exists d, route_match rd r path = Ok (if r_alias r && rd then MAlias d else MValues d) /\
    forall k, dget d k = match dget (r_defaults r) k with Some v => Some v | None => dget vals k end.
Proof. exact route_match_values. Qed.
Print Assumptions C58_separated.

(** The languages of the built-in converters, all of them plain. *)
Theorem C58_builtin_plain :
  (forall mn mx, plain (c_regex (conv_string mn mx))) /\ (forall l, plain (c_regex (conv_any l))) /\
  plain (c_regex conv_path) /\ (forall f mn mx, plain (c_regex (conv_int f mn mx))) /\
  (forall f g, plain (c_regex (conv_float f g))) /\ plain (c_regex conv_uuid).
Proof. exact builtin_plain. Qed.
Print Assumptions C58_builtin_plain.
Theorem C58_string_language : forall mn mx u, (forall m, mx = Some m -> (mn <= m)%nat) ->
  lang (c_regex (conv_string mn mx)) u <->
  ~ In 47 u /\ (mn <= length u)%nat /\ forall m, mx = Some m -> (length u <= m)%nat.
Proof. exact lang_string. Qed.
Print Assumptions C58_string_language.
Theorem C58_any_language : forall items u,
  lang (c_regex (conv_any items)) u <-> In u items \/ (items = [] /\ u = []).
Proof. exact lang_any. Qed.
Print Assumptions C58_any_language.
Theorem C58_path_language : forall u,
  lang (c_regex conv_path) u <-> exists c r, u = c :: r /\ c <> 47 /\ ~ In 10 r.
Proof. exact lang_path. Qed.
Print Assumptions C58_path_language.
Theorem C58_uuid_language : forall t, lang (c_regex conv_uuid) t <->
  exists a b c d e, t = a ++ [45] ++ b ++ [45] ++ c ++ [45] ++ d ++ [45] ++ e /\
    length a = 8%nat /\ length b = 4%nat /\ length c = 4%nat /\ length d = 4%nat /\ length e = 12%nat /\
    forallb is_hex (a ++ b ++ c ++ d ++ e) = true.
Proof. exact lang_uuid. Qed.
Print Assumptions C58_uuid_language.

(** "/blog/<int:year>/<path:rest>" on the subdomain "<lang>", a leaf *)
Definition ex_leaf : route :=
  Route [PVar (lit "lang") (conv_string 1 None)]
        [PStatic (lit "/blog/"); PVar (lit "year") (conv_int 4 (Some 1990%Z) None); PStatic (lit "/");
         PVar (lit "rest") conv_path]
        true true [(lit "kind", VStr (lit "post"))] false false (lit "blog").
(** "/tags/<int:tag>/", a branch *)
Definition ex_branch : route :=
  Route [] [PStatic (lit "/tags/"); PVar (lit "tag") (conv_int 2 None None)] false true [] false false (lit "tag").
Lemma ex_leaf_plain : plain_route ex_leaf.
Proof.
  split; intros n c Hi; cbn in Hi; repeat (destruct Hi as [Hi|Hi]; [inversion Hi; subst; cbn; auto|]); destruct Hi.
Qed.
Lemma ex_branch_plain : plain_route ex_branch.
Proof.
  split; intros n c Hi; cbn in Hi; repeat (destruct Hi as [Hi|Hi]; [inversion Hi; subst; cbn; auto|]); destruct Hi.
Qed.

Example C58_example : plain_route ex_leaf /\
  route_match false ex_leaf (lit "en|/blog/2014/a/b.html") =
    Ok (MValues [(lit "lang", VStr (lit "en")); (lit "year", VInt 2014);
                 (lit "rest", VStr (lit "a/b.html")); (lit "kind", VStr (lit "post"))]) /\
  route_match false ex_leaf (lit "en|/blog/1980/a") = Ok MNone /\
  route_match false ex_leaf (lit "en|/blog/2014/") = Ok MNone.
Proof. split; [exact ex_leaf_plain|]. vm_compute. auto. Qed.
(** The expression ends in a dollar sign, which also matches before a final newline: the
    path is not the route's text. *)
Theorem C58_refuted : exists r path d ts slash, plain_route r /\
  route_match false r path = Ok (MValues d) /\ r_path r = [PStatic (lit "/about")] /\ r_domain r = [] /\
  path = lit "|/about" ++ [10] /\ ~ instance r ts slash path.
Proof.
  exists (Route [] [PStatic (lit "/about")] true true [] false false (lit "about")), (lit "|/about" ++ [10]), [], [], [].
  split; [split; intros n c Hi; cbn in Hi; repeat (destruct Hi as [Hi|Hi]; [discriminate|]); destruct Hi|].
  split; [vm_compute; reflexivity|]. split; [auto|]. split; [auto|]. split; [auto|]. intros I.
  inversion I as [q H1 H2 RT|s q H1 H2 H3 RT]; subst.
  - destruct RT as (tsd & tsp & d & p & Fd & Fp & Et & E). cbn [r_domain r_path] in *. inversion Fd; subst.
    apply fills_static in Fp as (v & Fp & ->). inversion Fp; subst. discriminate E.
  - destruct H1; discriminate.
Qed.
Print Assumptions C58_refuted.

(** ** C59, for one route *)
(** Whatever the route builds from values that its converters write faithfully, it
    matches again, after percent decoding, with the same values; the query string that
    carries the other values is cut off at the question mark. *)
Theorem C59_route : forall rd r values au dom url,
  plain_route r -> separated_route r -> open_end r -> r_build_only r = false -> NoDup (map fst (r_defaults r)) ->
  (forall s, In (PStatic s) (r_domain r) -> ~ In 124 s) ->
  (forall n c v, In (n, c) (route_vars r) -> dget values n = Some v -> exists t, faithful c v t) ->
  route_build r values au = Ok (Some (dom, url)) ->
  exists d p upath,
    decodes dom d /\ (~ In 37 dom -> d = dom) /\
    decodes upath p /\ ~ In 63 upath /\ ~ In 35 upath /\
    (url = upath \/ exists query, url = upath ++ 63 :: query) /\
    ((forall u, p <> u ++ [10]) ->
     exists vals, route_match rd r (d ++ 124 :: p) = Ok (if r_alias r && rd then MAlias vals else MValues vals) /\
       forall k, dget vals k = match dget (r_defaults r) k with
                               | Some v => Some v
                               | None => if existsb (eqs k) (var_names r) then dget values k else None
                               end).
Proof. exact build_match. Qed.
Print Assumptions C59_route.

(** The built-in converters write faithfully every value they accept. *)
Theorem C59_string_faithful : forall mn mx t, lang (c_regex (conv_string mn mx)) t -> unicode_text t ->
  faithful (conv_string mn mx) (VStr t) t.
Proof. intros mn mx t. exact (base_faithful _ _ t). Qed.
Print Assumptions C59_string_faithful.
Theorem C59_any_faithful : forall items t, In t items -> unicode_text t -> faithful (conv_any items) (VStr t) t.
Proof. intros items t H. apply base_faithful. apply lang_any. auto. Qed.
Print Assumptions C59_any_faithful.
Theorem C59_path_faithful : forall c r, c <> 47 -> ~ In 10 r -> unicode_text (c :: r) ->
  faithful conv_path (VStr (c :: r)) (c :: r).
Proof. intros c r H1 H2. apply base_faithful. apply lang_path. eauto. Qed.
Print Assumptions C59_path_faithful.
Theorem C59_int_faithful : forall fixed mn mx t v, accepts (conv_int fixed mn mx) t v ->
  exists q, faithful (conv_int fixed mn mx) v q.
Proof. exact int_faithful. Qed.
Print Assumptions C59_int_faithful.
Theorem C59_uuid_faithful : forall n, n < 2 ^ 128 -> faithful conv_uuid (VUuid n) (uuid_text n).
Proof. exact uuid_faithful. Qed.
Print Assumptions C59_uuid_faithful.

(** "/blog/<int:year>/<rest>" *)
Definition ex_build : route :=
  Route [PStatic (lit "en")]
        [PStatic (lit "/blog/"); PVar (lit "year") (conv_int 4 None None); PStatic (lit "/");
         PVar (lit "rest") (conv_string 1 None)]
        false true [] false false (lit "blog").
Lemma ex_build_ok : plain_route ex_build /\ separated_route ex_build /\ open_end ex_build.
Proof.
  split; [|split].
  - split; intros n c Hi; cbn in Hi; repeat (destruct Hi as [Hi|Hi]; [inversion Hi; subst; cbn; auto|]); destruct Hi.
  - unfold separated_route. cbn [ex_build r_domain r_path app]. apply se_static, se_static, se_static, se_var.
    + intros t L Hi. apply lang_int in L as [_ L]. rewrite forallb_forall in L. apply L in Hi. vm_compute in Hi. discriminate.
    + apply se_last.
  - right. eexists [_; _; _; _; _], _. split; [reflexivity|]. cbn iota. intros t L. apply lang_string in L as (H1 & H2 & _); [|discriminate].
    split; [intros ->; cbn in H2; lia|]. intros u ->. apply H1. apply in_or_app. right. left. auto.
Qed.
Example C59_example : plain_route ex_build /\ separated_route ex_build /\ open_end ex_build /\
  route_build ex_build [(lit "year", VInt 85); (lit "rest", VStr (lit "a b?")); (lit "page", VInt 2)] true =
    Ok (Some (lit "en", lit "/blog/0085/a%20b%3F/?page=2")) /\
  route_match false ex_build (lit "en|/blog/0085/a b?/") =
    Ok (MValues [(lit "year", VInt 85); (lit "rest", VStr (lit "a b?"))]).
Proof. destruct ex_build_ok as (H1 & H2 & H3). split; [auto|]. split; [auto|]. split; [auto|]. vm_compute. auto. Qed.
(** The hypotheses are needed: a path variable before the final slash may end in a slash
    itself, a string is written without a check of its language, and a number outside the
    bounds or with too many digits is written although it is not accepted. *)
Theorem C59_refuted :
  (exists r u p, plain_route r /\ separated_route r /\
     faithful conv_path (VStr (lit "a/")) (lit "a/") /\
     r = Route [] [PStatic (lit "/"); PVar (lit "x") conv_path] false true [] false false (lit "e") /\
     route_build r [(lit "x", VStr (lit "a/"))] true = Ok (Some ([], u)) /\ decodes u p /\
     route_match false r (124 :: p) = Ok MNone) /\
  (exists r u p, r = Route [] [PStatic (lit "/"); PVar (lit "x") (conv_string 1 None)] true true [] false false (lit "e") /\
     route_build r [(lit "x", VStr (lit "a/b"))] true = Ok (Some ([], u)) /\ decodes u p /\
     route_match false r (124 :: p) = Ok MNone).
Proof.
  assert (D : forall u, urlquote (lit "/:") u = Ok u -> decodes u u).
  { intros u H. destruct (urlquote_roundtrip _ _ _ (ltac:(vm_compute; intuition congruence) : ~ In 37 (lit "/:")) H) as (b & Hb & Hd).
    exists b. auto. }
  split.
  - exists (Route [] [PStatic (lit "/"); PVar (lit "x") conv_path] false true [] false false (lit "e")), (lit "/a//"), (lit "/a//").
    split; [split; intros n c Hi; cbn in Hi; repeat (destruct Hi as [Hi|Hi]; [inversion Hi; subst; cbn; auto|]); destruct Hi|].
    split; [unfold separated_route; cbn [r_domain r_path app]; repeat constructor|].
    split; [apply C59_path_faithful; [discriminate|cbn; intuition discriminate|intros c Hc; cbn in Hc; lia]|].
    split; [auto|]. split; [vm_compute; auto|]. split; [apply D; vm_compute; auto|vm_compute; auto].
  - exists (Route [] [PStatic (lit "/"); PVar (lit "x") (conv_string 1 None)] true true [] false false (lit "e")), (lit "/a/b"), (lit "/a/b").
    split; [auto|]. split; [vm_compute; auto|]. split; [apply D; vm_compute; auto|vm_compute; auto].
Qed.
Print Assumptions C59_refuted.

(** ** C61, for one route *)
(** A route that asks for its slash matches the path with the slash by the same texts,
    without asking again, if the converters accept them; the converters are not asked
    before the redirect. *)
Theorem C61_route_partial : forall rd r path, plain_route r -> NoDup (map fst (r_defaults r)) -> (forall p, path <> p ++ [10]) ->
  route_match rd r path = Ok MSlash ->
  r_build_only r = false /\ r_strict r = true /\ r_leaf r = false /\
  exists ts, instance r ts [] path /\ instance r ts [47] (path ++ [47]) /\
    route_match rd r (path ++ [47]) <> Ok MSlash /\
    (forall vals, reads (route_vars r) ts vals -> exists d,
       route_match rd r (path ++ [47]) = Ok (if r_alias r && rd then MAlias d else MValues d) /\
       forall k, dget d k = match dget (r_defaults r) k with Some v => Some v | None => dget vals k end) /\
    (refuses (route_vars r) ts <-> route_match rd r (path ++ [47]) = Ok MNone).
Proof. exact slash_redirect_values. Qed.
Print Assumptions C61_route_partial.
(** A strict leaf matches only its text without a slash added. *)
Theorem C61_leaf : forall rd r path d, plain_route r -> NoDup (map fst (r_defaults r)) -> r_leaf r = true -> r_strict r = true ->
  route_match rd r path = Ok (MValues d) \/ route_match rd r path = Ok (MAlias d) ->
  exists ts, up_to_newline (route_text r ts []) path.
Proof. exact leaf_no_slash. Qed.
Print Assumptions C61_leaf.
Example C61_example : plain_route ex_branch /\
  route_match false ex_branch (lit "|/tags/12") = Ok MSlash /\
  route_match false ex_branch (lit "|/tags/12/") = Ok (MValues [(lit "tag", VInt 12)]) /\
  route_match false ex_leaf (lit "en|/blog/2014") = Ok MNone.
Proof. split; [exact ex_branch_plain|]. vm_compute. auto. Qed.
(** The redirect leads nowhere if a converter refuses its text, or if the path ends in a
    newline. *)
Theorem C61_refuted : exists r, plain_route r /\
  (exists path, route_match false r path = Ok MSlash /\ route_match false r (path ++ [47]) = Ok MNone /\ (forall p, path <> p ++ [10])) /\
  (exists path, route_match false r path = Ok MSlash /\ route_match false r (path ++ [47]) = Ok MNone /\ exists p, path = p ++ [10] /\
     exists d, route_match false r (p ++ [47]) = Ok (MValues d)).
Proof.
  exists ex_branch. split; [exact ex_branch_plain|]. split.
  - exists (lit "|/tags/1"). split; [vm_compute; auto|]. split; [vm_compute; auto|]. intros p E.
    change (lit "|/tags/1") with (lit "|/tags/" ++ [49]) in E. apply app_inj_tail in E as [_ E]. discriminate.
  - exists (lit "|/tags/12" ++ [10]). split; [vm_compute; auto|]. split; [vm_compute; auto|]. exists (lit "|/tags/12").
    split; [auto|]. exists [(lit "tag", VInt 12)]. vm_compute. auto.
Qed.
Print Assumptions C61_refuted.

(** ** C64 *)
Theorem C64_accepts_exactly : forall fixed mn mx t v, accepts (conv_int fixed mn mx) t v <->
  exists z, v = VInt z /\ numeral t z /\ within mn mx z /\ (fixed <> 0%nat -> length t = fixed).
Proof. exact int_accepts. Qed.
Print Assumptions C64_accepts_exactly.
Theorem C64_roundtrip : forall fixed mn mx t v, accepts (conv_int fixed mn mx) t v ->
  exists q, c_to_url (conv_int fixed mn mx) v = Ok (Some q) /\ accepts (conv_int fixed mn mx) q v /\
    forallb is_ascii_digit q = true.
Proof. exact int_roundtrip. Qed.
Print Assumptions C64_roundtrip.
Example C64_example : accepts (conv_int 4 (Some 10%Z) (Some 99%Z)) (lit "0042") (VInt 42) /\
  accepts (conv_int 0 None None) [1632 + 4; 1632 + 2] (VInt 42) /\
  int_to_python 4 (Some 10%Z) (Some 99%Z) (lit "0007") = Ok None /\
  int_to_url 4 (VInt 42) = Ok (Some (lit "0042")).
Proof.
  assert (A : forall f a b t z, int_to_python f a b t = Ok (Some (VInt z)) -> forallb is_decimal t = true -> t <> [] ->
            accepts (conv_int f a b) t (VInt z)).
  { intros f a b t z H1 H2 H3. split; [apply lang_int; auto|exact H1]. }
  split; [apply A; [vm_compute; auto|vm_compute; auto|discriminate]|].
  split; [apply A; [vm_compute; auto|vm_compute; auto|discriminate]|]. vm_compute. auto.
Qed.
(** Values that the converter does not accept are written all the same. *)
Example C64_finding_unchecked :
  int_to_url 2 (VInt 1234) = Ok (Some (lit "1234")) /\ int_to_url 0 (VInt (-5)) = Ok (Some (lit "-5")) /\
  (forall v, c_to_url (conv_int 2 (Some 10%Z) (Some 20%Z)) v = c_to_url (conv_int 2 None None) v).
Proof. repeat split. Qed.
