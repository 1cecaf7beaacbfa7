(** * C122: an application has the mixins, converters and configuration its builder was given *)
From Coq Require Import Arith List NArith Bool Lia.
From Verif Require Import PyStr PyStrFacts ModelMixins SpecMixins ProofMixins.
Import ListNotations.
Open Scope nat_scope.

(** The bases of both classes are the base class and the mixins, each once, in the order in
    which they were first added, whatever was called in whatever order. *)
Theorem C122_bases : forall base_app base_req defaults calls,
  let u := mrun (new_mixins base_app base_req defaults) calls in
  x_app u = first_only (base_app :: app_mixins calls) /\
  x_req u = first_only (base_req :: defaults ++ req_mixins calls).
Proof. intros. destruct (run_bases base_app base_req defaults calls) as (? & ? & _). split; assumption. Qed.
Print Assumptions C122_bases.

(** Building makes two new classes and changes no class there was.  The order in which the
    classes of each are searched starts with the new class, which has nothing of its own,
    and the base class, and keeps the order of the mixins and of the classes each of them
    is made of.  Building fails exactly if there is no such order, with TypeError. *)
Theorem C122_classes : forall w defaults base_app base_req dm calls,
  made w -> base_app < length w -> base_req < length w ->
  (forall c, In c (dm ++ app_mixins calls ++ req_mixins calls) -> c < length w) ->
  let A := first_only (base_app :: app_mixins calls) in
  let R := first_only (base_req :: dm ++ req_mixins calls) in
  match build w defaults (mrun (new_mixins base_app base_req dm) calls) with
  | Ok (w', b) =>
      made w' /\ (forall c, c < length w -> mro_at w' c = mro_at w c /\ attrs_at w' c = attrs_at w c) /\
      t_app b <> t_req b /\ length w <= t_app b < length w' /\ length w <= t_req b < length w' /\
      attrs_at w' (t_app b) = [] /\ attrs_at w' (t_req b) = [] /\
      (exists m, mro_at w' (t_app b) = t_app b :: base_app :: m /\ common_order (base_app :: m) (map (mro_at w) A ++ [A])) /\
      (exists m, mro_at w' (t_req b) = t_req b :: base_req :: m /\ common_order (base_req :: m) (map (mro_at w) R ++ [R]))
  | Raise e =>
      e = TypeError /\
      ((forall m, ~ common_order m (map (mro_at w) A ++ [A])) \/ (forall m, ~ common_order m (map (mro_at w) R ++ [R])))
  end.
Proof. exact build_spec. Qed.
Print Assumptions C122_classes.

(** Where several orders would do, it is this one: behind any part of the order comes the
    class that the first list has next among the lists (those of the bases, and the bases
    themselves) whose next class does not stand behind another in any list. *)
Theorem C122_search_order : forall w defaults base_app base_req dm calls w' b,
  made w -> base_app < length w -> base_req < length w ->
  (forall c, In c (dm ++ app_mixins calls ++ req_mixins calls) -> c < length w) ->
  build w defaults (mrun (new_mixins base_app base_req dm) calls) = Ok (w', b) ->
  let A := first_only (base_app :: app_mixins calls) in
  let R := first_only (base_req :: dm ++ req_mixins calls) in
  (forall p c q, mro_at w' (t_app b) = t_app b :: p ++ c :: q -> comes_next (map (mro_at w) A ++ [A]) p c) /\
  (forall p c q, mro_at w' (t_req b) = t_req b :: p ++ c :: q -> comes_next (map (mro_at w) R ++ [R]) p c).
Proof. exact build_rule. Qed.
Print Assumptions C122_search_order.

(** Mixins that derive from nothing but object can always be added, and are searched in the
    order in which they were first added. *)
Theorem C122_plain : forall w defaults base_app base_req dm calls,
  made w ->
  (forall c, In c (base_app :: base_req :: dm ++ app_mixins calls ++ req_mixins calls) -> c <> 0 /\ c < length w /\ mro_at w c = [c; 0]) ->
  exists w' b, build w defaults (mrun (new_mixins base_app base_req dm) calls) = Ok (w', b) /\
    mro_at w' (t_app b) = t_app b :: first_only (base_app :: app_mixins calls) ++ [0] /\
    mro_at w' (t_req b) = t_req b :: first_only (base_req :: dm ++ req_mixins calls) ++ [0].
Proof. exact plain_build. Qed.
Print Assumptions C122_plain.

(** An attribute is that of the first class in the order that has it. *)
Theorem C122_attribute : forall w c name,
  match get_attr w c name with
  | Some v => exists m1 d m2, mro_at w c = m1 ++ d :: m2 /\ dget (attrs_at w d) name = Some v /\
      forall x, In x m1 -> dget (attrs_at w x) name = None
  | None => forall x, In x (mro_at w c) -> dget (attrs_at w x) name = None
  end.
Proof. intros. apply along_spec. Qed.
Print Assumptions C122_attribute.

(** So what the base class has itself no mixin can change. *)
Theorem C122_base_wins : forall w defaults base_app base_req dm calls w' b name v,
  made w -> base_app < length w -> base_req < length w ->
  (forall c, In c (dm ++ app_mixins calls ++ req_mixins calls) -> c < length w) ->
  build w defaults (mrun (new_mixins base_app base_req dm) calls) = Ok (w', b) ->
  (dget (attrs_at w base_app) name = Some v -> get_attr w' (t_app b) name = Some v) /\
  (dget (attrs_at w base_req) name = Some v -> get_attr w' (t_req b) name = Some v).
Proof.
  intros w defaults base_app base_req dm calls w' b name v M La Lr L H.
  pose proof (build_spec w defaults base_app base_req dm calls M La Lr L) as S. cbv zeta in S. rewrite H in S.
  destruct S as (_ & K & _ & _ & _ & Ta & Tr & (ma & Ea & _) & (mr & Er & _)). unfold get_attr. rewrite Ea, Er. cbn [attr_along].
  rewrite Ta, Tr. cbn [dget]. destruct (K _ La) as [_ ->]. destruct (K _ Lr) as [_ ->]. split; intros ->; reflexivity.
Qed.
Print Assumptions C122_base_wins.

(** Finding: a mixin that derives from the base class can never be added: whatever else is
    called, building fails. *)
Theorem C122_derived_refuted : forall w defaults base_app base_req dm calls x,
  made w -> base_app < length w -> base_req < length w ->
  (forall c, In c (dm ++ app_mixins calls ++ req_mixins calls) -> c < length w) ->
  (In x (app_mixins calls) /\ x <> base_app /\ In base_app (mro_at w x)) \/
  (In x (dm ++ req_mixins calls) /\ x <> base_req /\ In base_req (mro_at w x)) ->
  build w defaults (mrun (new_mixins base_app base_req dm) calls) = Raise TypeError.
Proof. exact derived_fails. Qed.
Print Assumptions C122_derived_refuted.

(** The converter of a name is the one last added under it, or else the map's own; the
    configuration is what was last set. *)
Theorem C122_converters : forall w defaults base_app base_req dm calls w' b k oc og,
  build w defaults (mrun (new_mixins base_app base_req dm) calls) = Ok (w', b) ->
  last_given k (converters_given calls) oc -> last_given k (config_given calls) og ->
  dget (t_conv b) k = match oc with Some v => Some v | None => dget defaults k end /\ dget (t_config b) k = og.
Proof. exact build_dicts. Qed.
Print Assumptions C122_converters.

(** ** Examples *)
(** object, BaseApplication, BaseRequest, the three default mixins, StreamOnlyMixin and two
    classes of a program, one derived from BaseRequest and one from StreamOnlyMixin. *)
Definition the_attrs (c : nat) : dict nat :=
  nth c [[]; [(lit "config", 10)]; [(lit "disable_data_descriptor", 20); (lit "stream", 21)]; [(lit "if_match", 30)];
         [(lit "authorization", 40)]; [(lit "referrer", 50)]; [(lit "disable_data_descriptor", 60); (lit "want_form_data_parsed", 61)];
         [(lit "form", 70)]; [(lit "user", 80); (lit "referrer", 81)]] [].
Definition the_bases : list (list nat) := [[]; []; []; []; []; []; [2]; [6]].
Definition the_world : world :=
  fold_left (fun w b => match make_class w b (the_attrs (length w)) with Ok w' => w' | Raise _ => w end) the_bases [object_class].
Example C122_world : made the_world /\ length the_world = 9 /\ mro_at the_world 8 = [8; 6; 0].
Proof.
  split; [|split; reflexivity]. unfold the_world, the_bases. cbn [fold_left].
  repeat (match goal with |- context [make_class ?w ?b ?a] => eapply (made_class w b a) end; [| |reflexivity]).
  1: apply made_object.
  all: cbn; intros b Hb; repeat (destruct Hb as [<-|Hb]; [lia|]); destruct Hb.
Qed.
Definition the_calls : list mcall :=
  [MReq [8; 3]; MConv [(lit "int", 1); (lit "hex", 2)]; MReq [8; 6]; MConfig (lit "debug") 1; MConv [(lit "hex", 3)]; MConfig (lit "debug") 0].
Example C122_example : exists w' b,
  build the_world [(lit "int", 100); (lit "path", 101)] (mrun (new_mixins 1 2 [2; 3; 4; 5]) the_calls) = Ok (w', b) /\
  mro_at w' (t_req b) = [10; 2; 3; 4; 5; 8; 6; 0] /\ mro_at w' (t_app b) = [9; 1; 0] /\
  get_attr w' (t_req b) (lit "referrer") = Some 50 /\ get_attr w' (t_req b) (lit "user") = Some 80 /\
  get_attr w' (t_req b) (lit "want_form_data_parsed") = Some 61 /\
  (* StreamOnlyMixin says otherwise *)
  get_attr w' (t_req b) (lit "disable_data_descriptor") = Some 20 /\
  dget (t_conv b) (lit "int") = Some 1 /\ dget (t_conv b) (lit "hex") = Some 3 /\ dget (t_conv b) (lit "path") = Some 101 /\
  t_config b = [(lit "debug", 0)].
Proof. eexists. eexists. split; [vm_compute; reflexivity|]. repeat split. Qed.
Example C122_derived_example :
  build the_world [] (mrun (new_mixins 1 2 [2; 3; 4; 5]) [MReq [7]]) = Raise TypeError /\
  (* and so do two mixins in an order against that of a third *)
  build the_world [] (mrun (new_mixins 1 2 []) [MReq [6; 8]]) = Raise TypeError /\
  (exists w' b, build the_world [] (mrun (new_mixins 1 2 []) [MReq [8; 6]]) = Ok (w', b)).
Proof. split; [reflexivity|]. split; [reflexivity|]. eexists. eexists. vm_compute. reflexivity. Qed.
