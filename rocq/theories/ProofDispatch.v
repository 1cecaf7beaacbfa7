(** * Proofs about dispatch *)
From Coq Require Import Arith List NArith ZArith Bool Lia.
From Verif Require Import PyStr PyStrFacts ModelAccept SpecAccept ProofAccept ModelDispatch SpecDispatch.
Import ListNotations.
Open Scope N_scope.

(** ** What negotiation raises *)
Lemma two_parts_err v e : two_parts v = Raise e -> e = ValueError.
Proof.
  unfold two_parts. destruct (split_on 47 v) as [|x [|y [|z l]]]; congruence.
Qed.
Lemma content_type_err v o e : content_type_option v o = Raise e -> negotiation_error e.
Proof.
  unfold content_type_option, negotiation_error.
  destruct (two_parts (rg_value o)) as [ot|e1] eqn:E1; cbn [bind];
    [|intros H; injection H as <-; left; exact (two_parts_err _ _ E1)].
  destruct (two_parts (v_text v)) as [vt|e2] eqn:E2; cbn [bind];
    [|intros H; injection H as <-; left; exact (two_parts_err _ _ E2)].
  destruct (eqs (fst ot) (fst vt)), (eqs (fst ot) star), (eqs (snd ot) (snd vt)), (eqs (snd ot) star);
    cbn [bind]; intros H; try discriminate H; injection H as <-; auto.
Qed.
Lemma best_option_err fmul f l : (forall o e, f o = Raise e -> negotiation_error e) ->
  forall b e, best_option fmul f l b = Raise e -> negotiation_error e.
Proof.
  intros Hf. induction l as [|o l IH]; intros b e; cbn [best_option]; [discriminate|].
  destruct (f o) as [m|e'] eqn:E; [apply IH|].
  destruct (is_not_acceptable e'); [apply IH|].
  intros H. injection H as <-. exact (Hf _ _ E).
Qed.
Lemma value_err fmul f l : (forall o e, f o = Raise e -> negotiation_error e) ->
  forall e, value_acceptability fmul f l = Raise e -> negotiation_error e.
Proof.
  intros Hf e. unfold value_acceptability.
  destruct (best_option fmul f l None) as [[m|]|e'] eqn:E; cbn [bind]; intros H;
    try discriminate H; injection H as <-.
  - right; right; right; reflexivity.
  - exact (best_option_err _ _ _ Hf _ _ E).
Qed.
Lemma repr_err fmul r a b c e : repr_acceptability fmul r a b c = Raise e -> negotiation_error e.
Proof.
  unfold repr_acceptability.
  destruct (r_content_type r) as [v|]; cbn [bind].
  - destruct (value_acceptability fmul (content_type_option v) a) as [m|e'] eqn:E; cbn [bind].
    + destruct (r_language r); cbn [bind]; discriminate.
    + intros H. injection H as <-. exact (value_err _ _ _ (content_type_err v) _ E).
  - destruct (r_language r); cbn [bind]; [|discriminate].
    intros H. injection H as <-. right; left; reflexivity.
Qed.
Lemma top_ge_err fmul x y e : top_ge fmul x y = Raise e -> negotiation_error e.
Proof.
  unfold top_ge, top_gt.
  destruct (opt_gt _ (t_content_type x) _); cbn [bind]; [discriminate|].
  destruct (opt_gt _ (t_language x) _); cbn [bind]; [discriminate|].
  destruct (t_charset x), (t_charset y); cbn [bind];
    try (intros H; injection H as <-; right; right; left; reflexivity).
  destruct (negb _); discriminate.
Qed.
Lemma select_loop_err fmul l a b c : forall best e,
  select_loop fmul l a b c best = Raise e -> negotiation_error e.
Proof.
  induction l as [|r l IH]; intros best e; cbn [select_loop]; [discriminate|].
  destruct (repr_acceptability fmul r a b c) as [m|e'] eqn:E.
  - destruct best as [[h r']|]; [|apply IH].
    destruct (top_ge fmul m h) as [g|e'] eqn:Eg; cbn [bind]; [apply IH|].
    intros H. injection H as <-. exact (top_ge_err _ _ _ _ Eg).
  - destruct (is_not_acceptable e'); [apply IH|].
    intros H. injection H as <-. exact (repr_err _ _ _ _ _ _ E).
Qed.
Lemma accept_params_err l : forall d e, accept_params l d = Raise e -> e = ValueError.
Proof.
  induction l as [|p l IH]; intros d e; cbn [accept_params]; [discriminate|].
  destruct (split1 61 p) as [[k v]|]; [apply IH | congruence].
Qed.
Lemma parse_accept_err float_of k s e : parse_accept float_of k s = Raise e -> e = ValueError.
Proof.
  unfold parse_accept. generalize (split_on 44 s). intros l.
  revert e. induction l as [|x l IH]; intros e; cbn [parse_ranges]; [discriminate|].
  unfold split_accept_range at 1. destruct (split_on 59 x) as [|y ps]; cbn [bind].
  - unfold new_range at 1. cbn [fst snd].
    destruct (valid_value k []); [|cbn [bind]; congruence].
    destruct (float_of (lit "1.0")); [|cbn [bind]; congruence].
    destruct (valid_params k []); [|cbn [bind]; congruence].
    cbn [bind]. destruct (parse_ranges float_of k l) as [rs|e']; cbn [bind]; [discriminate|].
    intros H. apply IH. congruence.
  - destruct (accept_params ps []) as [d|e'] eqn:E; cbn [bind];
      [|intros H; assert (e = e') as -> by congruence; exact (accept_params_err _ _ _ E)].
    unfold new_range at 1. cbn [fst snd].
    destruct (valid_value k _); [|cbn [bind]; congruence].
    destruct (float_of _); [|cbn [bind]; congruence].
    destruct (valid_params k _); [|cbn [bind]; congruence].
    cbn [bind]. destruct (parse_ranges float_of k l) as [rs|e']; cbn [bind]; [discriminate|].
    intros H. apply IH. congruence.
Qed.
Lemma select_representation_err float_of fmul l a b c e :
  select_representation float_of fmul l a b c = Raise e -> negotiation_error e.
Proof.
  unfold select_representation.
  destruct (parse_accept float_of KContentType _) as [x|e'] eqn:E; cbn [bind];
    [|intros H; assert (e = e') as -> by congruence; left; exact (parse_accept_err _ _ _ _ E)].
  destruct (parse_accept float_of KLanguage _) as [y|e'] eqn:E1; cbn [bind];
    [|intros H; assert (e = e') as -> by congruence; left; exact (parse_accept_err _ _ _ _ E1)].
  destruct (parse_accept float_of KCharset _) as [z|e'] eqn:E2; cbn [bind];
    [|intros H; assert (e = e') as -> by congruence; left; exact (parse_accept_err _ _ _ _ E2)].
  unfold select. destruct (select_loop fmul l x y z None) as [[[p r]|]|e'] eqn:E3; cbn [bind]; intros H;
    try discriminate H.
  - injection H as <-. right; right; right; reflexivity.
  - assert (e = e') as -> by congruence. exact (select_loop_err _ _ _ _ _ _ _ E3).
Qed.
Lemma negotiation_501 : ~ negotiation_error NotImplemented.
Proof. unfold negotiation_error, NotImplemented, NotAcceptable. intros [H|[H|[H|H]]]; discriminate H. Qed.
Lemma negotiation_405 : ~ negotiation_error MethodNotAllowed.
Proof. unfold negotiation_error, MethodNotAllowed, NotAcceptable. intros [H|[H|[H|H]]]; discriminate H. Qed.

Lemma select_representation_in float_of fmul l a b c r :
  select_representation float_of fmul l a b c = Ok r -> In r l.
Proof.
  unfold select_representation.
  destruct (parse_accept float_of KContentType _) as [x|e']; cbn [bind]; [|discriminate].
  destruct (parse_accept float_of KLanguage _) as [y|e']; cbn [bind]; [|discriminate].
  destruct (parse_accept float_of KCharset _) as [z|e']; cbn [bind]; [|discriminate].
  intros H. exact (proj1 (select_sound _ _ _ _ _ _ H)).
Qed.

(** Negotiation with good headers *)
Lemma good_select float_of fmul l accept language charset a :
  good_headers float_of accept language charset a ->
  (forall r, In r l -> good_offer r) ->
  (exists r, select_representation float_of fmul l accept language charset = Ok r /\ In r l /\ admitted a r)
  \/ (select_representation float_of fmul l accept language charset = Raise NotAcceptable
      /\ forall r, In r l -> ~ admitted a r).
Proof.
  intros (Ha & (b & Hb) & (c & Hc) & W) G.
  unfold select_representation, header_or. rewrite Ha. cbn [bind].
  change (match language with Some s => s | None => star end)
    with (match language with Some s => s | None => lit "*" end). rewrite Hb. cbn [bind].
  change (match charset with Some s => s | None => star end)
    with (match charset with Some s => s | None => lit "*" end). rewrite Hc. cbn [bind].
  destruct (select_total fmul l a b c W G) as [(r & H)|H].
  - left. exists r. split; [exact H | exact (select_sound _ _ _ _ _ _ H)].
  - right. split; [exact H|].
    apply (select_none fmul l a b c W (fun r i => proj1 (G r i))). exact H.
Qed.

(** ** The dispatcher's index *)
Definition at_index (d : dispatcher) (name method : str) : option (list repr) :=
  match dget (d_index d) name with Some m => dget m method | None => None end.
Definition offered (bs : list binding) (name method : str) : list repr :=
  map b_repr (filter (fun b => eqs (b_name b) name && eqs (b_method b) method) bs).

Record indexed (d : dispatcher) : Prop := {
  ix_lists : forall name method,
    match at_index d name method with
    | Some l => l = offered (d_views d) name method /\ l <> []
    | None => offered (d_views d) name method = []
    end;
  ix_names : forall name, dget (d_index d) name = None <-> forall b, In b (d_views d) -> b_name b <> name
}.

Lemma indexed_new : indexed new_dispatcher.
Proof. split; cbn; [reflexivity|]. intros name. split; [intros _ b [] | reflexivity]. Qed.

Lemma offered_app bs b name method :
  offered (bs ++ [b]) name method =
  offered bs name method ++ (if eqs (b_name b) name && eqs (b_method b) method then [b_repr b] else []).
Proof.
  unfold offered. rewrite filter_app, map_app. cbn [filter].
  destruct (eqs (b_name b) name && eqs (b_method b) method); reflexivity.
Qed.

Lemma indexed_add d b : indexed d -> indexed (add_binding d b).
Proof.
  intros [L N]. split.
  - intros name method. cbn [add_binding d_views]. rewrite offered_app.
    specialize (L name method). unfold at_index in *. cbn [add_binding d_index].
    destruct (eqs (b_name b) name) eqn:En.
    + apply eqs_eq in En. rewrite <- En in *. rewrite dget_dset_eq.
      destruct (eqs (b_method b) method) eqn:Em; cbn [andb].
      * apply eqs_eq in Em. rewrite <- Em in *. rewrite dget_dset_eq.
        destruct (dget (d_index d) (b_name b)) as [m|] eqn:Ed.
        -- destruct (dget m (b_method b)) as [l|] eqn:El.
           ++ destruct L as [-> _]. split; [reflexivity|]. intros H. apply app_eq_nil in H. destruct H; discriminate.
           ++ rewrite L. split; [reflexivity | discriminate].
        -- cbn. rewrite L. split; [reflexivity | discriminate].
      * apply eqs_false in Em. rewrite dget_dset_neq by congruence. rewrite app_nil_r.
        destruct (dget (d_index d) (b_name b)) as [m|] eqn:Ed; [exact L|]. cbn. exact L.
    + apply eqs_false in En. cbn [andb]. rewrite dget_dset_neq by congruence. rewrite app_nil_r. exact L.
  - intros name. cbn [add_binding d_views d_index].
    destruct (eqs (b_name b) name) eqn:En.
    + apply eqs_eq in En. subst name. rewrite dget_dset_eq. split; [discriminate|].
      intros H. exfalso. apply (H b); [apply in_or_app; right; left; reflexivity | reflexivity].
    + apply eqs_false in En. rewrite dget_dset_neq by congruence. rewrite N. split.
      * intros H b' i. apply in_app_or in i. destruct i as [i|[<-|[]]]; [exact (H b' i) | exact En].
      * intros H b' i. apply H. apply in_or_app. left. exact i.
Qed.

Lemma indexed_fold bs : forall d, indexed d ->
  indexed (fold_left add_binding bs d) /\ d_views (fold_left add_binding bs d) = d_views d ++ bs.
Proof.
  induction bs as [|b bs IH]; intros d I; cbn [fold_left].
  - split; [exact I | symmetry; apply app_nil_r].
  - destruct (IH (add_binding d b) (indexed_add d b I)) as [I' V]. split; [exact I'|].
    rewrite V. cbn [add_binding d_views]. rewrite <- app_assoc. reflexivity.
Qed.

Fixpoint get_given (f : factory) : get_bindings f = given f.
Proof.
  destruct f as [b|l|fs]; [reflexivity | reflexivity |].
  cbn [get_bindings given].
  enough (forall d, indexed d -> d_views (fold_left (fun d f' => fold_left add_binding (get_bindings f') d) fs d)
          = d_views d ++ flat_map given fs) as H by exact (H _ indexed_new).
  induction fs as [|f fs IH]; intros d I; cbn [fold_left flat_map].
  - symmetry. apply app_nil_r.
  - rewrite (get_given f). destruct (indexed_fold (given f) d I) as [I' V].
    rewrite (IH _ I'), V, <- app_assoc. reflexivity.
Qed.

Lemma indexed_fs fs : forall d, indexed d ->
  indexed (add_bindings d fs) /\ d_views (add_bindings d fs) = d_views d ++ registered fs.
Proof.
  unfold add_bindings, registered. induction fs as [|f fs IH]; intros d I; cbn [fold_left flat_map].
  - split; [exact I | symmetry; apply app_nil_r].
  - rewrite get_given. destruct (indexed_fold (given f) d I) as [I' V].
    destruct (IH _ I') as [I'' V']. split; [exact I''|]. rewrite V', V, <- app_assoc. reflexivity.
Qed.

Lemma In_offered bs name method r :
  In r (offered bs name method) <->
  exists b, In b bs /\ b_name b = name /\ b_method b = method /\ b_repr b = r.
Proof.
  unfold offered. rewrite in_map_iff. split.
  - intros (b & <- & i). apply filter_In in i. destruct i as [i E].
    apply andb_true_iff in E. destruct E as [E1 E2]. apply eqs_eq in E1, E2. exists b. auto.
  - intros (b & i & <- & <- & <-). exists b. split; [reflexivity|].
    apply filter_In. split; [exact i|]. rewrite !eqs_refl. reflexivity.
Qed.

(** What is handed to negotiation *)
Inductive outcome_of (fs : list factory) (name method : str) : res (list repr) -> Prop :=
| oo_name : (forall b, In b (registered fs) -> b_name b <> name) ->
    outcome_of fs name method (Raise NotImplemented)
| oo_method : (exists b, In b (registered fs) /\ b_name b = name) ->
    (forall b, ~ serves (registered fs) name method b) ->
    outcome_of fs name method (Raise MethodNotAllowed)
| oo_some l : (exists b, serves (registered fs) name method b) ->
    (forall r, In r l <-> exists b, serves (registered fs) name method b /\ b_repr b = r) ->
    outcome_of fs name method (Ok l).

Lemma lookup_outcome float_of fmul fs name method a l c :
  exists o, outcome_of fs name method o /\
    lookup float_of fmul (add_bindings new_dispatcher fs) name method a l c
    = do x <- o; select_representation float_of fmul x a l c.
Proof.
  destruct (indexed_fs fs new_dispatcher indexed_new) as [[L N] V].
  cbn [new_dispatcher d_views app] in V. change ([] ++ registered fs) with (registered fs) in V.
  set (d := add_bindings new_dispatcher fs) in *. rewrite V in *.
  unfold lookup. destruct (dget (d_index d) name) as [m|] eqn:En.
  2:{ exists (Raise NotImplemented). split; [|reflexivity]. apply oo_name. apply N. exact En. }
  assert (Hn : exists b, In b (registered fs) /\ b_name b = name).
  { destruct (Exists_dec (fun b => b_name b = name) (registered fs)) as [H|H].
    - intros b. destruct (eqs (b_name b) name) eqn:E; [left; apply eqs_eq; exact E | right; apply eqs_false; exact E].
    - apply Exists_exists in H. destruct H as (b & i & H). exists b. auto.
    - exfalso. assert (dget (d_index d) name = None) as E.
      { apply N. intros b i H'. apply H. apply Exists_exists. exists b. auto. }
      congruence. }
  assert (Lm : forall meth, match dget m meth with
            | Some l => l = offered (registered fs) name meth /\ l <> []
            | None => offered (registered fs) name meth = [] end).
  { intros meth. specialize (L name meth). unfold at_index in L. rewrite En in L. exact L. }
  assert (Hget : forall b meth, In b (registered fs) -> b_name b = name -> b_method b = meth ->
            offered (registered fs) name meth = [] -> False).
  { intros b meth i E1 E2 H. assert (In (b_repr b) (offered (registered fs) name meth)) as H'
      by (apply In_offered; exists b; auto). rewrite H in H'. destruct H'. }
  pose proof (Lm method) as Lme. destruct (dget m method) as [x|] eqn:Em.
  - exists (Ok x). split; [|reflexivity]. destruct Lme as [-> Hx].
    assert (Hi : exists b, In b (registered fs) /\ b_name b = name /\ b_method b = method).
    { destruct (offered (registered fs) name method) as [|r rs] eqn:E; [contradiction|].
      assert (In r (offered (registered fs) name method)) as i by (rewrite E; left; reflexivity).
      apply In_offered in i. destruct i as (b & i1 & i2 & i3 & _). exists b. auto. }
    apply oo_some.
    + destruct Hi as (b & i1 & i2 & i3). exists b. split; [exact i1|]. split; [exact i2|]. left. exact i3.
    + intros r. rewrite In_offered. split.
      * intros (b & i1 & i2 & i3 & i4). exists b. split; [|exact i4]. split; [exact i1|]. split; [exact i2|]. left; exact i3.
      * intros (b & (i1 & i2 & i3) & i4). exists b. destruct i3 as [i3|(i3 & i5 & i6)]; [auto|].
        exfalso. destruct Hi as (b' & j1 & j2 & j3). apply (i6 b' j1 j2). congruence.
  - destruct (eqs method (lit "HEAD")) eqn:Eh.
    + apply eqs_eq in Eh. pose proof (Lm (lit "GET")) as Lg.
      assert (Hno : forall b', In b' (registered fs) -> b_name b' = name -> b_method b' <> lit "HEAD").
      { intros b' i1 i2 i3. apply (Hget b' method i1 i2); [congruence | exact Lme]. }
      destruct (dget m (lit "GET")) as [x|] eqn:Eg.
      * exists (Ok x). split; [|reflexivity]. destruct Lg as [-> Hx]. apply oo_some.
        -- destruct (offered (registered fs) name (lit "GET")) as [|r rs] eqn:E; [contradiction|].
           assert (In r (offered (registered fs) name (lit "GET"))) as i by (rewrite E; left; reflexivity).
           apply In_offered in i. destruct i as (b & i1 & i2 & i3 & _). exists b.
           split; [exact i1|]. split; [exact i2|]. right. auto.
        -- intros r. rewrite In_offered. split.
           ++ intros (b & i1 & i2 & i3 & i4). exists b. split; [|exact i4].
              split; [exact i1|]. split; [exact i2|]. right. auto.
           ++ intros (b & (i1 & i2 & i3) & i4). exists b.
              destruct i3 as [i3|(i3 & i5 & i6)]; [|auto].
              exfalso. apply (Hno b i1 i2). congruence.
      * exists (Raise MethodNotAllowed). split; [|reflexivity]. apply oo_method; [exact Hn|].
        intros b (i1 & i2 & [i3|(i3 & i5 & i6)]).
        -- exact (Hget b method i1 i2 i3 Lme).
        -- exact (Hget b (lit "GET") i1 i2 i5 Lg).
    + apply eqs_false in Eh. exists (Raise MethodNotAllowed). split; [|reflexivity].
      apply oo_method; [exact Hn|]. intros b (i1 & i2 & [i3|(i3 & i5 & i6)]); [|contradiction].
      exact (Hget b method i1 i2 i3 Lme).
Qed.

Lemma lookup_found float_of fmul fs name method a l c r :
  lookup float_of fmul (add_bindings new_dispatcher fs) name method a l c = Ok r ->
  exists b, serves (registered fs) name method b /\ b_repr b = r.
Proof.
  destruct (lookup_outcome float_of fmul fs name method a l c) as (o & O & ->).
  destruct O as [H|H H'|x H H']; cbn [bind]; [discriminate | discriminate |].
  intros S. apply H'. exact (select_representation_in _ _ _ _ _ _ _ S).
Qed.
Lemma lookup_unknown float_of fmul fs name method a l c :
  lookup float_of fmul (add_bindings new_dispatcher fs) name method a l c = Raise NotImplemented
  <-> forall b, In b (registered fs) -> b_name b <> name.
Proof.
  destruct (lookup_outcome float_of fmul fs name method a l c) as (o & O & ->).
  destruct O as [H|H H'|x H H']; cbn [bind].
  - split; [intros _; exact H | reflexivity].
  - split; [discriminate|]. intros N. destruct H as (b & i & E). exfalso. exact (N b i E).
  - split.
    + intros S. exfalso. exact (negotiation_501 (select_representation_err _ _ _ _ _ _ _ S)).
    + intros N. destruct H as (b & i & E & _). exfalso. exact (N b i E).
Qed.
Lemma lookup_method float_of fmul fs name method a l c :
  lookup float_of fmul (add_bindings new_dispatcher fs) name method a l c = Raise MethodNotAllowed
  <-> (exists b, In b (registered fs) /\ b_name b = name)
      /\ forall b, ~ serves (registered fs) name method b.
Proof.
  destruct (lookup_outcome float_of fmul fs name method a l c) as (o & O & ->).
  destruct O as [H|H H'|x H H']; cbn [bind].
  - split; [discriminate|]. intros [(b & i & E) _]. exfalso. exact (H b i E).
  - split; auto.
  - split.
    + intros S. exfalso. exact (negotiation_405 (select_representation_err _ _ _ _ _ _ _ S)).
    + intros [_ N]. destruct H as (b & B). exfalso. exact (N b B).
Qed.
Lemma lookup_serves float_of fmul fs name method accept language charset a :
  good_headers float_of accept language charset a ->
  (forall b, In b (registered fs) -> good_offer (b_repr b)) ->
  (exists b, serves (registered fs) name method b) ->
  let answer := lookup float_of fmul (add_bindings new_dispatcher fs) name method accept language charset in
  (exists b, serves (registered fs) name method b /\ admitted a (b_repr b) /\ answer = Ok (b_repr b))
  \/ (answer = Raise NotAcceptable
      /\ forall b, serves (registered fs) name method b -> ~ admitted a (b_repr b)).
Proof.
  intros GH GO S. cbv zeta.
  destruct (lookup_outcome float_of fmul fs name method accept language charset) as (o & O & ->).
  destruct O as [H|H H'|x H H']; cbn [bind].
  - destruct S as (b & i & E & _). exfalso. exact (H b i E).
  - destruct S as (b & B). exfalso. exact (H' b B).
  - destruct (good_select float_of fmul x accept language charset a GH) as [(r & E & i & A)|[E A]].
    + intros r i. apply H' in i. destruct i as (b & B & <-). apply GO. exact (proj1 B).
    + left. apply H' in i. destruct i as (b & B & <-). exists b. auto.
    + right. split; [exact E|]. intros b B. apply A. apply H'. exists b. auto.
Qed.

(** ** Exception handlers *)
Definition for_class (hs : list handler) (c : nat) : list repr :=
  map h_repr (filter (fun h => Nat.eqb c (h_class h)) hs).
Definition stored (d : handlers) (hs : list handler) : Prop :=
  forall c, match hs_get d c with
            | Some l => l = for_class hs c /\ l <> []
            | None => for_class hs c = [] end.
Lemma hs_get_add d c r c' :
  hs_get (hs_add d c r) c' =
  if Nat.eqb c' c then Some (match hs_get d c with Some l => l | None => [] end ++ [r])
  else hs_get d c'.
Proof.
  induction d as [|[k l] d IH]; cbn [hs_add hs_get].
  - destruct (Nat.eqb c' c); reflexivity.
  - destruct (Nat.eqb c k) eqn:E.
    + apply Nat.eqb_eq in E. subst k. cbn [hs_get]. destruct (Nat.eqb c' c); reflexivity.
    + cbn [hs_get]. rewrite IH. destruct (Nat.eqb c' k) eqn:E'; [|reflexivity].
      apply Nat.eqb_eq in E'. subst k. rewrite Nat.eqb_sym, E. reflexivity.
Qed.
Lemma stored_add d hs h : stored d hs -> stored (hs_add d (h_class h) (h_repr h)) (hs ++ [h]).
Proof.
  intros S c. specialize (S c). rewrite hs_get_add. unfold for_class in *.
  rewrite filter_app, map_app. cbn [filter].
  destruct (Nat.eqb c (h_class h)) eqn:E.
  - apply Nat.eqb_eq in E. subst c. cbn [map].
    destruct (hs_get d (h_class h)) as [l|].
    + destruct S as [-> _]. split; [reflexivity|]. intros H. apply app_eq_nil in H. destruct H; discriminate.
    + rewrite S. split; [reflexivity | discriminate].
  - cbn [map]. rewrite app_nil_r. exact S.
Qed.
Lemma stored_run fs : forall d hs, stored d hs ->
  forall d', add_exception_handlers d fs = (d', None) -> stored d' (hs ++ handlers_of fs).
Proof.
  unfold handlers_of. induction fs as [|f fs IH]; intros d hs S d'; cbn [add_exception_handlers flat_map].
  - intros H. injection H as <-. rewrite app_nil_r. exact S.
  - destruct f as [h|[|p q]]; cbn [add_handler].
    + intros H. rewrite app_assoc. apply (IH _ _ (stored_add d hs h S)). exact H.
    + apply IH. exact S.
    + discriminate.
Qed.
Lemma stored_nil : stored [] [].
Proof. intros c. reflexivity. Qed.
Lemma In_for_class hs c r : In r (for_class hs c) <-> exists h, In h hs /\ h_class h = c /\ h_repr h = r.
Proof.
  unfold for_class. rewrite in_map_iff. split.
  - intros (h & <- & i). apply filter_In in i. destruct i as [i E]. apply Nat.eqb_eq in E. exists h. auto.
  - intros (h & i & <- & <-). exists h. split; [reflexivity|]. apply filter_In. split; [exact i | apply Nat.eqb_refl].
Qed.

Lemma exception_lookup_stored float_of fmul d hs accept language charset a :
  stored d hs -> good_headers float_of accept language charset a ->
  (forall h, In h hs -> good_offer (h_repr h)) ->
  forall mro,
  (exists r, exception_lookup float_of fmul d mro accept language charset = Ok (Some r)
             /\ right_handler hs mro a r)
  \/ (exception_lookup float_of fmul d mro accept language charset = Ok None /\ no_handler hs mro a).
Proof.
  intros S GH GO. induction mro as [|c mro IH]; cbn [exception_lookup].
  - right. split; [reflexivity|]. intros h _ [].
  - assert (step : (forall h, In h hs -> h_class h = c -> ~ admitted a (h_repr h)) ->
      (exists r, exception_lookup float_of fmul d mro accept language charset = Ok (Some r)
             /\ right_handler hs (c :: mro) a r)
      \/ (exception_lookup float_of fmul d mro accept language charset = Ok None /\ no_handler hs (c :: mro) a)).
    { intros Hc. destruct IH as [(r & E & (before & k & after & h & -> & i & Ek & Er & A & B))|[E N]].
      - left. exists r. split; [exact E|]. exists (c :: before), k, after, h.
        repeat split; auto. intros h' i' [Ec|i'']; [exact (Hc h' i' (eq_sym Ec)) | exact (B h' i' i'')].
      - right. split; [exact E|]. intros h i [Ec|i']; [exact (Hc h i (eq_sym Ec)) | exact (N h i i')]. }
    pose proof (S c) as Sc. destruct (hs_get d c) as [l|].
    + destruct Sc as [-> _].
      destruct (good_select float_of fmul (for_class hs c) accept language charset a GH) as [(r & E & i & A)|[E A]].
      * intros r i. apply In_for_class in i. destruct i as (h & i & _ & <-). exact (GO h i).
      * rewrite E. left. exists r. split; [reflexivity|]. apply In_for_class in i. destruct i as (h & i & Ec & Er).
        exists [], c, mro, h. repeat split; auto.
      * rewrite E, na_na. apply step. intros h i Ec. apply A. apply In_for_class. exists h. auto.
    + apply step. intros h i Ec A.
      assert (In (h_repr h) (for_class hs c)) as H by (apply In_for_class; exists h; auto).
      rewrite Sc in H. destruct H.
Qed.

Lemma exception_lookup_ok float_of fmul fs d accept language charset a :
  add_exception_handlers [] fs = (d, None) ->
  good_headers float_of accept language charset a ->
  (forall h, In h (handlers_of fs) -> good_offer (h_repr h)) ->
  forall mro,
  (exists r, exception_lookup float_of fmul d mro accept language charset = Ok (Some r)
             /\ right_handler (handlers_of fs) mro a r)
  \/ (exception_lookup float_of fmul d mro accept language charset = Ok None
      /\ no_handler (handlers_of fs) mro a).
Proof.
  intros H GH GO. exact (exception_lookup_stored float_of fmul d _ accept language charset a
    (stored_run fs [] [] stored_nil d H) GH GO).
Qed.
Lemma nested_fails fs1 d fs2 : d <> [] ->
  exists d', add_exception_handlers [] (fs1 ++ HDispatcher d :: fs2) = (d', Some AttributeError).
Proof.
  intros H. generalize (@nil (nat * list repr)) as d0.
  induction fs1 as [|f fs1 IH]; intros d0; cbn [app add_exception_handlers].
  - destruct d; [contradiction|]. eexists. reflexivity.
  - destruct f as [h|[|p q]]; cbn [add_handler]; [apply IH | apply IH | eexists; reflexivity].
Qed.

(** ** Middleware *)
Section layers.
  Context {Env Resp : Type}.
  Notation layer := (layer Env Resp).
  Implicit Types ms : list layer.
  Variable answer : Env -> Resp.

  Lemma stack_snoc (inner : app_run) ms w :
    build_stack layer_wrap inner (ms ++ [w]) = layer_wrap w (build_stack layer_wrap inner ms).
  Proof. unfold build_stack. rewrite fold_left_app. reflexivity. Qed.

  Lemma wrap_eq (w : layer) (inner : app_run) e t r : inner (l_request w e) = (t, r) ->
    layer_wrap w inner e = (Request (l_name w) e :: t ++ [Response (l_name w) r], l_response w r).
  Proof. intros H. unfold layer_wrap. rewrite H. reflexivity. Qed.

  Lemma stack_result ms e :
    snd (build_stack layer_wrap (innermost answer) ms e) = back ms (answer (through (rev ms) e)).
  Proof.
    revert e. induction ms as [|w ms IH] using rev_ind; intros e; [reflexivity|].
    rewrite stack_snoc.
    destruct (build_stack layer_wrap (innermost answer) ms (l_request w e)) as [t r] eqn:E.
    rewrite (wrap_eq _ _ _ _ _ E).
    cbn [snd]. unfold back, through. rewrite fold_left_app, rev_app_distr. cbn [fold_left rev app].
    f_equal. specialize (IH (l_request w e)). rewrite E in IH. exact IH.
  Qed.
  Lemma stack_order ms e :
    map who (fst (build_stack layer_wrap (innermost answer) ms e))
    = map (fun w => (Some (l_name w), true)) (rev ms) ++ [(None, true)]
      ++ map (fun w => (Some (l_name w), false)) ms.
  Proof.
    revert e. induction ms as [|w ms IH] using rev_ind; intros e; [reflexivity|].
    rewrite stack_snoc.
    destruct (build_stack layer_wrap (innermost answer) ms (l_request w e)) as [t r] eqn:E.
    rewrite (wrap_eq _ _ _ _ _ E).
    specialize (IH (l_request w e)). rewrite E in IH. cbn [fst] in IH |- *.
    rewrite rev_app_distr. cbn [rev app map who]. rewrite !map_app, IH. cbn [map who app].
    rewrite <- !app_assoc. reflexivity.
  Qed.
  Lemma stack_sees ms e before w after : ms = before ++ w :: after ->
    let t := fst (build_stack layer_wrap (innermost answer) ms e) in
    In (Request (l_name w) (through (rev after) e)) t
    /\ In (Response (l_name w) (back before (answer (through (rev ms) e)))) t.
  Proof.
    cbv zeta. revert e after. induction ms as [|v ms IH] using rev_ind; intros e after H.
    - destruct before; discriminate.
    - rewrite stack_snoc.
      destruct (build_stack layer_wrap (innermost answer) ms (l_request v e)) as [t r] eqn:E.
      rewrite (wrap_eq _ _ _ _ _ E).
      cbn [fst]. rewrite rev_app_distr. cbn [rev app].
      destruct (rev_ind (fun after => after = [] \/ exists a u, after = a ++ [u]) (or_introl eq_refl)
                  (fun u a _ => or_intror (ex_intro _ a (ex_intro _ u eq_refl))) after) as [->|(a & u & ->)].
      + apply app_inj_tail in H. destruct H as [-> ->]. split.
        * left. reflexivity.
        * right. apply in_or_app. right. left. f_equal.
          pose proof (stack_result before (l_request w e)) as R. rewrite E in R. cbn [snd] in R. exact R.
      + change (before ++ w :: a ++ [u]) with (before ++ (w :: a) ++ [u]) in H.
        rewrite app_assoc in H. apply app_inj_tail in H. destruct H as [H ->].
        specialize (IH (l_request u e) a H). rewrite E in IH. cbn [fst] in IH. destruct IH as [I1 I2].
        rewrite rev_app_distr. cbn [rev app]. split.
        * right. apply in_or_app. left. exact I1.
        * right. apply in_or_app. left. exact I2.
  Qed.

  Lemma build_nth (inner : app_run) ops1 ops2 : forall ms,
    nth_error (build_run layer_wrap inner ms (ops1 ++ BBuild :: ops2)) (builds ops1)
    = Some (build_stack layer_wrap inner (ms ++ added ops1)).
  Proof.
    unfold builds, added. induction ops1 as [|o ops1 IH]; intros ms; cbn [app build_run filter flat_map].
    - rewrite app_nil_r. reflexivity.
    - destruct o; cbn [length nth_error app].
      + rewrite IH, <- app_assoc. reflexivity.
      + apply IH.
      + cbn [filter length nth_error]. apply IH.
  Qed.
End layers.

(** ** The application *)
Lemma get_response_cases float_of fmul {X Req Args Resp : Type} (mro_of : X -> list nat)
    (catchable : X -> bool) (exc : exn -> X) (route : Req -> outcome (str * Args))
    (action : nat -> Req -> Args -> outcome Resp) (on_exception : nat -> Req -> X -> outcome Resp)
    (method : Req -> str) (accept language charset : Req -> option str) fs hfs hs a req :
  add_exception_handlers [] hfs = (hs, None) ->
  good_headers float_of (accept req) (language req) (charset req) a ->
  (forall h, In h (handlers_of hfs) -> good_offer (h_repr h)) ->
  let d := add_bindings new_dispatcher fs in
  let found name := lookup float_of fmul d name (method req) (accept req) (language req) (charset req) in
  let answer := get_response float_of fmul mro_of catchable exc route action on_exception
                  method accept language charset d hs req in
  (exists r, endpoint_answers route action found req r /\ answer = Ret _ r)
  \/ (exists x, goes_wrong exc route action found req x /\
       ((catchable x = true /\
         exists h, right_handler (handlers_of hfs) (mro_of x) a h
                   /\ answer = on_exception (r_self h) req x)
        \/ ((catchable x = false \/ no_handler (handlers_of hfs) (mro_of x) a) /\ answer = Exc _ x))).
Proof.
  intros HH GH GO d found answer. subst answer. unfold get_response.
  assert (A : (exists r, endpoint_answers route action found req r /\
                attempt float_of fmul exc route action method accept language charset d req = Ret _ r)
     \/ (exists x, goes_wrong exc route action found req x /\
                attempt float_of fmul exc route action method accept language charset d req = Exc _ x)).
  { unfold attempt. destruct (route req) as [[name args]|x] eqn:Er.
    - change (lookup float_of fmul d name (method req) (accept req) (language req) (charset req)) with (found name).
      destruct (found name) as [b|e] eqn:Ef; cbn [lift].
      + destruct (action (r_self b) req args) as [r|x] eqn:Ea.
        * left. exists r. split; [|reflexivity]. exists name, args, b. auto.
        * right. exists x. split; [|reflexivity]. right; right. exists name, args, b. auto.
      + right. exists (exc e). split; [|reflexivity]. right; left. exists name, args, e. auto.
    - right. exists x. split; [|reflexivity]. left. exact Er. }
  destruct A as [(r & E & ->)|(x & E & ->)].
  - left. exists r. auto.
  - right. exists x. split; [exact E|].
    destruct (catchable x) eqn:Ec.
    + destruct (exception_lookup_ok float_of fmul hfs hs (accept req) (language req) (charset req) a HH GH GO (mro_of x))
        as [(h & -> & R)|[-> N]]; cbn [lift].
      * left. split; [reflexivity|]. exists h. auto.
      * right. auto.
    + right. auto.
Qed.
