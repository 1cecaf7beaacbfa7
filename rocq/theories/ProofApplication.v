From Coq Require Import Arith List NArith ZArith Bool Lia Permutation.
From Verif Require Import PyStr PyStrFacts Utf8 ModelUrls ModelRoute SpecRoute ModelAccept SpecAccept ModelDispatch SpecDispatch ProofDispatch
  ModelResponse ModelUtils ModelRequest ModelApplication SpecApplication.
From Verif Require ModelUrlMap SpecUrlMap ProofUrlMap.
Import ListNotations.
Open Scope N_scope.
Ltac inv H := inversion H; subst; clear H.

(** ** Histories *)
Lemma declared_app h1 h2 : declared (h1 ++ h2) = declared h1 ++ declared h2.
Proof. apply flat_map_app. Qed.
Lemma uses_app h1 h2 k : uses (h1 ++ h2) k = uses h1 k ++ uses h2 k.
Proof. apply flat_map_app. Qed.
Lemma proper_snoc h c : proper (h ++ [c]) -> proper h.
Proof. intros P h1 k name f h2 ->. apply (P h1 k name f (h2 ++ [c])). rewrite <- app_assoc. reflexivity. Qed.
Lemma uses_high h k : proper h -> (length (declared h) <= k)%nat -> uses h k = [].
Proof.
  induction h as [|c h IH] using rev_ind; intros P L; [reflexivity|].
  rewrite uses_app, declared_app, app_length in *. rewrite IH by (eauto using proper_snoc || lia).
  destruct c; try reflexivity. cbn. destruct (Nat.eqb_spec k k0) as [->|]; [|reflexivity].
  specialize (P h k0 name f [] eq_refl). lia.
Qed.

(** What the closure of decorator [k] holds after the history *)
Definition current (h : list call) (k : nat) : option decorator :=
  match nth_error (declared h) k with
  | None => None
  | Some x =>
      match uses h k with
      | [] => Some x
      | names => Some (mk_decorator (Some (endpoint_of x names)) None (x_methods x) (x_repr x))
      end
  end.

Lemma nth_set {A} (l : list A) k x j : (k < length l)%nat ->
  nth_error (set_nth l k x) j = if (k =? j)%nat then Some x else nth_error l j.
Proof.
  unfold set_nth. revert l j. induction k as [|k IH]; intros [|y l] j H; cbn in H; try lia.
  - destruct j; reflexivity.
  - destruct j; [reflexivity|]. cbn. apply IH. lia.
Qed.
Lemma set_nth_length {A} (l : list A) k x : (k < length l)%nat -> length (set_nth l k x) = length l.
Proof. intros H. unfold set_nth. rewrite app_length, firstn_length. cbn [length]. rewrite skipn_length. lia. Qed.

Section builder.
  Variable mk : str -> option str -> res converter.
  Variables ip_ok nfkc_ok : str -> bool.
  Variable norm : str -> res str.
  Notation step := (step mk ip_ok nfkc_ok norm).
  Notation build_app := (build_app mk ip_ok nfkc_ok norm).
  Notation build_map := (build_map mk).
  Definition run_calls (dr : option nat) (h : list call) : builder := fold_left step h (new_builder dr).

  Lemma step_build u root : u_routes (step u (CBuild root)) = u_routes u /\ u_bindings (step u (CBuild root)) = u_bindings u /\
    u_handlers (step u (CBuild root)) = u_handlers u /\ u_decorators (step u (CBuild root)) = u_decorators u.
  Proof. cbn. unfold ModelApplication.build_app. destruct (build_map _ _ _). auto. Qed.

  Lemma plain_route_eq text e : plain_route text e =
    if unusable (Some text) then Raise ValueError else Ok (route_for text e).
  Proof.
    unfold plain_route, ModelUrlMap.new_route, unusable, route_for. destruct text as [|c text]; [reflexivity|].
    cbn [starts]. destruct (N.eqb_spec 47 c) as [<-|N]; [destruct text; reflexivity|].
    cbn [andb]. destruct c as [|p]; [reflexivity|]. do 6 (destruct p as [p|p|]; try reflexivity). congruence.
  Qed.

  Lemma collected dr h : proper h ->
    let u := run_calls dr h in
    collect routes_added h (u_routes u) /\ collect bindings_added h (u_bindings u) /\
    (exists l, collect handlers_added h l /\ u_handlers u = u_handlers (new_builder dr) ++ l) /\
    length (u_decorators u) = length (declared h) /\
    forall k, nth_error (u_decorators u) k = current h k.
  Proof.
    induction h as [|c h IH] using rev_ind; intros P.
    { cbn. split; [constructor|]. split; [constructor|]. split; [exists []; split; [constructor|rewrite app_nil_r; auto]|].
      split; [reflexivity|]. intros [|k]; reflexivity. }
    specialize (IH (proper_snoc _ _ P)). cbn [run_calls] in *. unfold run_calls in *. rewrite fold_left_app. cbn [fold_left].
    set (u := fold_left step h (new_builder dr)) in *. clearbody u.
    destruct IH as (R & B & (l & L & Hh) & Len & D).
    assert (Hadd : forall A (f : list call -> call -> list A) x, collect f h x -> f h c = [] -> collect f (h ++ [c]) x).
    { intros A f x C E. rewrite <- (app_nil_r x), <- E. constructor. exact C. }
    assert (Cur : forall k, (match c with CExpose _ | CDecorate _ _ _ => False | _ => True end) -> current (h ++ [c]) k = current h k).
    { intros k Hc. unfold current. rewrite declared_app, uses_app. destruct c; try contradiction; cbn [declared uses flat_map app]; rewrite !app_nil_r; reflexivity. }
    destruct c.
    - cbn [ModelApplication.step u_routes u_bindings u_handlers u_decorators]. split; [apply (co_snoc routes_added h _ (CAddRoutes l0)); auto|]. split; [apply Hadd; auto|].
      split; [exists l; split; auto|]. rewrite declared_app. cbn. rewrite app_nil_r. split; [auto|]. intros k. rewrite Cur by exact I. auto.
    - cbn [ModelApplication.step u_routes u_bindings u_handlers u_decorators]. split; [apply Hadd; auto|]. split; [apply (co_snoc bindings_added h _ (CAddBindings l0)); auto|].
      split; [exists l; split; auto|]. rewrite declared_app. cbn. rewrite app_nil_r. split; [auto|]. intros k. rewrite Cur by exact I. auto.
    - cbn [ModelApplication.step u_routes u_bindings u_handlers u_decorators]. split; [apply Hadd; auto|]. split; [apply Hadd; auto|].
      split; [exists (l ++ l0); split; [apply (co_snoc handlers_added h _ (CAddHandlers l0)); auto|rewrite Hh, app_assoc; auto]|].
      rewrite declared_app. cbn. rewrite app_nil_r. split; [auto|]. intros k. rewrite Cur by exact I. auto.
    - cbn [ModelApplication.step u_routes u_bindings u_handlers u_decorators]. split; [apply Hadd; auto|]. split; [apply Hadd; auto|].
      split; [exists l; split; auto|]. rewrite declared_app, !app_length, Len. cbn. split; [auto|]. intros k.
      unfold current. rewrite declared_app, uses_app. cbn [uses flat_map declared app]. rewrite app_nil_r.
      destruct (Nat.lt_trichotomy k (length (declared h))) as [H|[H|H]].
      + rewrite !nth_error_app1 by lia. apply D.
      + rewrite !nth_error_app2 by lia. rewrite Len, H, Nat.sub_diag. cbn. rewrite uses_high; [reflexivity|eauto using proper_snoc|lia].
      + rewrite (proj2 (nth_error_None _ k)) by (rewrite app_length; cbn; lia). rewrite (proj2 (nth_error_None _ k)) by (rewrite app_length; cbn; lia). reflexivity.
    - assert (K : (k < length (declared h))%nat) by (apply (P h k name f []); reflexivity).
      assert (Hd : forall k', nth_error (declared (h ++ [CDecorate k name f])) k' = nth_error (declared h) k') by (intros; rewrite declared_app; cbn; rewrite app_nil_r; auto).
      assert (Hl : length (declared (h ++ [CDecorate k name f])) = length (declared h)) by (rewrite declared_app; cbn; rewrite app_nil_r; auto).
      destruct (nth_error (declared h) k) as [x|] eqn:Ex; [|apply nth_error_None in Ex; lia].
      pose proof (D k) as Dk. unfold current in Dk. rewrite Ex in Dk.
      cbn [ModelApplication.step]. unfold decorate.
      set (names := uses h k) in *. set (x0 := match names with [] => x | _ => mk_decorator (Some (endpoint_of x names)) None (x_methods x) (x_repr x) end).
      assert (Dk' : nth_error (u_decorators u) k = Some x0) by (rewrite Dk; subst x0; destruct names; auto). rewrite Dk'. clear Dk.
      set (e := match x_endpoint x0 with Some e => e | None => name end).
      assert (He : e = endpoint_of x (names ++ [name])).
      { subst e x0. unfold endpoint_of. destruct names as [|n names]; cbn; destruct (x_endpoint x); reflexivity. }
      assert (Hm : x_methods x0 = x_methods x /\ x_repr x0 = x_repr x) by (subst x0; destruct names; auto). destruct Hm as [Hm Hr]. rewrite Hm, Hr.
      assert (HD : forall k', nth_error (set_nth (u_decorators u) k (mk_decorator (Some e) None (x_methods x) (x_repr x))) k' = current (h ++ [CDecorate k name f]) k').
      { intros k'. rewrite nth_set by lia. unfold current. rewrite Hd, uses_app. cbn [uses flat_map app]. rewrite Nat.eqb_sym.
        destruct (Nat.eqb_spec k' k) as [->|Nk].
        - rewrite Ex. fold names. cbn [app]. rewrite He. destruct names; reflexivity.
        - rewrite app_nil_r. apply D. }
      assert (HLen : length (set_nth (u_decorators u) k (mk_decorator (Some e) None (x_methods x) (x_repr x))) = length (declared (h ++ [CDecorate k name f]))) by (rewrite set_nth_length by lia; rewrite Hl; auto).
      assert (HH : exists l', collect handlers_added (h ++ [CDecorate k name f]) l' /\ u_handlers u = u_handlers (new_builder dr) ++ l') by (exists l; split; [apply Hadd; auto|auto]).
      assert (Rt : x_route x0 = match names with [] => x_route x | _ => None end) by (subst x0; destruct names; auto). rewrite Rt. clear Rt.
      assert (Ra : routes_added h (CDecorate k name f) = match names with [] => match x_route x with Some text => if unusable (Some text) then [] else [ORoute (Exposed k) (route_for text e)] | None => [] end | _ => [] end).
      { cbn [routes_added]. rewrite Ex. fold names. rewrite He. destruct names; reflexivity. }
      assert (Ba : bindings_added h (CDecorate k name f) = if (match names with [] => unusable (x_route x) | _ => false end) then [] else
         [FView (view_bindings e (x_methods x) (mk_repr f (r_content_type (x_repr x)) (r_language (x_repr x)) (r_charset (x_repr x)) (r_qs (x_repr x))))]).
      { cbn [bindings_added]. rewrite Ex. fold names. rewrite He. unfold view_bindings. destruct names; reflexivity. }
      destruct names as [|n names'] eqn:En.
      + destruct (x_route x) as [text|] eqn:Ert.
        * rewrite plain_route_eq. destruct (unusable (Some text)) eqn:Eu.
          -- cbn [fst u_routes u_bindings u_handlers u_decorators]. split; [apply Hadd; auto|]. split; [apply Hadd; auto|]. auto.
          -- cbn [fst u_routes u_bindings u_handlers u_decorators]. rewrite <- Ra, <- Ba. split; [constructor; auto|]. split; [constructor; auto|]. auto.
        * cbn [fst u_routes u_bindings u_handlers u_decorators]. split; [apply Hadd; auto|]. cbn [unusable] in Ba; rewrite <- Ba. split; [constructor; auto|]. auto.
      + cbn [fst u_routes u_bindings u_handlers u_decorators]. split; [apply Hadd; auto|]. rewrite <- Ba. split; [constructor; auto|]. auto.
    - destruct (step_build u root) as (-> & -> & -> & ->). split; [apply Hadd; auto|]. split; [apply Hadd; auto|].
      split; [exists l; split; auto|]. rewrite declared_app. cbn. rewrite app_nil_r. split; [auto|]. intros k. rewrite Cur by exact I. auto.
  Qed.

  (** ** Building *)
  Lemma rid_eqb_eq i j : rid_eqb i j = true <-> i = j.
  Proof. destruct i, j; cbn; try (split; discriminate); rewrite Nat.eqb_eq; split; intros H; congruence. Qed.
  Lemma existsb_rid i l : existsb (rid_eqb i) l = true <-> In i l.
  Proof.
    rewrite existsb_exists. split; [intros (x & H & E)|intros H; exists i; split; auto]; [apply rid_eqb_eq in E; congruence|apply rid_eqb_eq; auto].
  Qed.
  Lemma build_map_ok l : forall bound m bound' m' g, build_map bound m l = (bound', Ok m') -> SpecUrlMap.made mk g m ->
    SpecUrlMap.made mk g m' /\ ModelUrlMap.m_config m' = ModelUrlMap.m_config m /\
    NoDup (route_objects l) /\ (forall i, In i (route_objects l) -> ~ In i bound) /\
    (forall i, In i bound' <-> In i bound \/ In i (route_objects l)) /\
    exists specs new, SpecUrlMap.yields (map factory_of l) specs /\ ModelUrlMap.m_routes m' = ModelUrlMap.m_routes m ++ new /\
      Forall2 (SpecUrlMap.compiled mk (ModelUrlMap.m_config m)) specs new.
  Proof.
    induction l as [|[i s|f] l IH]; intros bound m bound' m' g H M; cbn [ModelApplication.build_map] in H.
    - inv H. split; [auto|]. split; [auto|]. split; [constructor|]. split; [intros i []|]. split; [intros i; cbn; tauto|].
      exists [], []. split; [constructor|]. split; [rewrite app_nil_r; auto|constructor].
    - destruct (existsb (rid_eqb i) bound) eqn:E; [discriminate|].
      destruct (ModelUrlMap.add_routes mk m [ModelUrlMap.FRoute s]) as [m1 [e|]] eqn:Ea; [discriminate|].
      destruct (ProofUrlMap.add_factories_routes mk _ _ _ Ea) as (C & specs & new & Y & R & F).
      specialize (IH _ _ _ _ g H (SpecUrlMap.made_add _ _ _ _ _ M Ea)) as (M' & C' & N & B & B' & specs' & new' & Y' & R' & F').
      split; [auto|]. split; [congruence|]. cbn [route_objects flat_map app].
      assert (Ni : ~ In i bound) by (intros Hi; apply existsb_rid in Hi; congruence).
      split; [constructor; auto; intros Hi; apply (B i Hi); left; auto|].
      split; [intros j [<-|Hj] Hb; [auto|apply (B j Hj); right; auto]|].
      split; [intros j; rewrite B'; cbn [In]; unfold route_objects; tauto|].
      exists (specs ++ specs'), (new ++ new'). inv Y. inv H4. rewrite app_nil_r.
      split; [cbn [map factory_of]; constructor; auto|]. split; [rewrite R', R, app_assoc; auto|]. rewrite app_nil_r in F.
      apply Forall2_app; auto. rewrite <- C. auto.
    - destruct (ModelUrlMap.add_routes mk m [f]) as [m1 [e|]] eqn:Ea; [discriminate|].
      destruct (ProofUrlMap.add_factories_routes mk _ _ _ Ea) as (C & specs & new & Y & R & F).
      specialize (IH _ _ _ _ g H (SpecUrlMap.made_add _ _ _ _ _ M Ea)) as (M' & C' & N & B & B' & specs' & new' & Y' & R' & F').
      split; [auto|]. split; [congruence|]. split; [auto|]. split; [auto|]. split; [auto|].
      exists (specs ++ specs'), (new ++ new'). inv Y. inv H4. rewrite app_nil_r.
      split; [cbn [map factory_of]; constructor; auto|]. split; [rewrite R', R, app_assoc; auto|]. rewrite app_nil_r in F.
      apply Forall2_app; auto. rewrite <- C. auto.
  Qed.
  Lemma build_map_bound l : forall bound m, incl bound (fst (build_map bound m l)).
  Proof.
    induction l as [|[i s|f] l IH]; intros bound m; cbn [ModelApplication.build_map].
    - apply incl_refl.
    - destruct (existsb (rid_eqb i) bound); [apply incl_refl|].
      destruct (ModelUrlMap.add_routes mk m [ModelUrlMap.FRoute s]) as [m1 [e|]]; cbn [fst]; [apply incl_tl, incl_refl|].
      eapply incl_tran; [|apply IH]. apply incl_tl, incl_refl.
    - destruct (ModelUrlMap.add_routes mk m [f]) as [m1 [e|]]; cbn [fst]; [apply incl_refl|apply IH].
  Qed.
  Lemma build_map_again l : forall bound m bound' m' bound2 l2, build_map bound m l = (bound', Ok m') ->
    route_objects l <> [] -> incl (route_objects l) bound2 -> snd (build_map bound2 m (l ++ l2)) = Raise RuntimeError.
  Proof.
    induction l as [|[i s|f] l IH]; intros bound m bound' m' bound2 l2 H N I; cbn [ModelApplication.build_map app] in *; [elim N; reflexivity| |].
    - assert (E : existsb (rid_eqb i) bound2 = true) by (apply existsb_rid, I; left; auto). rewrite E. reflexivity.
    - destruct (ModelUrlMap.add_routes mk m [f]) as [m1 [e|]]; [discriminate|]. eapply IH; eauto.
  Qed.
  Lemma steps_grow h : forall u, incl (u_bound u) (u_bound (fold_left step h u)) /\
    exists l, u_routes (fold_left step h u) = u_routes u ++ l.
  Proof.
    induction h as [|c h IH]; intros u; cbn [fold_left].
    - split; [apply incl_refl|exists []; rewrite app_nil_r; auto].
    - destruct (IH (step u c)) as (I & l & E). rewrite E.
      assert (incl (u_bound u) (u_bound (step u c)) /\ exists l, u_routes (step u c) = u_routes u ++ l) as [I' (l' & E')].
      { destruct c; cbn [ModelApplication.step u_routes u_bound].
        - split; [apply incl_refl|eauto].
        - split; [apply incl_refl|exists []; rewrite app_nil_r; auto].
        - split; [apply incl_refl|exists []; rewrite app_nil_r; auto].
        - split; [apply incl_refl|exists []; rewrite app_nil_r; auto].
        - unfold decorate. destruct (nth_error (u_decorators u) k) as [x|]; [|split; [apply incl_refl|exists []; rewrite app_nil_r; auto]].
          destruct (x_route x); [destruct (plain_route _ _)|]; cbn [fst u_routes u_bound]; (split; [apply incl_refl|]); eauto; exists []; rewrite app_nil_r; auto.
        - unfold ModelApplication.build_app. pose proof (build_map_bound (u_routes u) (u_bound u) (ModelUrlMap.empty_map app_config)) as B.
          destruct (build_map (u_bound u) _ _) as [b r]. cbn [fst u_routes u_bound] in *. split; [auto|exists []; rewrite app_nil_r; auto]. }
      split; [eapply incl_tran; eauto|]. exists (l' ++ l). rewrite E', app_assoc. auto.
  Qed.
  Lemma build_app_inv u root u' p : build_app u root = (u', Ok p) ->
    exists m r s, build_map (u_bound u) (ModelUrlMap.empty_map app_config) (u_routes u) = (u_bound u', Ok m) /\
      ModelUrlMap.urlparse ip_ok nfkc_ok root [] = Ok r /\ norm [] = Ok s /\
      ModelUrlMap.a_map (p_adapter p) = m /\ ModelUrlMap.a_subdomain (p_adapter p) = Some s /\
      norm (ModelUrlMap.p_netloc r) = Ok (ModelUrlMap.a_server (p_adapter p)) /\
      ModelUrlMap.a_scheme (p_adapter p) = ModelUrlMap.p_scheme r /\
      (ModelUrlMap.a_script (p_adapter p) = if ends [47] (ModelUrlMap.p_path r) then ModelUrlMap.p_path r else ModelUrlMap.p_path r ++ [47]) /\
      u_routes u' = u_routes u /\
      p_dispatcher p = add_bindings new_dispatcher (u_bindings u) /\
      add_exception_handlers [] (u_handlers u) = (p_handlers p, None).
  Proof.
    unfold ModelApplication.build_app. destruct (build_map _ _ _) as [b [m|e]] eqn:E; cbn [bind]; [|discriminate]. intros H. injection H as Hu H.
    destruct (ModelUrlMap.urlparse _ _ _ _) as [r|] eqn:Er; cbn [bind] in H; [|discriminate].
    unfold ModelUrlMap.bind_map in H.
    assert (Hc : ModelUrlMap.m_config m = app_config).
    { apply build_map_ok with (g := app_config) in E; [|constructor]. destruct E as (_ & E & _). exact E. }
    rewrite Hc in H. cbn [app_config ModelUrlMap.g_host_matching ModelUrlMap.g_default_subdomain bind] in H.
    destruct (norm []) as [s|] eqn:Es; cbn [bind] in H; [|discriminate].
    destruct (norm (ModelUrlMap.p_netloc r)) as [sv|] eqn:Ev; cbn [bind] in H; [|discriminate].
    exists m, r, s. subst u'. cbn [u_bound u_routes].
    destruct (add_exception_handlers [] (u_handlers u)) as [hs [e|]].
    { destruct s as [|c s]; [|destruct sv]; cbn [is_nil bind] in H; discriminate. }
    destruct s as [|c s]; [|destruct sv]; cbn [is_nil bind] in H; try discriminate; inv H; repeat split; auto.
  Qed.
  Lemma build_again u root u' p h root' : build_app u root = (u', Ok p) -> route_objects (u_routes u) <> [] ->
    snd (build_app (fold_left step h u') root') = Raise RuntimeError.
  Proof.
    intros B N. destruct (build_app_inv _ _ _ _ B) as (m & r & s & E & _ & _ & _ & _ & _ & _ & _ & Ru & _).
    destruct (steps_grow h u') as (I & l & L). unfold ModelApplication.build_app.
    pose proof (build_map_again _ _ _ _ _ (u_bound (fold_left step h u')) l E N) as A. rewrite L, Ru.
    apply build_map_ok with (g := app_config) in E as (_ & _ & _ & _ & Hb & _); [|constructor].
    destruct (build_map (u_bound (fold_left step h u')) (ModelUrlMap.empty_map app_config) (u_routes u ++ l)) as [b [m2|e]]; cbn [snd bind] in *.
    - discriminate A. intros i Hi. apply I, Hb. auto.
    - assert (E : @Raise ModelUrlMap.url_map e = Raise RuntimeError) by (apply A; intros i Hi; apply I, Hb; auto). inv E. reflexivity.
  Qed.
End builder.

(** ** Answers *)
Lemma path_asked a path q0 : ModelUrlMap.m_config (ModelUrlMap.a_map a) = app_config -> ModelUrlMap.a_subdomain a = Some [] ->
  req_path q0 = Ok path -> SpecUrlMap.asked a path (124 :: path).
Proof.
  intros C S. unfold req_path. destruct (wsgi_decoding_dance Replace _) as [raw|] eqn:E; cbn [bind]; [|discriminate]. intros H. inv H.
  apply (SpecUrlMap.as_subdomain a _ [] (lstrip_by (N.eqb 47) raw)); [rewrite C; auto|auto|].
  exists [47]. split; [auto|]. split; [intros c [<-|[]]; auto|]. intros v Hv.
  destruct (lstrip_by_spec (N.eqb 47) raw) as (_ & _ & _ & H). specialize (H _ _ Hv). discriminate.
Qed.
Lemma update_idem m : ModelUrlMap.update (ModelUrlMap.update m) = ModelUrlMap.update m.
Proof. unfold ModelUrlMap.update at 2 3. destruct (ModelUrlMap.m_remap m) eqn:E; unfold ModelUrlMap.update; cbn [ModelUrlMap.m_remap]; rewrite ?E; reflexivity. Qed.
Lemma update_adapter_idem a : ModelUrlMap.update_adapter (ModelUrlMap.update_adapter a) = ModelUrlMap.update_adapter a.
Proof. unfold ModelUrlMap.update_adapter. cbn [ModelUrlMap.a_map ModelUrlMap.a_server ModelUrlMap.a_script ModelUrlMap.a_subdomain ModelUrlMap.a_scheme]. rewrite update_idem. reflexivity. Qed.

Section answers.
  Variable float_of : str -> option fl.
  Variable fmul : fl -> fl -> fl.
  Variable mk : str -> option str -> res converter.
  Variables ip_ok nfkc_ok : str -> bool.
  Variable norm : str -> res str.
  Variable idna_part : str -> res str.
  Variables U Resp : Type.
  Variable mro_of : xn U -> list nat.
  Variable catchable : xn U -> bool.
  Variable action : nat -> dict str -> dict ModelRoute.value -> @outcome (xn U) Resp.
  Variable on_exception : nat -> dict str -> xn U -> @outcome (xn U) Resp.
  Variable of_response : response -> Resp.
  Notation answer := (app_answer float_of fmul ip_ok nfkc_ok idna_part mro_of catchable action on_exception of_response).
  Notation run_handler := (handle ip_ok nfkc_ok idna_part on_exception of_response).
  Notation life := (life float_of fmul ip_ok nfkc_ok idna_part mro_of catchable action on_exception of_response).
  Notation live := (live float_of fmul ip_ok nfkc_ok idna_part mro_of catchable action on_exception of_response).
  Notation build_app := (build_app mk ip_ok nfkc_ok norm).

  Lemma app_made u root u' p : build_app u root = (u', Ok p) -> SpecUrlMap.made mk app_config (ModelUrlMap.a_map (p_adapter p)) /\
    ModelUrlMap.m_config (ModelUrlMap.a_map (p_adapter p)) = app_config.
  Proof.
    intros B. destruct (build_app_inv _ _ _ _ _ _ _ _ B) as (m & r & s & E & _ & _ & Em & _).
    apply build_map_ok with (g := app_config) in E; [|constructor]. rewrite Em. destruct E as (M & C & _). split; [auto|exact C].
  Qed.
  Lemma app_subdomain u root u' p : norm [] = Ok [] -> build_app u root = (u', Ok p) -> ModelUrlMap.a_subdomain (p_adapter p) = Some [].
  Proof. intros N B. destruct (build_app_inv _ _ _ _ _ _ _ _ B) as (m & r & s & E & _ & Es & _ & Hs & _). congruence. Qed.

  Notation raised := (raised action).
  Lemma default_none a l b values q : (forall r, In r l -> r_defaults (ModelUrlMap.b_route r) = []) ->
    ModelUrlMap.default_redirect a l b values q = Ok None.
  Proof.
    induction l as [|r l IH]; intros H; cbn [ModelUrlMap.default_redirect]; [auto|].
    destruct (ModelUrlMap.b_id r =? ModelUrlMap.b_id b)%nat; [auto|].
    unfold provides_defaults_for. rewrite (H r) by (left; auto). rewrite andb_false_r. cbn [andb]. apply IH. intros x Hx. apply H. right; auto.
  Qed.
  Lemma endpoint_in m e r : ProofUrlMap.map_inv m -> In r (ModelUrlMap.endpoint_routes (ModelUrlMap.update m) e) ->
    In r (ModelUrlMap.m_routes m) /\ r_endpoint (ModelUrlMap.b_route r) = e.
  Proof.
    intros I H. destruct (ProofUrlMap.update_inv _ I) as (I' & _ & P).
    apply (Permutation_in _ (ProofUrlMap.mi_perm _ I' e)) in H. unfold ProofUrlMap.with_endpoint in H. apply filter_In in H as [H1 H2].
    split; [apply (Permutation_in _ P); auto|apply eqs_eq; auto].
  Qed.
  Lemma straight_found p path q b : SpecUrlMap.made mk app_config (ModelUrlMap.a_map (p_adapter p)) ->
    ModelUrlMap.m_config (ModelUrlMap.a_map (p_adapter p)) = app_config ->
    SpecUrlMap.asked (p_adapter p) path (124 :: path) -> routed p path b -> straight p path b ->
    exists values, with_values path b values /\ snd (ModelUrlMap.match_path ip_ok nfkc_ok (p_adapter p) path q) = Ok (ModelUrlMap.Found b values).
  Proof.
    intros M C A B ((values & W) & Nr & Nd). exists values. split; [exact W|].
    pose proof (ProofUrlMap.asked_path _ _ _ A) as E.
    assert (Rd : ProofUrlMap.rdefaults (p_adapter p) = true) by (unfold ProofUrlMap.rdefaults; rewrite C; auto).
    assert (Ch : SpecUrlMap.chosen (ProofUrlMap.rdefaults (p_adapter p)) (ModelUrlMap.full_path (p_adapter p) path)
              (ModelUrlMap.m_routes (ModelUrlMap.update (ModelUrlMap.a_map (p_adapter p)))) b) by (rewrite E, Rd; eapply ProofUrlMap.best_chosen; eauto).
    rewrite (ProofUrlMap.match_chosen ip_ok nfkc_ok _ _ q _ Ch). unfold ProofUrlMap.respond.
    rewrite ProofUrlMap.update_adapter_rd, ProofUrlMap.update_adapter_path, E, Rd. unfold with_values in W. rewrite W. cbn [bind].
    unfold ModelUrlMap.matched. cbn [ModelUrlMap.update_adapter ModelUrlMap.a_map]. rewrite ProofUrlMap.update_config, C. cbn [app_config ModelUrlMap.g_redirect_defaults].
    rewrite default_none.
    - cbn [bind]. rewrite Nr. reflexivity.
    - intros r Hr. apply endpoint_in in Hr as [H1 H2]; [|eapply ProofUrlMap.made_inv; eauto]. apply Nd; auto.
  Qed.

  Lemma lookup_raise fs name method a l c e : lookup float_of fmul (add_bindings new_dispatcher fs) name method a l c = Raise e ->
    (e = NotImplemented /\ forall bd, In bd (registered fs) -> b_name bd <> name) \/
    (e = MethodNotAllowed /\ forall bd, ~ serves (registered fs) name method bd) \/
    (negotiation_error e /\ exists bd, serves (registered fs) name method bd).
  Proof.
    intros H. destruct (lookup_outcome float_of fmul fs name method a l c) as (o & O & E). rewrite E in H. destruct O as [N|Nm N|l' S I]; cbn [bind] in H.
    - injection H as <-. auto.
    - injection H as <-. auto.
    - apply select_representation_err in H. auto.
  Qed.

  Lemma app_answer_cases u root u' p environ path q a :
    build_app u root = (u', Ok p) -> norm [] = Ok [] ->
    good_headers float_of (env_accept environ) (env_language environ) (env_charset environ) a ->
    (forall h, In h (handlers_of (u_handlers u)) -> good_offer (h_repr h)) ->
    req_path environ = Ok path -> req_query_string environ = Ok q ->
    (exists b values bd r, routed p path b /\ with_values path b values /\
       serves (registered (u_bindings u)) (r_endpoint (ModelUrlMap.b_route b)) (env_method environ) bd /\
       action (r_self (b_repr bd)) environ values = Ret _ r /\ snd (answer p environ) = Ret _ r) \/
    (exists x, raised u p environ path x /\
       handled mro_of catchable run_handler (handlers_of (u_handlers u)) a environ x (snd (answer p environ))).
  Proof.
    intros B N G GO Hp Hq. destruct (app_made _ _ _ _ B) as [M C]. pose proof (app_subdomain _ _ _ _ N B) as S.
    pose proof (path_asked _ _ _ C S Hp) as A.
    destruct (build_app_inv _ _ _ _ _ _ _ _ B) as (m & r & s & _ & _ & _ & _ & _ & _ & _ & _ & _ & D & H).
    assert (Rd : ModelUrlMap.g_redirect_defaults (ModelUrlMap.m_config (ModelUrlMap.a_map (p_adapter p))) = true) by (rewrite C; auto).
    pose proof (ProofUrlMap.outcome_best ip_ok nfkc_ok mk app_config (p_adapter p) path q (124 :: path) M A) as OB.
    unfold ProofUrlMap.rdefaults in OB. rewrite Rd in OB.
    assert (RT : forall name values, app_route ip_ok nfkc_ok (U := U) (p_adapter p) environ = Ret _ (name, values) ->
       exists b, routed p path b /\ with_values path b values /\ name = r_endpoint (ModelUrlMap.b_route b)).
    { intros name values. unfold app_route. rewrite Hp, Hq. destruct (snd (ModelUrlMap.match_path _ _ _ _ _)) as [[|url|b v]|e] eqn:E; try discriminate.
      intros X. inv X. destruct OB as [[O _]|(b0 & B0 & _ & F)]; [congruence|]. destruct (F b values eq_refl) as [-> W]. exists b0. auto. }
    cbn [snd]. unfold app_answer. cbn [snd]. rewrite D.
    destruct (get_response_cases float_of fmul mro_of catchable XModel (app_route ip_ok nfkc_ok (p_adapter p)) action run_handler
                env_method env_accept env_language env_charset (u_bindings u) (u_handlers u) (p_handlers p) a environ H G GO)
      as [(r0 & (name & args & rp & R1 & R2 & R3) & E)|(x & W & E)].
    - left. destruct (RT _ _ R1) as (b & B1 & B2 & ->). destruct (lookup_found _ _ _ _ _ _ _ _ _ R2) as (bd & Sv & <-).
      exists b, args, bd, r0. auto.
    - right. exists x. split.
      + destruct W as [W|[(name & args & e & R1 & R2 & ->)|(name & args & rp & R1 & R2 & R3)]].
        * unfold app_route in W. rewrite Hp, Hq in W. destruct OB as [[O Nf]|(b0 & B0 & Nn & F)].
          -- rewrite O in W. inv W. constructor. exact Nf.
          -- destruct (snd (ModelUrlMap.match_path _ _ _ _ _)) as [[|url|b v]|e] eqn:Emp; inv W; [congruence| |].
             ++ eapply ra_redirect; [exact B0|]. intros St. destruct (straight_found _ _ q _ M C A B0 St) as (v & _ & Ev). congruence.
             ++ eapply ra_routing; [exact B0|]. intros St. destruct (straight_found _ _ q _ M C A B0 St) as (v & _ & Ev). congruence.
        * destruct (RT _ _ R1) as (b & B1 & B2 & ->). destruct (lookup_raise _ _ _ _ _ _ _ R2) as [[-> Hn]|[[-> Hn]|[Hn (bd & Hs)]]]; [eapply ra_endpoint|eapply ra_method|eapply ra_negotiation]; eauto.
        * destruct (RT _ _ R1) as (b & B1 & B2 & ->). destruct (lookup_found _ _ _ _ _ _ _ _ _ R2) as (bd & Sv & <-). eapply ra_action; eauto.
      + destruct E as [(Ct & h & Rh & ->)|(L & ->)]; [eapply ha_handler; eauto|apply ha_server; exact L].
  Qed.

  Lemma get_response_exc u p environ x a :
    app_route ip_ok nfkc_ok (p_adapter p) environ = Exc _ x \/
    (exists name values, app_route ip_ok nfkc_ok (U := U) (p_adapter p) environ = Ret _ (name, values) /\
       ((exists e, lookup float_of fmul (p_dispatcher p) name (env_method environ) (env_accept environ) (env_language environ) (env_charset environ) = Raise e /\ x = XModel e) \/
        (exists rp, lookup float_of fmul (p_dispatcher p) name (env_method environ) (env_accept environ) (env_language environ) (env_charset environ) = Ok rp /\
           action (r_self rp) environ values = Exc _ x))) ->
    add_exception_handlers [] (u_handlers u) = (p_handlers p, None) ->
    good_headers float_of (env_accept environ) (env_language environ) (env_charset environ) a ->
    (forall h, In h (handlers_of (u_handlers u)) -> good_offer (h_repr h)) ->
    handled mro_of catchable run_handler (handlers_of (u_handlers u)) a environ x (snd (answer p environ)).
  Proof.
    intros W H G GO. unfold app_answer. cbn [snd]. unfold get_response.
    assert (E : attempt float_of fmul XModel (app_route ip_ok nfkc_ok (p_adapter p)) action env_method env_accept env_language env_charset (p_dispatcher p) environ = Exc _ x).
    { unfold attempt. destruct W as [->|(name & values & -> & [(e & -> & ->)|(rp & -> & Ea)])]; auto. }
    rewrite E. destruct (catchable x) eqn:Ec; [|apply ha_server; left; auto].
    destruct (exception_lookup_ok float_of fmul (u_handlers u) (p_handlers p) _ _ _ a H G GO (mro_of x)) as [(r & Er & Rh)|(Er & Nh)]; rewrite Er; cbn [lift].
    - apply ha_handler; auto.
    - apply ha_server. right. auto.
  Qed.
  Lemma app_served u root u' p environ path q a b values :
    build_app u root = (u', Ok p) -> norm [] = Ok [] ->
    good_headers float_of (env_accept environ) (env_language environ) (env_charset environ) a ->
    (forall h, In h (handlers_of (u_handlers u)) -> good_offer (h_repr h)) ->
    (forall bd, In bd (registered (u_bindings u)) -> good_offer (b_repr bd)) ->
    req_path environ = Ok path -> req_query_string environ = Ok q ->
    routed p path b -> straight p path b -> with_values path b values ->
    (exists bd, serves (registered (u_bindings u)) (r_endpoint (ModelUrlMap.b_route b)) (env_method environ) bd) ->
    (exists bd, serves (registered (u_bindings u)) (r_endpoint (ModelUrlMap.b_route b)) (env_method environ) bd /\ admitted a (b_repr bd) /\
       match action (r_self (b_repr bd)) environ values with
       | Ret _ r => snd (answer p environ) = Ret _ r
       | Exc _ x => handled mro_of catchable run_handler (handlers_of (u_handlers u)) a environ x (snd (answer p environ))
       end) \/
    ((forall bd, serves (registered (u_bindings u)) (r_endpoint (ModelUrlMap.b_route b)) (env_method environ) bd -> ~ admitted a (b_repr bd)) /\
     handled mro_of catchable run_handler (handlers_of (u_handlers u)) a environ (XModel NotAcceptable) (snd (answer p environ))).
  Proof.
    intros B N G GO GB Hp Hq R St W Sv. destruct (app_made _ _ _ _ B) as [M C]. pose proof (app_subdomain _ _ _ _ N B) as S.
    pose proof (path_asked _ _ _ C S Hp) as A.
    destruct (build_app_inv _ _ _ _ _ _ _ _ B) as (m & r & s & _ & _ & _ & _ & _ & _ & _ & _ & _ & D & H).
    destruct (straight_found p path q b M C A R St) as (v & Wv & F). assert (v = values) as -> by (unfold with_values in *; congruence).
    assert (RT : app_route ip_ok nfkc_ok (U := U) (p_adapter p) environ = Ret _ (r_endpoint (ModelUrlMap.b_route b), values)).
    { unfold app_route. rewrite Hp, Hq, F. reflexivity. }
    destruct (lookup_serves float_of fmul (u_bindings u) _ _ _ _ _ a G GB Sv) as [(bd & S1 & S2 & L)|(L & Nn)]; rewrite <- D in L.
    - left. exists bd. split; [auto|]. split; [auto|]. destruct (action (r_self (b_repr bd)) environ values) as [r0|x] eqn:Ea.
      + unfold app_answer. cbn [snd]. unfold get_response, attempt. rewrite RT, L. cbn [lift]. rewrite Ea. reflexivity.
      + eapply get_response_exc; eauto. right. eexists _, _. split; [exact RT|]. right. exists (b_repr bd). auto.
    - right. split; [auto|]. eapply get_response_exc; eauto. right. eexists _, _. split; [exact RT|]. left. eauto.
  Qed.
  Lemma app_not_found u root u' p environ path q a :
    build_app u root = (u', Ok p) -> norm [] = Ok [] ->
    good_headers float_of (env_accept environ) (env_language environ) (env_charset environ) a ->
    (forall h, In h (handlers_of (u_handlers u)) -> good_offer (h_repr h)) ->
    req_path environ = Ok path -> req_query_string environ = Ok q -> unrouted p path ->
    handled mro_of catchable run_handler (handlers_of (u_handlers u)) a environ XNotFound (snd (answer p environ)).
  Proof.
    intros B N G GO Hp Hq Un. destruct (app_made _ _ _ _ B) as [M C]. pose proof (app_subdomain _ _ _ _ N B) as S.
    pose proof (path_asked _ _ _ C S Hp) as A.
    destruct (build_app_inv _ _ _ _ _ _ _ _ B) as (m & r & s & _ & _ & _ & _ & _ & _ & _ & _ & _ & D & H).
    eapply get_response_exc; eauto. left. unfold app_route. rewrite Hp, Hq.
    pose proof (ProofUrlMap.outcome_best ip_ok nfkc_ok mk app_config (p_adapter p) path q (124 :: path) M A) as [[-> _]|(b & B0 & _)]; [reflexivity|].
    exfalso. unfold ProofUrlMap.rdefaults in B0. rewrite C in B0. apply (Un b); [apply (SpecUrlMap.best_in _ _ _ _ B0)|apply (SpecUrlMap.best_answers _ _ _ _ B0)].
  Qed.
  (** A redirect and no handler but the default one for its classes *)
  Lemma app_redirects u p environ path q url c a :
    add_exception_handlers [] (u_handlers u) = (p_handlers p, None) ->
    good_headers float_of (env_accept environ) (env_language environ) (env_charset environ) a ->
    (forall h, In h (handlers_of (u_handlers u)) -> good_offer (h_repr h)) ->
    req_path environ = Ok path -> req_query_string environ = Ok q ->
    snd (ModelUrlMap.match_path ip_ok nfkc_ok (p_adapter p) path q) = Ok (ModelUrlMap.Redirect url) ->
    In (default_handler c) (u_handlers u) -> In c (mro_of (XRedirect url)) -> catchable (XRedirect url) = true ->
    (forall h, In h (handlers_of (u_handlers u)) -> In (h_class h) (mro_of (XRedirect url)) -> r_self (h_repr h) = 0%nat) ->

    snd (answer p environ) = match redirect idna_part ip_ok nfkc_ok url 301 with
                             | Ok r => Ret _ (of_response r)
                             | Raise e => Exc _ (XModel e)
                             end.
  Proof.
    intros H G GO Hp Hq Em Hd Hc Ct Only.
    assert (Ha : handled mro_of catchable run_handler (handlers_of (u_handlers u)) a environ (XRedirect url) (snd (answer p environ))).
    { eapply get_response_exc; eauto. left. unfold app_route. rewrite Hp, Hq, Em. reflexivity. }
    remember (snd (answer p environ)) as o eqn:Eo. clear Eo. destruct Ha as [[L|L]|r Ct' Rh].
    - congruence.
    - exfalso. apply (L (mk_handler c (mk_repr 0 None None None f_one))); [|exact Hc|exact I]. unfold handlers_of. apply in_flat_map. exists (default_handler c). split; [auto|left; auto].
    - destruct Rh as (before & c' & after & h & Emro & Ih & Ec & <- & _). rewrite (Only h Ih) by (rewrite Ec, Emro; apply in_or_app; right; left; auto). reflexivity.
  Qed.

  (** ** The life of an application *)
  Definition upd (p : application) : application :=
    mk_application (ModelUrlMap.update_adapter (p_adapter p)) (p_dispatcher p) (p_handlers p).
  Lemma upd_upd p : upd (upd p) = upd p.
  Proof. unfold upd. cbn [p_adapter p_dispatcher p_handlers]. rewrite update_adapter_idem. reflexivity. Qed.
  Lemma live_next p e : fst (live p e) = p \/ fst (live p e) = upd p.
  Proof.
    destruct e as [environ|endpoint values]; cbn [ModelApplication.live].
    - unfold app_answer. cbn [fst]. destruct (req_path environ), (req_query_string environ); auto; left; destruct p; auto.
    - right. reflexivity.
  Qed.
  Lemma match_upd a p q : snd (ModelUrlMap.match_path ip_ok nfkc_ok (ModelUrlMap.update_adapter a) p q) = snd (ModelUrlMap.match_path ip_ok nfkc_ok a p q).
  Proof. unfold ModelUrlMap.match_path. rewrite update_adapter_idem. reflexivity. Qed.
  Lemma get_response_ext {X Req Args Resp' : Type} (mro : X -> list nat) ct exc (r1 r2 : Req -> @outcome X (str * Args)) act onx me ac la ch d hs req :
    r1 req = r2 req -> @get_response float_of fmul X Req Args Resp' mro ct exc r1 act onx me ac la ch d hs req = get_response float_of fmul mro ct exc r2 act onx me ac la ch d hs req.
  Proof. intros E. unfold get_response, attempt. rewrite E. reflexivity. Qed.
  Lemma live_upd p e : snd (live (upd p) e) = snd (live p e).
  Proof.
    destruct e as [environ|endpoint values]; cbn [ModelApplication.live].
    - unfold app_answer. cbn [snd]. f_equal. apply get_response_ext. unfold app_route, upd. cbn [p_adapter].
      destruct (req_path environ), (req_query_string environ); auto. rewrite match_upd. reflexivity.
    - unfold url_for, upd. cbn [p_adapter]. unfold ModelUrlMap.build. rewrite update_adapter_idem. reflexivity.
  Qed.
  Lemma life_replies l : forall p, snd (life p l) = map (fun e => snd (live p e)) l.
  Proof.
    assert (H : forall l p p', p' = p \/ p' = upd p -> snd (life p' l) = map (fun e => snd (live p e)) l).
    { clear l. induction l as [|e l IH]; intros p p' Hp; cbn [ModelApplication.life map]; [auto|].
      assert (E1 : snd (live p' e) = snd (live p e)) by (destruct Hp as [-> | ->]; auto using live_upd).
      assert (E2 : fst (live p' e) = p \/ fst (live p' e) = upd p).
      { destruct (live_next p' e) as [E|E]; rewrite E; [auto|]. destruct Hp as [-> | ->]; auto. rewrite upd_upd. auto. }
      destruct (live p' e) as [p1 r1]. cbn [fst snd] in *. specialize (IH p p1 E2). destruct (life p1 l) as [p2 rs]. cbn [snd] in *. congruence. }
    intros p. apply H. auto.
  Qed.
End answers.
