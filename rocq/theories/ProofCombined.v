From Coq Require Import Arith List NArith ZArith Bool Lia.
From Verif Require Import PyStr PyStrFacts ModelMultiDict ModelOrdered ModelCombined SpecMultiDict SpecOrdered SpecCombined ProofMultiDict ProofOrdered.
Import ListNotations.
Open Scope N_scope.

Section Comb.
  Context {V : Type}.
  Implicit Types d : mdict V.
  Implicit Types ds : combined V.
  Notation sdec := (list_eq_dec N.eq_dec).

  Lemma proper_get d k l : proper d -> dget d k = Some l -> exists v t, l = v :: t.
  Proof.
    intros [_ H] E. apply dget_In in E. rewrite Forall_forall in H. specialize (H _ E). cbn in H. destruct l; [congruence|eauto].
  Qed.
  Lemma contains_get d k : m_contains d k = match dget d k with Some _ => true | None => false end.
  Proof. reflexivity. Qed.

  Lemma held_cons d ds k : held (d :: ds) k = m_getlist d k ++ held ds k.
  Proof. reflexivity. Qed.
  Lemma c_getitem_spec ds k : Forall proper ds -> c_getitem ds k = match held ds k with v :: _ => Ok v | [] => Raise KeyError end.
  Proof.
    induction 1 as [|d ds Hd H IH]; cbn [c_getitem]; auto. rewrite held_cons, contains_get. unfold m_getitem, m_getlist.
    destruct (dget d k) eqn:E; [|exact IH]. destruct (proper_get _ _ _ Hd E) as (v & t & ->). reflexivity.
  Qed.
  Lemma c_get_spec ds k x : Forall proper ds -> c_get ds k x = Ok (match held ds k with v :: _ => v | [] => x end).
  Proof.
    induction 1 as [|d ds Hd H IH]; cbn [c_get]; auto. rewrite held_cons, contains_get. unfold m_getitem, m_getlist.
    destruct (dget d k) eqn:E; [|exact IH]. destruct (proper_get _ _ _ Hd E) as (v & t & ->). reflexivity.
  Qed.
  Lemma c_getlist_spec ds k : c_getlist ds k = held ds k.
  Proof.
    unfold c_getlist. enough (H : forall acc, fold_left (fun rv d => rv ++ m_getlist d k) ds acc = acc ++ held ds k) by apply (H []).
    induction ds as [|d ds IH]; intros acc; cbn [fold_left]; [rewrite app_nil_r; auto|]. rewrite IH, held_cons, app_assoc. auto.
  Qed.
  Lemma c_getlist_typed_spec {W} ds k (conv : V -> res W) : c_getlist_typed ds k conv = convert_all conv (held ds k).
  Proof.
    induction ds as [|d ds IH]; cbn [c_getlist_typed]; auto. rewrite held_cons, IH.
    assert (E : m_getlist_typed d k conv = convert_all conv (m_getlist d k)) by (unfold m_getlist_typed, m_getlist; destruct (dget d k); auto).
    rewrite E. clear E. induction (m_getlist d k) as [|v l IHl]; cbn [convert_all app bind].
    - destruct (convert_all conv (held ds k)); auto.
    - destruct (conv v) as [w|e]; [|destruct (is_value_error e); auto]. rewrite <- IHl.
      destruct (convert_all conv l); cbn [bind]; auto. destruct (convert_all conv (held ds k)); auto.
  Qed.

  (** ** keys *)
  Lemma set_add_spec s k : NoDup s -> NoDup (set_add s k) /\ forall x, In x (set_add s k) <-> In x s \/ x = k.
  Proof.
    intros H. unfold set_add. destruct (existsb (eqs k) s) eqn:E.
    - split; auto. intros x. split; auto. intros [Hx| ->]; auto. apply existsb_exists in E as (y & Hy & Ey). apply eqs_eq in Ey. subst. auto.
    - split.
      + apply nodup_snoc; auto. intros X. assert (existsb (eqs k) s = true); [|congruence]. apply existsb_exists. exists k. split; auto. apply eqs_refl.
      + intros x. rewrite in_app_iff. cbn. split; intros [Hx|Hx]; auto. destruct Hx as [->|[]]; auto.
  Qed.
  Lemma set_adds_spec l : forall s, NoDup s -> NoDup (fold_left set_add l s) /\ forall x, In x (fold_left set_add l s) <-> In x s \/ In x l.
  Proof.
    induction l as [|k l IH]; intros s H; cbn [fold_left]; [split; auto; intros; cbn; tauto|].
    destruct (set_add_spec s k H) as [H1 H2]. destruct (IH _ H1) as [H3 H4]. split; auto. intros x. rewrite H4, H2. cbn. split; intros; [|]; intuition auto.
  Qed.
  Lemma c_keys_spec ds : NoDup (c_keys ds) /\ forall k, In k (c_keys ds) <-> exists d, In d ds /\ In k (map fst d).
  Proof.
    unfold c_keys. enough (H : forall s, NoDup s -> NoDup (fold_left (fun s d => fold_left set_add (m_keys d) s) ds s) /\
      forall k, In k (fold_left (fun s d => fold_left set_add (m_keys d) s) ds s) <-> In k s \/ exists d, In d ds /\ In k (map fst d)).
    { destruct (H [] (NoDup_nil _)) as [H1 H2]. split; auto. intros k. rewrite H2. cbn. tauto. }
    induction ds as [|d ds IH]; intros s H; cbn [fold_left].
    - split; auto. intros k. split; auto. intros [Hk|(d & [] & _)]; auto.
    - destruct (set_adds_spec (m_keys d) s H) as [H1 H2]. destruct (IH _ H1) as [H3 H4]. split; auto. intros k. rewrite H4, H2. unfold m_keys. split.
      + intros [[Hk|Hk]|(d' & Hd & Hk)]; auto; right; [exists d|exists d']; cbn; auto.
      + intros [Hk|(d' & [->|Hd] & Hk)]; auto. right. eauto.
  Qed.
  Lemma c_contains_spec ds k : c_contains ds k = true <-> exists d, In d ds /\ In k (map fst d).
  Proof.
    unfold c_contains. rewrite existsb_exists. split; intros (d & Hd & Hk); exists d; split; auto.
    - rewrite contains_get in Hk. destruct (dget d k) eqn:E; [|discriminate]. apply dget_In in E. apply (in_map fst) in E. auto.
    - rewrite contains_get. destruct (dget d k) eqn:E; auto. apply dget_none in E. contradiction.
  Qed.
  Lemma held_in ds k : Forall proper ds -> (held ds k <> [] <-> exists d, In d ds /\ In k (map fst d)).
  Proof.
    intros H. split.
    - induction ds as [|d ds IH]; cbn; [congruence|]. intros Hh. unfold m_getlist in Hh. inversion H; subst.
      destruct (dget d k) eqn:E.
      + exists d. split; auto. apply dget_In in E. apply (in_map fst) in E. auto.
      + destruct (IH H3 Hh) as (d' & ? & ?). eauto.
    - intros (d & Hd & Hk). rewrite Forall_forall in H. specialize (H _ Hd).
      assert (exists l, dget d k = Some l) as (l & E) by (destruct (dget d k) eqn:E; eauto; apply dget_none in E; contradiction).
      destruct (proper_get _ _ _ H E) as (v & t & ->). apply in_split in Hd as (p & q & ->). unfold held. rewrite map_app, concat_app. cbn.
      unfold m_getlist at 2. rewrite E. intros X. apply app_eq_nil in X as [_ X]. discriminate.
  Qed.

  (** ** get with a type *)
  Lemma heads_total ds k : Forall proper ds -> exists l, heads ds k l.
  Proof.
    induction 1 as [|d ds Hd H [l IH]]; [exists []; constructor|]. destruct (dget d k) eqn:E.
    - destruct (proper_get _ _ _ Hd E) as (v & t & ->). exists (v :: l). eapply heads_take; [apply dget_In; eauto|auto].
    - exists l. apply heads_skip; auto. apply dget_none. auto.
  Qed.
  Lemma fa_total {W} (conv : V -> res W) l : exists r, first_accepted conv l r.
  Proof.
    induction l as [|v l [r IH]]; [eexists; constructor|]. destruct (conv v) as [w|e] eqn:E; [eexists; eapply fa_ok; eauto|].
    destruct (is_value_error e) eqn:F.
    - exists r. eapply fa_refused; eauto. destruct e; try discriminate; auto.
    - eexists. eapply fa_raised; eauto; intros ->; discriminate.
  Qed.
  Lemma nodup_get d k l : NoDup (map fst d) -> In (k, l) d -> dget d k = Some l.
  Proof.
    intros H Hi. induction d as [|[k0 l0] d IH]; [destruct Hi|]. cbn [dget]. cbn in H. inversion H; subst. destruct (eqs k k0) eqn:E.
    - apply eqs_eq in E. subst. destruct Hi as [Hi|Hi]; [congruence|]. apply (in_map fst) in Hi. contradiction.
    - destruct Hi as [Hi|Hi]; auto. inversion Hi; subst. rewrite eqs_refl in E. discriminate.
  Qed.
  Lemma c_get_typed_spec {W} ds k (conv : V -> res W) x l : Forall proper ds -> heads ds k l -> forall r, first_accepted conv l r ->
    c_get_typed ds k conv x = match r with Some y => y | None => Ok x end.
  Proof.
    intros Hp Hh. induction Hh as [k|d ds k l Hn Hh IH|d ds k v vs l Hi Hh IH]; intros r Hr; cbn [c_get_typed].
    - inversion Hr. auto.
    - inversion Hp; subst. rewrite contains_get. rewrite (proj2 (dget_none d k) Hn). auto.
    - inversion Hp as [|d0 ds0 [Hd _] Hp']; subst. rewrite contains_get. unfold m_getitem. rewrite (nodup_get _ _ _ Hd Hi). cbn [first bind].
      inversion Hr as [|v0 l0 w Hc|v0 l0 e r0 Hc He Hr'|v0 l0 e Hc He1 He2]; subst; rewrite Hc.
      + auto.
      + assert (is_value_error e = true) as -> by (destruct He; subst; auto). auto.
      + assert (is_value_error e = false) as -> by (destruct e; auto; congruence). auto.
  Qed.

  (** ** listings *)
  Definition head_of (kl : str * list V) : list (str * V) := match snd kl with v :: _ => [(fst kl, v)] | [] => [] end.
  Definition expand (kl : str * list V) : list (str * V) := map (fun v => (fst kl, v)) (snd kl).
  Lemma of_key_app (a b : pairs V) k : of_key (a ++ b) k = of_key a k ++ of_key b k.
  Proof. unfold of_key. rewrite filter_app, map_app. auto. Qed.
  Lemma of_key_expand k0 (l : list V) k : of_key (map (fun v => (k0, v)) l) k = if sdec k0 k then l else [].
  Proof.
    unfold of_key. induction l as [|v l IH]; cbn [map filter]; [destruct (sdec k0 k); auto|]. unfold has_key at 1. cbn [fst].
    destruct (sdec k0 k); cbn [map snd]; [f_equal|]; auto.
  Qed.
  Lemma of_key_multi d k : NoDup (map fst d) -> of_key (m_items_multi d) k = m_getlist d k.
  Proof.
    unfold m_items_multi, m_getlist. induction d as [|[k0 l0] d IH]; intros H; [reflexivity|]. cbn [flat_map fst snd dget].
    rewrite of_key_app, of_key_expand. cbn in H. inversion H; subst. rewrite (IH H3). destruct (sdec k0 k) as [->|Hn].
    - rewrite eqs_refl. rewrite (proj2 (dget_none d k) H2), app_nil_r. auto.
    - destruct (eqs k k0) eqn:E; [apply eqs_eq in E; congruence|]. auto.
  Qed.
  Lemma c_items_multi_spec ds k : Forall proper ds -> of_key (c_items_multi ds) k = held ds k.
  Proof.
    induction 1 as [|d ds [Hd _] H IH]; [reflexivity|]. unfold c_items_multi in *. cbn [flat_map]. rewrite of_key_app, IH, held_cons, of_key_multi; auto.
  Qed.
  Lemma firsts_expand (gs : list (str * list V)) : Forall (fun kl => snd kl <> []) gs -> firsts (flat_map expand gs) = firsts (flat_map head_of gs).
  Proof.
    induction 1 as [|[k l] gs Hl H IH]; [reflexivity|]. cbn [flat_map]. unfold expand at 1, head_of at 1. cbn [fst snd] in *.
    destruct l as [|v l]; [congruence|]. cbn [map app firsts]. f_equal. rewrite <- !firsts_other. rewrite <- IH || idtac.
    assert (E : other_keys (map (fun v0 => (k, v0)) l ++ flat_map expand gs) k = other_keys (flat_map expand gs) k).
    { unfold other_keys. rewrite filter_app. replace (filter _ (map _ l)) with (@nil (str * V)); auto.
      clear. induction l as [|x l IHl]; auto. cbn [map filter]. unfold has_key at 1. cbn [fst]. destruct (sdec k k); [auto|congruence]. }
    rewrite E, !firsts_other. f_equal. exact IH.
  Qed.
  Lemma items_heads d : Forall (fun kl => snd kl <> []) d -> m_items d = Ok (flat_map head_of d).
  Proof.
    unfold m_items. induction 1 as [|[k l] d Hl H IH]; auto. cbn [traverse fst snd] in *. destruct l as [|v l]; [congruence|]. cbn [first bind].
    rewrite IH. reflexivity.
  Qed.
  Lemma flat_concat {A B} (f : A -> list B) (l : list (list A)) : flat_map (flat_map f) l = flat_map f (concat l).
  Proof. induction l; cbn; auto. rewrite flat_map_app, IHl. auto. Qed.
  Lemma c_items_loop_spec ds : Forall proper ds -> c_items_loop ds = Ok (flat_map (flat_map head_of) ds).
  Proof.
    induction 1 as [|d ds [_ Hd] H IH]; auto. cbn [c_items_loop]. rewrite (items_heads _ Hd), IH. reflexivity.
  Qed.
  Lemma c_items_spec ds : Forall proper ds -> c_items ds = Ok (firsts (c_items_multi ds)).
  Proof.
    intros H. unfold c_items. rewrite c_items_loop_spec by auto. cbn [bind]. rewrite unseen_firsts. unfold c_items_multi, m_items_multi.
    change (flat_map (fun d => flat_map expand d) ds) with (flat_map (flat_map expand) ds) in *.
    f_equal. etransitivity; [|symmetry; exact (f_equal firsts (flat_concat expand ds))]. rewrite (flat_concat head_of ds).
    symmetry. apply firsts_expand. clear -H. induction H as [|d ds [_ Hd] H IH]; cbn; [constructor|]. apply Forall_app. auto.
  Qed.

  Lemma extend_keys d : forall rv, NoDup (map fst d) -> forall k,
    dget (fold_left extend_key d rv) k = match dget d k with Some l => Some (match dget rv k with Some p => p ++ l | None => l end) | None => dget rv k end.
  Proof.
    induction d as [|[k0 l0] d IH]; intros rv H k; cbn [fold_left dget]; auto. cbn in H. inversion H; subst. rewrite IH by auto.
    assert (E : dget (extend_key rv (k0, l0)) k = if sdec k k0 then Some (match dget rv k0 with Some p => p ++ l0 | None => l0 end) else dget rv k).
    { unfold extend_key. cbn [fst snd]. destruct (dget rv k0) eqn:F; rewrite dget_dset'; destruct (sdec k k0); subst; auto. }
    rewrite E. destruct (sdec k k0) as [->|Hn].
    - rewrite eqs_refl. rewrite (proj2 (dget_none d k0) H2). auto.
    - destruct (eqs k k0) eqn:F; [apply eqs_eq in F; congruence|]. auto.
  Qed.
  Lemma extend_nodup d : forall rv : dict (list V), NoDup (map fst rv) -> NoDup (map fst (fold_left extend_key d rv)).
  Proof.
    induction d as [|kl d IH]; intros rv H; auto. cbn [fold_left]. apply IH. unfold extend_key. destruct (dget rv (fst kl)); apply dset_NoDup; auto.
  Qed.
  Lemma c_lists_spec ds : Forall proper ds -> NoDup (map fst (c_lists ds)) /\
    forall k, dget (c_lists ds) k = match held ds k with [] => None | l => Some l end.
  Proof.
    intros Hp. unfold c_lists. enough (H : forall rv, NoDup (map fst rv) -> NoDup (map fst (fold_left (fun rv d => fold_left extend_key (m_lists d) rv) ds rv)) /\
      forall k, dget (fold_left (fun rv d => fold_left extend_key (m_lists d) rv) ds rv) k =
        match dget rv k with Some p => Some (p ++ held ds k) | None => match held ds k with [] => None | l => Some l end end) by (apply (H []); constructor).
    induction Hp as [|d ds Hd H IH]; intros rv Hrv; cbn [fold_left].
    - split; auto. intros k. cbn. destruct (dget rv k); auto. rewrite app_nil_r. auto.
    - destruct (IH (fold_left extend_key (m_lists d) rv)) as [G1 G2]; [apply extend_nodup; auto|]. split; auto.
      intros k. rewrite G2. unfold m_lists. rewrite extend_keys by apply Hd. rewrite held_cons. unfold m_getlist. destruct (dget d k) eqn:E; auto.
      destruct (proper_get _ _ _ Hd E) as (v & t & ->). destruct (dget rv k); [rewrite app_assoc; auto|]. reflexivity.
  Qed.
  Lemma d_update_get {X} (b : dict X) : forall a, NoDup (map fst b) -> forall k, dget (d_update a b) k = match dget b k with Some x => Some x | None => dget a k end.
  Proof.
    unfold d_update. induction b as [|[k0 x0] b IH]; intros a H k; cbn [fold_left dget fst snd]; auto. cbn in H. inversion H; subst. rewrite IH by auto.
    destruct (eqs k k0) eqn:E.
    - apply eqs_eq in E. subst. rewrite (proj2 (dget_none b k0) H2), dget_dset_eq. auto.
    - rewrite dget_dset_neq; auto. intros ->. rewrite eqs_refl in E. discriminate.
  Qed.
  Lemma heads_keys d : Forall (fun kl => snd kl <> []) d -> map fst (flat_map head_of d) = map fst d.
  Proof. induction 1 as [|[k l] d Hl H IH]; auto. cbn [flat_map map]. rewrite map_app, IH. unfold head_of. cbn [fst snd] in *. destruct l; [congruence|]. auto. Qed.
  Lemma heads_get d k : proper d -> dget (flat_map head_of d) k = match m_getlist d k with v :: _ => Some v | [] => None end.
  Proof.
    intros [_ Hd]. unfold m_getlist. induction d as [|[k0 l0] d IH]; [reflexivity|]. inversion Hd; subst. cbn [flat_map dget] in *. unfold head_of at 1. cbn [fst snd] in *.
    destruct l0 as [|v l0]; [congruence|]. cbn [app dget]. destruct (eqs k k0); auto.
  Qed.
  Lemma to_dict_heads d : proper d -> m_to_dict d = Ok (flat_map head_of d).
  Proof.
    intros [H1 H2]. unfold m_to_dict. rewrite items_heads by auto. cbn [bind]. f_equal.
    apply (fold_dset_nodup (flat_map head_of d) []). cbn. rewrite heads_keys; auto.
  Qed.
  Lemma c_to_dict_spec ds : Forall proper ds -> exists t, c_to_dict ds = Ok t /\ NoDup (map fst t) /\
    forall k, dget t k = match held ds k with v :: _ => Some v | [] => None end.
  Proof.
    unfold c_to_dict. induction 1 as [|d ds Hd H (t & IH1 & IHn & IH2)]; [exists []; repeat split; auto; constructor|].
    cbn [rev]. rewrite fold_left_app, IH1. cbn [fold_left bind]. rewrite (to_dict_heads _ Hd). cbn [bind]. eexists. split; [reflexivity|].
    split.
    - unfold d_update. clear -IHn. revert t IHn. induction (flat_map head_of d) as [|x l IH]; intros t Ht; auto. cbn [fold_left]. apply IH, dset_NoDup. auto.
    - intros k. rewrite d_update_get by (rewrite heads_keys; apply Hd). rewrite heads_get, held_cons, IH2 by auto.
      destruct (m_getlist d k); auto.
  Qed.
  Lemma to_dict_lists_same d : NoDup (map fst d) -> m_to_dict_lists d = d.
  Proof. intros H. apply (fold_dset_nodup d []). exact H. Qed.
  Lemma c_to_dict_lists_spec ds k : Forall proper ds ->
    dget (c_to_dict_lists ds) k = match find (fun d => m_contains d k) ds with Some d => Some (m_getlist d k) | None => None end.
  Proof.
    unfold c_to_dict_lists. induction 1 as [|d ds Hd H IH]; [reflexivity|]. cbn [rev find]. rewrite fold_left_app. cbn [fold_left].
    rewrite d_update_get by (rewrite to_dict_lists_same; apply Hd). rewrite to_dict_lists_same by apply Hd. rewrite contains_get.
    destruct (dget d k) eqn:E; [|exact IH]. unfold m_getlist. rewrite E. auto.
  Qed.
End Comb.

Section Eq.
  Context {V : Type} (veq : V -> V -> bool).
  Lemma leq_in_l : forall a b x, leq veq a b = true -> In x a -> exists y, In y b /\ veq x y = true.
  Proof.
    induction a as [|x0 a IH]; intros [|y0 b] x H Hx; try discriminate; [destruct Hx|]. cbn in H. apply andb_prop in H as [H1 H2].
    destruct Hx as [->|Hx]; [exists y0; split; auto; left; auto|]. destruct (IH _ _ H2 Hx) as (y & Hy & E). exists y. split; auto. right. auto.
  Qed.
  Lemma leq_in_r : forall a b y, leq veq a b = true -> In y b -> exists x, In x a /\ veq x y = true.
  Proof.
    induction a as [|x0 a IH]; intros [|y0 b] y H Hy; try discriminate; [destruct Hy|]. cbn in H. apply andb_prop in H as [H1 H2].
    destruct Hy as [->|Hy]; [exists x0; split; auto; left; auto|]. destruct (IH _ _ H2 Hy) as (x & Hx & E). exists x. split; auto. right. auto.
  Qed.
  Lemma in_multi (d : mdict V) k v : In (k, v) (m_items_multi d) <-> exists l, In (k, l) d /\ In v l.
  Proof.
    unfold m_items_multi. rewrite in_flat_map. split.
    - intros ([k0 l] & H1 & H2). cbn in H2. apply in_map_iff in H2 as (v0 & E & Hv). inversion E; subst. eauto.
    - intros (l & H1 & H2). exists (k, l). split; auto. cbn. apply in_map_iff. eauto.
  Qed.
  Lemma in_tagged (l : list (str * V)) i k v : In (i, (k, v)) (map (fun kv => (@None nat, kv)) l) <-> i = None /\ In (k, v) l.
  Proof.
    rewrite in_map_iff. split.
    - intros ([k0 v0] & E & H). inversion E; subst. auto.
    - intros [-> H]. eauto.
  Qed.
  Lemma md_hash_eq (fhash : list (option nat * (str * V)) -> Z) a b : lawful veq fhash -> NoDup (map fst a) -> NoDup (map fst b) ->
    md_eq veq a b = true -> md_hash fhash a = md_hash fhash b.
  Proof.
    intros HL Ha Hb H. unfold md_eq in H. apply andb_prop in H as [H1 H2]. apply Nat.eqb_eq in H1. rewrite forallb_forall in H2.
    assert (Hab : forall k l, In (k, l) a -> exists l', In (k, l') b /\ leq veq l l' = true).
    { intros k l Hi. specialize (H2 _ Hi). cbn in H2. destruct (dget b k) eqn:E; [|discriminate]. apply dget_In in E. eauto. }
    assert (Hba : forall k, In k (map fst b) -> In k (map fst a)).
    { apply NoDup_length_incl; auto.
      - rewrite !map_length. rewrite H1. auto.
      - intros k Hk. apply in_map_iff in Hk as ([k0 l] & <- & Hi). destruct (Hab _ _ Hi) as (l' & Hl & _). apply (in_map fst) in Hl. auto. }
    unfold md_hash. apply HL.
    - intros i k v Hi. apply in_tagged in Hi as [-> Hi]. apply in_multi in Hi as (l & Hl & Hv). destruct (Hab _ _ Hl) as (l' & Hl' & E).
      destruct (leq_in_l _ _ _ E Hv) as (w & Hw & Ew). exists w. split; auto. apply in_tagged. split; auto. apply in_multi. eauto.
    - intros i k w Hi. apply in_tagged in Hi as [-> Hi]. apply in_multi in Hi as (l' & Hl' & Hw).
      assert (Hk : In k (map fst a)) by (apply Hba; apply (in_map fst) in Hl'; auto).
      apply in_map_iff in Hk as ([k0 l] & Ek & Hl). cbn in Ek. subst k0. destruct (Hab _ _ Hl) as (l2 & Hl2 & E).
      assert (l2 = l') as -> by (apply (nodup_get _ _ _ Hb) in Hl2, Hl'; congruence).
      destruct (leq_in_r _ _ _ E Hw) as (v & Hv & Ev). exists v. split; auto. apply in_tagged. split; auto. apply in_multi. eauto.
  Qed.
  Lemma enum_eq : forall (a b : list (str * V)) n, pairs_eq veq a b = true ->
    (forall i k v, In (i, (k, v)) (enum n a) -> exists w, In (i, (k, w)) (enum n b) /\ veq v w = true) /\
    (forall i k w, In (i, (k, w)) (enum n b) -> exists v, In (i, (k, v)) (enum n a) /\ veq v w = true).
  Proof.
    induction a as [|[k1 v1] a IH]; intros [|[k2 v2] b] n H; try discriminate; [split; intros ? ? ? []|].
    cbn in H. apply andb_prop in H as [H1 H2]. apply andb_prop in H1 as [H0 H1]. apply eqs_eq in H0. subst k2.
    destruct (IH b (S n) H2) as [G1 G2]. split; intros i k v [E|Hi].
    - inversion E; subst. exists v2. split; auto. left. auto.
    - destruct (G1 _ _ _ Hi) as (w & Hw & Ew). exists w. split; auto. right. auto.
    - inversion E; subst. exists v1. split; auto. left. auto.
    - destruct (G2 _ _ _ Hi) as (w & Hw & Ew). exists w. split; auto. right. auto.
  Qed.
  Lemma omd_hash_eq (fhash : list (option nat * (str * V)) -> Z) m1 m2 : lawful veq fhash ->
    omd_eq veq (o_init m1) (o_init m2) = Some true -> exists h, omd_hash fhash (o_init m1) = Some h /\ omd_hash fhash (o_init m2) = Some h.
  Proof.
    intros HL H. pose proof (ordered_refines m1 [] (Forall_nil _)) as [[R1 _] _]. pose proof (ordered_refines m2 [] (Forall_nil _)) as [[R2 _] _].
    cbn [o_run seq_run] in R1, R2. unfold omd_eq in H. unfold omd_hash. rewrite R1, R2 in *. inversion H as [E]. exists (fhash (enum 0 (pairs_of m1))).
    split; auto. cbn. f_equal. destruct (enum_eq _ _ 0 E) as [G1 G2]. symmetry. apply HL; auto.
  Qed.
  Lemma omd_eq_spec m1 m2 : omd_eq veq (o_init m1) (o_init m2) = Some (pairs_eq veq (pairs_of m1) (pairs_of m2)).
  Proof.
    pose proof (ordered_refines m1 [] (Forall_nil _)) as [[R1 _] _]. pose proof (ordered_refines m2 [] (Forall_nil _)) as [[R2 _] _].
    cbn [o_run seq_run] in R1, R2. unfold omd_eq. rewrite R1, R2. auto.
  Qed.
  Lemma leq_spec a b : leq veq a b = true <-> Forall2 (fun x y => veq x y = true) a b.
  Proof.
    revert b. induction a as [|x a IH]; intros [|y b]; cbn [leq]; split; intros H; try discriminate; try (inversion H; fail); auto.
    - apply andb_true_iff in H as [H1 H2]. constructor; auto. apply IH; auto.
    - inversion H; subst. apply andb_true_iff. split; auto. apply IH; auto.
  Qed.
  Lemma of_key_none (s : pairs V) k : of_key s k = [] <-> ~ In k (map fst s).
  Proof.
    unfold of_key. induction s as [|[k' v] s IH]; cbn [filter map fst In]; [tauto|]. unfold has_key at 1. cbn [fst].
    destruct (list_eq_dec N.eq_dec k' k) as [->|n]; cbn [map snd]; [split; [discriminate|tauto]|]. rewrite IH. tauto.
  Qed.
  (** an ordered dict against a plain one *)
  Lemma omd_eq_multi_spec m (d : mdict V) : proper d ->
    exists b, omd_eq_multi veq (o_init m) d = Some b /\
      (b = true <-> forall k, Forall2 (fun x y => veq x y = true) (m_getlist d k) (of_key (pairs_of m) k)).
  Proof.
    intros [D1 D2]. pose proof (ordered_refines m [] (Forall_nil _)) as [(_ & _ & R3 & _ & _ & _ & _ & R8 & _) _]. cbn [o_run seq_run] in R3, R8.
    unfold omd_eq_multi. rewrite R3, R8. unfold m_len.
    change (fst (pairs_of m, [])) with (pairs_of m). set (s := pairs_of m) in *.
    assert (K : forall k, m_getlist d k <> [] <-> In k (map fst d)).
    { intros k. unfold m_getlist. destruct (dget d k) as [l|] eqn:E.
      - apply dget_In in E. split; [intros _; apply in_map_iff; exists (k, l); auto|]. intros _. rewrite Forall_forall in D2. apply (D2 _ E).
      - apply dget_none in E. tauto. }
    assert (P : forall k, of_key s k <> [] <-> In k (map fst (firsts s))).
    { intros k. rewrite firsts_in, of_key_none. destruct (in_dec (list_eq_dec N.eq_dec) k (map fst s)); tauto. }
    assert (F2 : forall k, Forall2 (fun x y => veq x y = true) (m_getlist d k) (of_key s k) -> (m_getlist d k <> [] <-> of_key s k <> [])).
    { intros k H. inversion H; split; congruence. }
    assert (N : forall a b : list str, NoDup a -> NoDup b -> length a = length b -> incl a b -> incl b a).
    { intros a b Ha Hb L I. apply NoDup_length_incl; auto. lia. }
    destruct (Nat.eqb_spec (length (firsts s)) (length d)) as [L|L]; cbn [option_map]; (eexists; split; [reflexivity|]).
    - rewrite forallb_forall. split.
      + intros H k. destruct (in_dec (list_eq_dec N.eq_dec) k (map fst (firsts s))) as [i|n].
        * apply leq_spec. apply in_map_iff in i as ([k' v] & <- & Hi). apply (H (k', of_key s k')). apply in_map_iff. exists (k', v). auto.
        * assert (n2 : ~ In k (map fst d)).
          { intros Hk. apply n. clear n. assert (Q : incl (map fst d) (map fst (firsts s))); [|apply Q; auto]. apply N; auto using firsts_nodup; [rewrite !map_length; auto|].
            clear k Hk. intros k Hk. apply K. assert (E : leq veq (m_getlist d k) (of_key s k) = true).
            { apply in_map_iff in Hk as ([k' v] & <- & Hi). apply (H (k', of_key s k')). apply in_map_iff. exists (k', v). auto. }
            apply leq_spec, F2 in E. apply E. apply P. auto. }
          rewrite <- P in n. rewrite <- K in n2. destruct (m_getlist d k); [|exfalso; apply n2; discriminate]. destruct (of_key s k); [constructor|exfalso; apply n; discriminate].
      + intros H [k l] Hi. apply in_map_iff in Hi as ([k' v] & E & Hi). inversion E; subst. cbn [fst snd]. apply leq_spec. auto.
    - split; [discriminate|]. intros H. exfalso. apply L.
      assert (I : forall k, In k (map fst (firsts s)) <-> In k (map fst d)).
      { intros k. rewrite <- P, <- K. symmetry. apply F2, H. }
      rewrite <- (map_length fst (firsts s)), <- (map_length fst d). apply Nat.le_antisymm; apply NoDup_incl_length; auto using firsts_nodup; intros k; apply I.
  Qed.
End Eq.
