From Coq Require Import Arith List NArith ZArith Bool Lia.
From Verif Require Import PyStr PyStrFacts ModelMultiDict SpecMultiDict.
Import ListNotations.
Open Scope N_scope.
Ltac inv H := inversion H; subst; clear H.

Section MD.
  Context {V : Type}.
  Implicit Types d : mdict V.
  Implicit Types m : multimap V.
  Notation sdec := (list_eq_dec N.eq_dec).

  Definition full d : Prop := Forall (fun kl => snd kl <> []) d.
  Definition rep d m : Prop :=
    NoDup (map fst d) /\ full d /\ mm_keys m = map fst d /\ forall k, mm_vals m k = m_getlist d k.

  Lemma eqs_sym a b : eqs a b = eqs b a.
  Proof.
    destruct (eqs a b) eqn:E; symmetry.
    - apply eqs_eq in E. subst. apply eqs_refl.
    - destruct (eqs b a) eqn:F; auto. apply eqs_eq in F. subst. rewrite eqs_refl in E. discriminate.
  Qed.
  Lemma dget_dset' d k l k' : dget (dset d k l) k' = if sdec k' k then Some l else dget d k'.
  Proof.
    destruct (sdec k' k) as [->|Hn]; [apply dget_dset_eq|]. apply dget_dset_neq. congruence.
  Qed.
  Lemma dget_ddel' d k k' : dget (ddel d k) k' = if sdec k' k then None else dget d k'.
  Proof. destruct (sdec k' k) as [->|Hn]; [apply dget_ddel_eq|]. apply dget_ddel_neq. congruence. Qed.
  Lemma dset_keys' d k l : map fst (dset d k l) = if in_dec sdec k (map fst d) then map fst d else map fst d ++ [k].
  Proof.
    induction d as [|[k0 v0] d IH]; cbn [dset map fst].
    - destruct (in_dec sdec k []); auto; destruct i.
    - destruct (eqs k k0) eqn:E.
      + apply eqs_eq in E. subst. cbn [map fst]. destruct (in_dec sdec k0 (k0 :: map fst d)) as [i|n]; auto. destruct n. left; auto.
      + cbn [map fst]. rewrite IH. assert (Hn : k0 <> k) by (intros ->; rewrite eqs_refl in E; discriminate).
        destruct (in_dec sdec k (map fst d)) as [i|n]; destruct (in_dec sdec k (k0 :: map fst d)) as [i'|n']; auto.
        * destruct n'. right; auto.
        * destruct i'; [contradiction|]. contradiction.
  Qed.
  Lemma ddel_keys d k : map fst (ddel d k) = remove sdec k (map fst d).
  Proof.
    unfold ddel. induction d as [|[k0 v0] d IH]; cbn [filter map fst remove]; auto.
    destruct (sdec k k0) as [->|Hn].
    - rewrite eqs_refl. cbn [negb]. auto.
    - destruct (eqs k k0) eqn:E; [apply eqs_eq in E; contradiction|]. cbn [negb map fst]. rewrite IH. auto.
  Qed.
  Lemma getlist_dset d k l k' : m_getlist (dset d k l) k' = if sdec k' k then l else m_getlist d k'.
  Proof. unfold m_getlist. rewrite dget_dset'. destruct (sdec k' k); auto. Qed.
  Lemma getlist_ddel d k k' : m_getlist (ddel d k) k' = if sdec k' k then [] else m_getlist d k'.
  Proof. unfold m_getlist. rewrite dget_ddel'. destruct (sdec k' k); auto. Qed.
  Lemma full_dset d k l : full d -> l <> [] -> full (dset d k l).
  Proof.
    unfold full. intros H Hl. induction d as [|[k0 v0] d IH]; cbn [dset]; [repeat constructor; auto|].
    inv H. destruct (eqs k k0); constructor; auto.
  Qed.
  Lemma full_ddel d k : full d -> full (ddel d k).
  Proof. unfold full, ddel. intros H. rewrite Forall_forall in *. intros x Hx. apply filter_In in Hx. apply H; tauto. Qed.
  Lemma rep_put d m k l : rep d m -> l <> [] -> rep (dset d k l) (put m k l).
  Proof.
    intros (H1 & H2 & H3 & H4) Hl. split; [apply dset_NoDup; auto|]. split; [apply full_dset; auto|]. split.
    - cbn [put mm_keys]. rewrite dset_keys', H3. auto.
    - intros k'. cbn [put mm_vals]. unfold change. rewrite getlist_dset, H4. auto.
  Qed.
  Lemma rep_drop d m k : rep d m -> rep (ddel d k) (drop m k).
  Proof.
    intros (H1 & H2 & H3 & H4). split; [apply ddel_NoDup; auto|]. split; [apply full_ddel; auto|]. split.
    - cbn [drop mm_keys]. rewrite ddel_keys, H3. auto.
    - intros k'. cbn [drop mm_vals]. unfold change. rewrite getlist_ddel, H4. auto.
  Qed.
  Lemma rep_get d m k : rep d m -> dget d k = match mm_vals m k with [] => None | l => Some l end.
  Proof.
    intros (H1 & H2 & H3 & H4). rewrite H4. unfold m_getlist. destruct (dget d k) as [l|] eqn:E; auto.
    apply dget_In in E. unfold full in H2. rewrite Forall_forall in H2. apply H2 in E. cbn in E. destruct l; congruence.
  Qed.
  Lemma rep_append d m k v : rep d m -> rep (m_add d k v) (append m (k, v)).
  Proof.
    intros H. unfold m_add, append. cbn [fst snd]. rewrite (rep_get _ _ k H).
    destruct (mm_vals m k) as [|x l] eqn:E; cbn [app]; apply rep_put; auto; try discriminate.
  Qed.
  Lemma rep_appends l : forall d m, rep d m -> rep (m_adds d l) (fold_left append l m).
  Proof.
    unfold m_adds. induction l as [|[k v] l IH]; intros d m H; auto. cbn [fold_left fst snd]. apply IH. apply rep_append; auto.
  Qed.
  Lemma rep_empty : rep [] mm_empty.
  Proof. repeat constructor. Qed.

  Lemma last_key_spec (l : list str) : last_key l = match rev l with [] => None | k :: _ => Some k end.
  Proof.
    induction l as [|k l IH]; auto. destruct l as [|k' l]; auto. change (last_key (k :: k' :: l)) with (last_key (k' :: l)).
    rewrite IH. cbn [rev]. destruct (rev l) as [|x r]; auto.
  Qed.
  Lemma pop_last_spec d m : rep d m ->
    match last_key (mm_keys m) with
    | None => pop_last d = None
    | Some k => pop_last d = Some (ddel d k, (k, mm_vals m k)) /\ mm_vals m k <> []
    end.
  Proof.
    intros H. pose proof H as (H1 & H2 & H3 & H4). rewrite last_key_spec, H3, <- map_rev. unfold pop_last.
    destruct (rev d) as [|[k l] r] eqn:E; [reflexivity|]. cbn [map fst].
    assert (Ed : d = rev r ++ [(k, l)]) by (rewrite <- (rev_involutive d), E; auto).
    assert (Eg : dget d k = Some l). { apply In_dget; auto. rewrite Ed. apply in_or_app. right. left. auto. }
    assert (Em : mm_vals m k = l) by (rewrite H4; unfold m_getlist; rewrite Eg; auto).
    split.
    - rewrite Em. f_equal. f_equal. rewrite Ed. unfold ddel. rewrite filter_app. cbn [filter fst]. rewrite eqs_refl. cbn [negb].
      rewrite app_nil_r. rewrite Ed, map_app in H1. cbn [map fst] in H1.
      assert (Hn : ~ In k (map fst (rev r))). { apply NoDup_remove_2 in H1. rewrite app_nil_r in H1. auto. }
      clear -Hn. induction (rev r) as [|[k0 l0] q IH]; auto. cbn [filter fst map] in *.
      destruct (eqs k k0) eqn:E; [apply eqs_eq in E; subst; destruct Hn; left; auto|]. cbn [negb]. f_equal. apply IH. intros Hi; apply Hn; right; exact Hi.
    - rewrite Em. rewrite Ed in H2. unfold full in H2. apply Forall_app in H2 as [_ H2]. inv H2. auto.
  Qed.

  Lemma ddel_absent d k : dget d k = None -> ddel d k = d.
  Proof.
    intros H. apply dget_none in H. unfold ddel. induction d as [|[k0 v0] d IH]; auto. cbn [filter fst map] in *.
    destruct (eqs k k0) eqn:E; [apply eqs_eq in E; subst; destruct H; left; auto|]. cbn [negb]. f_equal. apply IH. intros Hi; apply H; right; exact Hi.
  Qed.
  Lemma step_rep d m o : rep d m -> full_call o ->
    rep (fst (m_step d o)) (fst (mm_step m o)) /\ snd (m_step d o) = snd (mm_step m o).
  Proof.
    intros H Ho. destruct o as [k v|k l|k v|k v|k l|s|k dflt| |k| |k|]; cbn [m_step mm_step].
    - cbn [fst snd]. split; auto. apply rep_append; auto.
    - destruct l; [contradiction|]. cbn [fst snd]. split; auto. apply rep_put; auto. discriminate.
    - cbn [fst snd]. split; auto. apply rep_put; auto. discriminate.
    - unfold m_contains, dhas, m_getitem. rewrite (rep_get _ _ k H). destruct (mm_vals m k) as [|x l]; cbn [fst snd].
      + split; auto. apply rep_put; auto. discriminate.
      + split; auto.
    - rewrite (rep_get _ _ k H). destruct l; [contradiction|]. destruct (mm_vals m k) as [|x l']; cbn [fst snd].
      + split; auto. apply rep_put; auto. discriminate.
      + auto.
    - cbn [fst snd]. split; auto. apply rep_appends; auto.
    - rewrite (rep_get _ _ k H). destruct (mm_vals m k) as [|x l] eqn:E; [destruct dflt; auto|]. cbn [fst snd first bind].
      split; auto. apply rep_drop; auto.
    - pose proof (pop_last_spec d m H) as P. destruct (last_key (mm_keys m)) as [k|].
      + destruct P as [-> P]. cbn [fst snd]. split; [apply rep_drop; auto|]. destruct (mm_vals m k); [congruence|auto].
      + rewrite P. auto.
    - cbn [fst snd]. split; [apply rep_drop; auto|]. destruct H as (_ & _ & _ & H). rewrite H. auto.
    - pose proof (pop_last_spec d m H) as P. destruct (last_key (mm_keys m)) as [k|].
      + destruct P as [-> P]. cbn [fst snd]. split; [apply rep_drop; auto|]. auto.
      + rewrite P. auto.
    - unfold m_contains, dhas. rewrite (rep_get _ _ k H). destruct (mm_vals m k) as [|x l] eqn:E; auto. cbn [fst snd].
      split; auto. apply rep_drop; auto.
    - cbn [fst snd]. split; auto. apply rep_empty.
  Qed.
  Lemma run_rep ops : forall d m, rep d m -> Forall full_call ops ->
    rep (fst (m_run d ops)) (fst (mm_run m ops)) /\ snd (m_run d ops) = snd (mm_run m ops).
  Proof.
    induction ops as [|o ops IH]; intros d m H Ho; auto. inv Ho. cbn [m_run mm_run].
    destruct (step_rep d m o H H2) as [S1 S2].
    destruct (m_step d o) as [d' r], (mm_step m o) as [m' r']. cbn [fst snd] in *. subst r'.
    destruct (IH d' m' S1 H3) as [R1 R2].
    destruct (m_run d' ops) as [d'' rs], (mm_run m' ops) as [m'' rs']. cbn [fst snd] in *. subst. auto.
  Qed.

  Lemma fold_dset {W} (l : list (str * W)) : forall a, NoDup (map fst (a ++ l)) ->
    fold_left (fun a kv => dset a (fst kv) (snd kv)) l a = a ++ l.
  Proof.
    induction l as [|[k v] l IH]; intros a H; cbn [fold_left fst snd]; [rewrite app_nil_r; auto|].
    rewrite dset_notin.
    - rewrite IH; rewrite <- app_assoc; auto.
    - apply dget_none. rewrite map_app in H. cbn [map fst] in H. apply NoDup_remove_2 in H. intros Hi. apply H.
      apply in_or_app. left. auto.
  Qed.
  Lemma rep_firsts d m : rep d m -> m_items d = Ok (mm_firsts m).
  Proof.
    intros (H1 & H2 & H3 & H4). unfold m_items, mm_firsts. rewrite H3.
    assert (E : forall k l, In (k, l) d -> mm_vals m k = l).
    { intros k l Hi. rewrite H4. unfold m_getlist. rewrite (In_dget _ _ _ H1 Hi). auto. }
    clear H1 H3 H4. induction d as [|[k l] d IH]; auto. inv H2. cbn [traverse map fst snd flat_map].
    rewrite (E k l) by (left; auto). cbn [snd] in H1. destruct l as [|x l]; [congruence|]. cbn [first bind].
    rewrite IH; auto. intros; apply E; right; auto.
  Qed.
  Lemma traverse_values d : m_values d = match m_items d with Ok l => Ok (map snd l) | Raise e => Raise e end.
  Proof.
    unfold m_values, m_items. induction d as [|[k l] d IH]; auto. cbn [traverse snd fst].
    destruct (first l) as [v|e]; cbn [bind]; auto. rewrite IH.
    destruct (traverse (fun kl => do v <- first (snd kl); Ok (fst kl, v)) d); auto.
  Qed.
  Lemma firsts_keys d m : rep d m -> map fst (mm_firsts m) = map fst d.
  Proof.
    intros (H1 & H2 & H3 & H4). unfold mm_firsts. rewrite H3.
    assert (E : forall k, In k (map fst d) -> mm_vals m k <> []).
    { intros k Hi. apply in_map_iff in Hi as ([k' l] & <- & Hi). rewrite H4. unfold m_getlist. cbn [fst].
      rewrite (In_dget _ _ _ H1 Hi). unfold full in H2. rewrite Forall_forall in H2. apply (H2 _ Hi). }
    clear H1 H2 H3 H4. induction (map fst d) as [|k l IH]; auto. cbn [flat_map].
    specialize (E k (or_introl eq_refl)) as Ek. destruct (mm_vals m k); [congruence|]. cbn [app map fst]. rewrite IH; auto.
    intros; apply E; right; auto.
  Qed.
  Lemma rep_lists d m : rep d m -> mm_lists m = d.
  Proof.
    intros (H1 & _ & H3 & H4). unfold mm_lists. rewrite H3, map_map.
    rewrite <- (map_id d) at 2. apply map_ext_in. intros [k l] Hi. rewrite H4. unfold m_getlist. cbn [fst].
    rewrite (In_dget _ _ _ H1 Hi). auto.
  Qed.
  Lemma rep_reads d m : rep d m -> reads_agree d m.
  Proof.
    intros H. pose proof H as (H1 & H2 & H3 & H4). unfold reads_agree.
    pose proof (rep_firsts d m H) as F. pose proof (rep_lists d m H) as L.
    split; [|split; [|split; [|split; [|split; [|split; [|split; [|split; [|split; [|split]]]]]]]]]; auto.
    - intros k. unfold m_getitem, mm_first. rewrite (rep_get _ _ k H). destruct (mm_vals m k); auto.
    - unfold m_items_multi, mm_multi. rewrite H3.
      assert (E : forall k l, In (k, l) d -> mm_vals m k = l).
      { intros k l Hi. rewrite H4. unfold m_getlist. rewrite (In_dget _ _ _ H1 Hi). auto. }
      clear -E. induction d as [|[k l] d IH]; auto. cbn [flat_map map fst snd]. rewrite IH, (E k l); auto; [left; auto|].
      intros; apply E; right; auto.
    - rewrite traverse_values, F. auto.
    - unfold m_len. rewrite H3, map_length. auto.
    - intros k. unfold m_contains, dhas. rewrite (rep_get _ _ k H). destruct (mm_vals m k); intuition congruence.
    - unfold m_to_dict. rewrite F. cbn [bind]. rewrite fold_dset; auto. cbn [app]. rewrite (firsts_keys d m H). auto.
    - unfold m_to_dict_lists, m_lists. rewrite fold_dset; auto.
  Qed.

  (** The constructor *)
  Lemma adds_run (a : mdict V) k (l : list V) : dget a k = None -> forall p, p <> [] ->
    m_adds (a ++ [(k, p)]) (map (fun v => (k, v)) l) = a ++ [(k, p ++ l)].
  Proof.
    intros Hn. induction l as [|y l IH]; intros p Hp; [rewrite app_nil_r; auto|].
    change (m_adds (a ++ [(k, p)]) (map (fun v => (k, v)) (y :: l))) with (m_adds (m_add (a ++ [(k, p)]) k y) (map (fun v => (k, v)) l)).
    assert (E : m_add (a ++ [(k, p)]) k y = a ++ [(k, p ++ [y])]).
    { unfold m_add. assert (Ed : dget (a ++ [(k, p)]) k = Some p).
      { clear -Hn. induction a as [|[k0 l0] a IH]; cbn [app dget] in *; [rewrite eqs_refl; auto|]. destruct (eqs k k0); [discriminate|auto]. }
      rewrite Ed. clear -Hn. induction a as [|[k0 l0] a IH]; cbn [app dset dget] in *; [rewrite eqs_refl; auto|].
      destruct (eqs k k0); [discriminate|]. rewrite IH; auto. }
    rewrite E, IH; [|destruct p; discriminate]. rewrite <- app_assoc. auto.
  Qed.
  Lemma adds_multi d : forall a, NoDup (map fst (a ++ d)) -> full d -> m_adds a (m_items_multi d) = a ++ d.
  Proof.
    unfold m_items_multi. induction d as [|[k l] d IH]; intros a H1 H2; cbn [flat_map fst snd]; [cbn; rewrite app_nil_r; auto|].
    inv H2. unfold m_adds. rewrite fold_left_app. fold (m_adds a (map (fun v => (k, v)) l)).
    assert (E : m_adds a (map (fun v => (k, v)) l) = a ++ [(k, l)]).
    { cbn [snd] in H3. destruct l as [|x l]; [congruence|].
      assert (Hn : dget a k = None).
      { apply dget_none. rewrite map_app in H1. cbn [map fst] in H1. apply NoDup_remove_2 in H1. intros Hi. apply H1. apply in_or_app; auto. }
      change (m_adds a (map (fun v => (k, v)) (x :: l))) with (m_adds (m_add a k x) (map (fun v => (k, v)) l)).
      unfold m_add. rewrite Hn, dset_notin, adds_run; auto. discriminate. }
    rewrite E. change (fold_left (fun d kv => m_add d (fst kv) (snd kv)) ?l ?a) with (m_adds a l). rewrite IH; auto; rewrite <- app_assoc; auto.
  Qed.
  Lemma init_spec (s : source V) : full_source s -> m_init s = m_adds [] (pairs_of s).
  Proof.
    destruct s as [l|d|d]; cbn [m_init pairs_of full_source]; auto.
    - intros [H1 H2].
      set (d' := map (fun kv => (fst kv, match snd kv with One v => [v] | Many l => l end)) d : mdict V).
      assert (E1 : map fst d' = map fst d) by (unfold d'; rewrite map_map; auto).
      assert (E2 : full d').
      { unfold d', full. apply Forall_forall. intros x Hx. apply in_map_iff in Hx as ([k [v|l]] & <- & Hi); cbn; [discriminate|].
        rewrite Forall_forall in H2. apply H2 in Hi. cbn in Hi. destruct l; [contradiction|discriminate]. }
      assert (E3 : flat_map (fun kv => match snd kv with One v => [(fst kv, v)] | Many l => map (fun v => (fst kv, v)) l end) d = m_items_multi d').
      { unfold m_items_multi, d'. clear. induction d as [|[k [v|l]] d IH]; cbn [flat_map map fst snd]; auto; rewrite IH; auto. }
      rewrite E3, adds_multi; auto; [|cbn [app]; rewrite E1; auto]. cbn [app].
      assert (E4 : forall a, fold_left (fun a kv => dset a (fst kv) (match snd kv with One v => [v] | Many l => l end)) d a =
                   fold_left (fun a kv => dset a (fst kv) (snd kv)) d' a).
      { unfold d'. clear. induction d as [|x d IH]; intros a; cbn [fold_left map fst snd]; auto. }
      rewrite E4, fold_dset; auto. cbn [app]. rewrite E1. auto.
    - intros [H1 H2]. rewrite adds_multi; auto. rewrite fold_dset; auto.
  Qed.
  Lemma multidict_refines (s : source V) (ops : list (mop V)) :
    full_source s -> Forall full_call ops ->
    let m0 := fold_left append (pairs_of s) mm_empty in
    snd (m_run (m_init s) ops) = snd (mm_run m0 ops) /\ reads_agree (fst (m_run (m_init s) ops)) (fst (mm_run m0 ops)).
  Proof.
    intros Hs Ho. cbv zeta. rewrite init_spec; auto.
    destruct (run_rep ops _ _ (rep_appends (pairs_of s) _ _ rep_empty) Ho) as [R1 R2]. split; auto. apply rep_reads; auto.
  Qed.

  (** ** update(self) *)
  Lemma m_add_nth d k v j vs : NoDup (map fst d) -> nth_error d j = Some (k, vs) -> nth_error (m_add d k v) j = Some (k, vs ++ [v]).
  Proof.
    intros Hn Hj. unfold m_add. rewrite (In_dget d k vs Hn) by (eapply nth_error_In; eauto).
    revert j Hj. induction d as [|[k0 l0] d IH]; intros j Hj; [destruct j; discriminate|]. cbn [dset].
    destruct j as [|j]; cbn [nth_error] in *.
    - inv Hj. rewrite eqs_refl. auto.
    - inv Hn. destruct (eqs k k0) eqn:E; auto. apply eqs_eq in E. subst. exfalso. apply H1.
      apply nth_error_In in Hj. apply in_map_iff. exists (k0, vs). auto.
  Qed.
  Lemma m_add_nodup d k v : NoDup (map fst d) -> NoDup (map fst (m_add d k v)).
  Proof. intros H. unfold m_add. destruct (dget d k); apply dset_NoDup; auto. Qed.
  Lemma update_self_loops fuel : forall d j i k vs, NoDup (map fst d) -> nth_error d j = Some (k, vs) -> (i < length vs)%nat ->
    update_self fuel d j i = None.
  Proof.
    induction fuel as [|fuel IH]; intros d j i k vs Hn Hj Hi; auto. cbn [update_self]. rewrite Hj.
    destruct (nth_error vs i) as [v|] eqn:E; [|apply nth_error_None in E; lia].
    apply (IH _ _ _ k (vs ++ [v])).
    - apply m_add_nodup; auto.
    - apply m_add_nth; auto.
    - rewrite app_length. cbn. lia.
  Qed.
  Lemma update_self_never d : NoDup (map fst d) -> full d -> d <> [] -> forall fuel, update_self fuel d 0 0 = None.
  Proof.
    intros H1 H2 H3 fuel. destruct d as [|[k vs] d]; [congruence|]. inv H2. cbn [snd] in H4.
    apply (update_self_loops fuel _ 0 0 k vs); auto. destruct vs; [congruence|cbn; lia].
  Qed.

  Lemma update_self_ends d : Forall (fun kl => snd kl = []) d -> forall j, (j <= length d)%nat ->
    forall fuel, (length d - j < fuel)%nat -> update_self fuel d j 0 = Some d.
  Proof.
    intros H j Hj fuel. revert j Hj. induction fuel as [|fuel IH]; intros j Hj Hf; [lia|]. cbn [update_self].
    destruct (nth_error d j) as [[k vs]|] eqn:E; [|reflexivity].
    assert (vs = []) as -> by (rewrite Forall_forall in H; apply (H (k, vs)); eapply nth_error_In; eauto). cbn [nth_error].
    assert (j < length d)%nat by (apply nth_error_Some; congruence). apply IH; lia.
  Qed.
  Lemma update_self_any d : NoDup (map fst d) -> forall fuel j,
    (exists i k vs, (j <= i)%nat /\ nth_error d i = Some (k, vs) /\ vs <> []) -> update_self fuel d j 0 = None.
  Proof.
    intros Hn. induction fuel as [|fuel IH]; intros j (i & k & vs & Hi & E & Hv); [reflexivity|].
    destruct (nth_error d j) as [[k0 vs0]|] eqn:Ej.
    - destruct vs0 as [|v vs0].
      + cbn [update_self]. rewrite Ej. cbn [nth_error]. apply IH. exists i, k, vs. split; [|auto].
        destruct (Nat.eq_dec i j) as [->|]; [|lia]. rewrite Ej in E. congruence.
      + apply (update_self_loops (S fuel) d j 0 k0 (v :: vs0)); auto. cbn. lia.
    - exfalso. apply nth_error_None in Ej. assert (i < length d)%nat by (apply nth_error_Some; congruence). lia.
  Qed.
  Lemma update_self_exact d : NoDup (map fst d) ->
    ((exists k vs, In (k, vs) d /\ vs <> []) -> forall fuel, update_self fuel d 0 0 = None)
    /\ ((forall k vs, In (k, vs) d -> vs = []) -> forall fuel, (length d < fuel)%nat -> update_self fuel d 0 0 = Some d).
  Proof.
    intros Hn. split.
    - intros (k & vs & I & Hv) fuel. apply In_nth_error in I as [i E]. apply update_self_any; auto. exists i, k, vs. split; [lia|auto].
    - intros H fuel Hf. apply update_self_ends; try lia. apply Forall_forall. intros [k vs] I. apply (H k vs I).
  Qed.

  (** ** Typed lookup *)
  Lemma get_typed_spec {W} (item : res V) (conv : V -> res W) (default : W) (w : res W) :
    get_typed item conv default = w ->
    (forall v, item = Ok v -> conv v <> Raise KeyError) ->
    match item with
    | Ok v => match conv v with
              | Ok x => w = Ok x
              | Raise e => if is_value_error e then w = Ok default else w = Raise e
              end
    | Raise e => if is_key_error e || is_value_error e then w = Ok default else w = Raise e
    end.
  Proof.
    intros <- Hk. unfold get_typed. destruct item as [v|e]; cbn [bind].
    - destruct (conv v) as [x|e] eqn:E; auto. destruct e; cbn; auto. exfalso. apply (Hk v); auto.
    - destruct e; cbn; auto.
  Qed.
  Lemma convert_all_spec {W} (conv : V -> res W) (l : list V) :
    (forall v e, In v l -> conv v = Raise e -> is_value_error e = true) ->
    convert_all conv l = Ok (flat_map (fun v => match conv v with Ok w => [w] | Raise _ => [] end) l).
  Proof.
    induction l as [|v l IH]; intros H; auto. cbn [convert_all flat_map].
    assert (IH' : convert_all conv l = Ok (flat_map (fun v => match conv v with Ok w => [w] | Raise _ => [] end) l)).
    { apply IH. intros; eapply H; eauto; right; auto. }
    destruct (conv v) as [w|e] eqn:E; cbn [app].
    - rewrite IH'. auto.
    - rewrite (H v e) by (auto; left; auto). auto.
  Qed.
  Lemma convert_all_raise {W} (conv : V -> res W) (a : list V) (v : V) (b : list V) (e : exn) :
    (forall u x, In u a -> conv u = Raise x -> is_value_error x = true) -> conv v = Raise e -> is_value_error e = false ->
    convert_all conv (a ++ v :: b) = Raise e.
  Proof.
    induction a as [|u a IH]; intros H Hv He; cbn [app convert_all].
    - rewrite Hv, He. auto.
    - rewrite IH; auto; [|intros; eapply H; eauto; right; auto].
      destruct (conv u) as [w|x] eqn:E; auto. rewrite (H u x); auto. left; auto.
  Qed.
End MD.
