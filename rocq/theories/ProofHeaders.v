(** Lemmas about [Headers], [HeaderSet] and header class filters. *)
From Coq Require Import Arith List NArith ZArith Bool Lia ZifyBool ZifyN.
From Verif Require Import PyStr PyStrFacts ModelQuote SpecQuote ProofQuote ModelHeaders SpecHeaders.
Import ListNotations.
Open Scope N_scope.

Lemma same_spec a b : same a b = true <-> same_name a b.
Proof. apply eqs_eq. Qed.
Lemma same_false a b : same a b = false <-> ~ same_name a b.
Proof. rewrite <- same_spec. destruct (same a b); split; congruence. Qed.

Lemma validate_spec v : validate_value v = true <-> one_line v.
Proof.
  unfold validate_value, one_line. rewrite andb_true_iff, !negb_true_iff, !mem_not_In. tauto.
Qed.
Lemma validate_false v : validate_value v = false <-> ~ one_line v.
Proof. rewrite <- validate_spec. destruct (validate_value v); split; congruence. Qed.

Lemma text_unicodify v : unicodify v = text v.
Proof. destruct v; auto. Qed.

Lemma stored_nil v : stored_value v [] = text v.
Proof. apply text_unicodify. Qed.

Lemma without_filter k l : without k l (filter (fun t => negb (same (fst t) k)) l).
Proof.
  induction l as [|kv l IH]; cbn [filter]; [constructor|].
  destruct (same (fst kv) k) eqn:E; cbn [negb].
  - apply wo_drop; auto. apply same_spec; auto.
  - apply wo_keep; auto. apply same_false; auto.
Qed.

Lemma values_of_filter k l : values_of k l (h_getlist l k).
Proof.
  unfold h_getlist. induction l as [|[n v] l IH]; cbn [filter map]; [constructor|]. cbn [fst].
  destruct (same n k) eqn:E; cbn [map].
  - apply vo_hit; auto. apply same_spec; auto.
  - apply vo_miss; auto. apply same_false; auto.
Qed.

Lemma values_of_fun k l a : values_of k l a -> forall b, values_of k l b -> a = b.
Proof.
  induction 1; intros b' Hb; inv Hb; auto; try contradiction. f_equal. auto.
Qed.

Lemma getitem_ok l k v : h_getitem l k = Ok v <-> exists t, values_of k l (v :: t).
Proof.
  induction l as [|[n x] l IH]; cbn [h_getitem].
  - split; [discriminate|]. intros [t H]. inv H.
  - destruct (same n k) eqn:E.
    + apply same_spec in E. split.
      * intros H; inv H. exists (h_getlist l k). apply vo_hit; auto. apply values_of_filter.
      * intros [t H]. inv H; auto. contradiction.
    + apply same_false in E. rewrite IH. split; intros [t H]; exists t.
      * apply vo_miss; auto.
      * inv H; auto. contradiction.
Qed.

Lemma getitem_missing l k : h_getitem l k = Raise KeyError <-> absent k l.
Proof.
  induction l as [|[n x] l IH]; cbn [h_getitem].
  - split; auto. constructor.
  - destruct (same n k) eqn:E.
    + apply same_spec in E. split; [discriminate|]. intros H; inv H. contradiction.
    + apply same_false in E. rewrite IH. split; intros H; [constructor; auto|inv H; auto].
Qed.

Lemma getitem_cases l k : (exists v, h_getitem l k = Ok v) \/ h_getitem l k = Raise KeyError.
Proof.
  induction l as [|[n x] l IH]; cbn [h_getitem]; auto. destruct (same n k); eauto.
Qed.

Lemma contains_spec l k : h_contains l k = true <-> ~ absent k l.
Proof.
  unfold h_contains. rewrite <- getitem_missing. destruct (getitem_cases l k) as [[v E]|E]; rewrite E; cbn.
  - split; congruence.
  - split; congruence.
Qed.

Lemma set_loop_spec l k v :
  match set_loop l k v with
  | Some l' => exists pre e post post', l = pre ++ e :: post /\ absent k pre /\ same_name (fst e) k /\
     without k post post' /\ l' = pre ++ (k, v) :: post'
  | None => absent k l
  end.
Proof.
  induction l as [|[n x] l IH]; cbn [set_loop]; [constructor|].
  destruct (same n k) eqn:E.
  - apply same_spec in E. exists [], (n, x), l, (filter (fun t => negb (same (fst t) k)) l).
    split; auto. split; [constructor|]. split; auto. split; auto. apply without_filter.
  - apply same_false in E. destruct (set_loop l k v) as [l'|].
    + destruct IH as (pre & e & post & post' & -> & H1 & H2 & H3 & ->).
      exists ((n, x) :: pre), e, post, post'. repeat split; auto. constructor; auto.
    + constructor; auto.
Qed.

Lemma set_effect_model l k v :
  set_effect k v l (match set_loop l k v with Some l' => l' | None => l ++ [(k, v)] end).
Proof.
  pose proof (set_loop_spec l k v) as H. unfold set_effect. destruct (set_loop l k v); auto.
Qed.

Lemma extend_model items : forall l, extend_effect l items (fst (h_extend l items)) (snd (h_extend l items)).
Proof.
  induction items as [|[k v] items IH]; intros l; cbn [h_extend]; [constructor|].
  unfold h_add. rewrite stored_nil. destruct (validate_value (text v)) eqn:E.
  - apply ee_ok; auto. apply validate_spec; auto.
  - apply ee_bad. apply validate_false; auto.
Qed.

Lemma py_index_some {A} i (l : list A) n : py_index i (length l) = Some n ->
  exists x, at_index i l (firstn n l) x (skipn (S n) l).
Proof.
  unfold py_index. set (j := if (i <? 0)%Z then (i + Z.of_nat (length l))%Z else i).
  destruct ((0 <=? j)%Z && (j <? Z.of_nat (length l))%Z) eqn:E; [|discriminate].
  intros H; inv H.
  assert (Hn : (Z.to_nat j < length l)%nat) by lia.
  destruct (nth_error l (Z.to_nat j)) as [x|] eqn:Ex.
  2: { apply nth_error_None in Ex. lia. }
  exists x. unfold at_index. split.
  - rewrite <- (firstn_skipn (Z.to_nat j) l) at 1. f_equal.
    clear - Ex. revert Ex. generalize (Z.to_nat j) as n. induction l; intros [|n] H; cbn in *; try discriminate.
    + inv H; auto.
    + apply IHl in H. auto.
  - rewrite firstn_length, skipn_length. unfold j in *. destruct (i <? 0)%Z eqn:Ei; lia.
Qed.

Lemma py_index_none {A} i (l : list A) : py_index i (length l) = None -> out_of_range i l.
Proof.
  unfold py_index, out_of_range. destruct (i <? 0)%Z eqn:Ei; destruct (_ && _) eqn:E; try discriminate; lia.
Qed.

Lemma step_spec l o : header_call l o (fst (h_step l o)) (snd (h_step l o)).
Proof.
  destruct o; cbn [h_step].
  - unfold h_add, keep. destruct (validate_value (stored_value v kw)) eqn:E; cbn [fst snd].
    + apply hc_add; auto; [intros ->; apply stored_nil|]. apply validate_spec; auto.
    + apply hc_add_bad. apply validate_false; auto.
  - unfold h_set, keep. destruct (validate_value (stored_value v kw)) eqn:E; cbn [fst snd].
    + pose proof (set_effect_model l k (stored_value v kw)) as H.
      destruct (set_loop l k (stored_value v kw)); cbn [fst snd];
        (eapply hc_set; [reflexivity|intros ->; apply stored_nil|apply validate_spec; auto|auto]).
    + apply hc_set_bad. apply validate_false; auto.
  - unfold h_set, keep. rewrite stored_nil. destruct (validate_value (text v)) eqn:E; cbn [fst snd].
    + pose proof (set_effect_model l k (text v)) as H.
      destruct (set_loop l k (text v)); cbn [fst snd]; (apply hc_setitem; [apply validate_spec; auto|auto]).
    + apply hc_setitem_bad. apply validate_false; auto.
  - unfold h_setdefault. destruct (h_contains l k) eqn:Ec; cbn [keep fst snd].
    + apply hc_setdefault_present. apply contains_spec; auto.
    + assert (Ha : absent k l).
      { apply getitem_missing. unfold h_contains in Ec. destruct (getitem_cases l k) as [[x Ex]|Ex]; auto.
        rewrite Ex in Ec. discriminate. }
      unfold h_set. rewrite stored_nil. destruct (validate_value (text v)) eqn:E; cbn [keep fst snd].
      * pose proof (set_loop_spec l k (text v)) as H. destruct (set_loop l k (text v)).
        -- destruct H as (pre & e & post & post' & -> & _ & H2 & _). exfalso.
           unfold absent in Ha. rewrite Forall_forall in Ha. apply (Ha e); auto.
           apply in_or_app; right; left; auto.
        -- cbn [keep fst snd]. apply hc_setdefault; auto. apply validate_spec; auto.
      * apply hc_setdefault_bad; auto. apply validate_false; auto.
  - apply hc_extend. apply extend_model.
  - cbn [fst snd]. apply hc_remove. apply without_filter.
  - unfold h_pop_name. destruct (getitem_cases l k) as [[x Ex]|Ex]; rewrite Ex.
    + cbn [keep fst snd]. apply hc_pop; [|apply without_filter].
      rewrite <- getitem_missing. congruence.
    + apply getitem_missing in Ex. destruct default; cbn [keep fst snd].
      * apply hc_pop_default; auto.
      * apply hc_pop_missing; auto.
  - unfold h_pop_index. destruct (py_index i (length l)) as [n|] eqn:E; cbn [keep fst snd].
    + destruct (py_index_some i l n E) as [x Hx]. eapply hc_popindex; eauto.
    + apply hc_popindex_bad. apply py_index_none; auto.
  - unfold h_pop_index. destruct (py_index (-1) (length l)) as [n|] eqn:E; cbn [keep fst snd].
    + destruct (py_index_some _ l n E) as [x [Hl Hi]].
      assert (Hp : skipn (S n) l = []).
      { destruct Hi as [Hi|Hi]; [lia|]. destruct (skipn (S n) l); auto. cbn [length] in Hi. lia. }
      unfold remove_nth. rewrite Hp in *. rewrite app_nil_r. rewrite Hl at 1. constructor.
    + apply py_index_none in E. unfold out_of_range in E. destruct l; [constructor|]. cbn [length] in E. lia.
  - unfold h_pop_index. destruct (py_index i (length l)) as [n|] eqn:E; cbn [keep fst snd].
    + destruct (py_index_some i l n E) as [x Hx]. eapply hc_delindex; eauto.
    + apply hc_delindex_bad. apply py_index_none; auto.
  - unfold h_setitem_index. destruct kv as [k v]. cbn [fst snd]. rewrite text_unicodify.
    destruct (validate_value (text v)) eqn:Ev.
    + apply validate_spec in Ev. destruct (py_index i (length l)) as [n|] eqn:E; cbn [keep fst snd].
      * destruct (py_index_some i l n E) as [x Hx]. unfold set_nth. eapply hc_setindex; eauto.
      * apply hc_setindex_range; auto. apply py_index_none; auto.
    + cbn [keep fst snd]. apply hc_setindex_bad. apply validate_false; auto.
  - unfold h_setall.
    assert (Hm : map (fun kv => (fst kv, unicodify (snd kv))) items = map (fun kv => (fst kv, text (snd kv))) items).
    { apply map_ext. intros. rewrite text_unicodify. auto. }
    rewrite Hm. destruct (forallb _ _) eqn:E; cbn [keep fst snd].
    + apply hc_setall. rewrite Forall_forall. rewrite forallb_forall in E. intros kv Hi.
      apply validate_spec. apply (E (fst kv, text (snd kv))). apply in_map_iff. exists kv; auto.
    + apply hc_setall_bad. intros H. rewrite Forall_forall in H.
      assert (Ht : forallb (fun kv : str * str => validate_value (snd kv))
         (map (fun kv => (fst kv, text (snd kv))) items) = true).
      { apply forallb_forall. intros kv Hi. apply in_map_iff in Hi as (x & <- & Hx). cbn [snd].
        apply validate_spec. apply H. auto. }
      congruence.
  - cbn [fst snd]. constructor.
Qed.

Lemma history_spec ops : forall l, header_history l ops (h_run l ops).
Proof.
  induction ops as [|o ops IH]; intros l; cbn [h_run fold_left]; [constructor|].
  eapply hh_cons; [apply step_spec|]. apply IH.
Qed.

(** The effects seen through reads. *)
Lemma values_app k a b va vb : values_of k a va -> values_of k b vb -> values_of k (a ++ b) (va ++ vb).
Proof. induction 1; intros; cbn [app]; auto; [apply vo_hit|apply vo_miss]; auto. Qed.

Lemma values_absent k l : absent k l -> values_of k l [].
Proof. induction l as [|[n v] l IH]; intros H; [constructor|]. inv H. apply vo_miss; auto. Qed.

Lemma getlist_char l k v : values_of k l v -> h_getlist l k = v.
Proof. intros. eapply values_of_fun; eauto. apply values_of_filter. Qed.

Lemma without_absent k a b : without k a b -> absent k b.
Proof. induction 1; auto; constructor; auto. Qed.

Lemma without_other k k' a b : without k a b -> ~ same_name k k' -> h_getlist b k' = h_getlist a k'.
Proof.
  intros H Hn. induction H; auto.
  - rewrite IHwithout. unfold h_getlist at 2. cbn [filter].
    replace (same (fst kv) k') with false; auto. symmetry. apply same_false.
    intros E. apply Hn. unfold same_name in *. congruence.
  - unfold h_getlist in *. cbn [filter]. destruct (same (fst kv) k'); cbn [map]; [f_equal|]; auto.
Qed.

Lemma getlist_app a b k : h_getlist (a ++ b) k = h_getlist a k ++ h_getlist b k.
Proof. unfold h_getlist. rewrite filter_app, map_app. auto. Qed.
Lemma getlist_absent k k' l : absent k l -> same_name k k' -> h_getlist l k' = [].
Proof.
  intros H E. induction l as [|kv l IH]; auto. inv H. unfold h_getlist in *. cbn [filter].
  replace (same (fst kv) k') with false; auto. symmetry. apply same_false.
  unfold same_name in *. congruence.
Qed.
Lemma getlist_one k v k' : h_getlist [(k, v)] k' = if same k k' then [v] else [].
Proof. unfold h_getlist. cbn [filter fst]. destruct (same k k'); auto. Qed.
Lemma getlist_cons x l k : h_getlist (x :: l) k = h_getlist [x] k ++ h_getlist l k.
Proof. apply (getlist_app [x] l). Qed.

Lemma set_get k v a b : set_effect k v a b ->
  (forall k', same_name k k' -> h_getlist b k' = [v]) /\
  (forall k', ~ same_name k k' -> h_getlist b k' = h_getlist a k').
Proof.
  intros [[Ha ->]|(pre & [n x] & post & post' & -> & H1 & H2 & H3 & ->)]; split; intros k' Hk'.
  - rewrite getlist_app, getlist_one, (getlist_absent k); auto.
    rewrite (proj2 (same_spec _ _) Hk'). auto.
  - rewrite getlist_app, getlist_one, (proj2 (same_false _ _) Hk'), app_nil_r. auto.
  - rewrite getlist_app, getlist_cons, getlist_one, (proj2 (same_spec _ _) Hk'),
      (getlist_absent k k' pre), (getlist_absent k k' post'); auto. eapply without_absent; eauto.
  - rewrite !getlist_app. rewrite (getlist_cons (k, v)), (getlist_cons (n, x)), !getlist_one.
    rewrite (proj2 (same_false _ _) Hk'). cbn [fst] in H2.
    replace (same n k') with false.
    + rewrite (without_other _ _ _ _ H3 Hk'). auto.
    + symmetry. apply same_false. unfold same_name in *. congruence.
Qed.

(** ** One line per header *)
Definition clean (l : headers) : Prop := Forall (fun kv => one_line (snd kv)) l.

Lemma without_clean k a b : without k a b -> clean a -> clean b.
Proof. unfold clean. induction 1; intros Hc; auto; inv Hc; auto. Qed.
Lemma set_effect_clean k v a b : set_effect k v a b -> one_line v -> clean a -> clean b.
Proof.
  unfold clean. intros [[_ ->]|(pre & e & post & post' & -> & _ & _ & H3 & ->)] Hv Ha.
  - apply Forall_app; auto.
  - apply Forall_app in Ha as [Hp Hq]. inv Hq. apply Forall_app; split; auto. constructor; auto.
    eapply without_clean; eauto.
Qed.
Lemma extend_clean a items b e : extend_effect a items b e -> clean a -> clean b.
Proof.
  induction 1; auto. intros Hc. apply IHextend_effect. apply Forall_app; auto.
Qed.
Lemma at_index_clean i l pre (x : str * str) post : at_index i l pre x post -> clean l -> clean pre /\ clean post.
Proof. intros [-> _] H. apply Forall_app in H as [H1 H2]. inv H2. auto. Qed.

Lemma call_clean l o l' e : header_call l o l' e -> clean l -> clean l'.
Proof.
  intros H Hc; inv H; auto.
  - apply Forall_app; auto.
  - eapply set_effect_clean; eauto.
  - eapply set_effect_clean; eauto.
  - apply Forall_app; auto.
  - eapply extend_clean; eauto.
  - eapply without_clean; eauto.
  - eapply without_clean; eauto.
  - destruct (at_index_clean _ _ _ _ _ H0 Hc). apply Forall_app; auto.
  - apply Forall_app in Hc. tauto.
  - destruct (at_index_clean _ _ _ _ _ H0 Hc). apply Forall_app; auto.
  - destruct (at_index_clean _ _ _ _ _ H1 Hc). apply Forall_app; auto.
  - unfold clean. rewrite Forall_forall in *. intros kv Hi. apply in_map_iff in Hi as (y & <- & Hy). cbn [snd]. auto.
  - constructor.
Qed.

Lemma run_clean ops : forall l, clean l -> clean (h_run l ops).
Proof.
  induction ops as [|o ops IH]; intros l H; cbn [h_run fold_left]; auto.
  apply IH. eapply call_clean; [apply step_spec|auto].
Qed.

Lemma init_pairs_clean items : clean (fst (h_init_pairs items)).
Proof. eapply extend_clean; [apply extend_model|constructor]. Qed.

Lemma join_cons_ne x m : m <> [] -> join [13; 10] (x :: m) = x ++ [13; 10] ++ join [13; 10] m.
Proof. destruct m; [congruence|auto]. Qed.
Lemma snoc_ne {A} (l : list A) x : l ++ [x] <> [].
Proof. destruct l; discriminate. Qed.

Lemma wire_shape l :
  h_str l = concat (map (fun kv => fst kv ++ [58; 32] ++ snd kv ++ [13; 10]) l) ++ [13; 10].
Proof.
  unfold h_str. induction l as [|kv l IH]; [reflexivity|].
  cbn [map concat]. rewrite <- app_comm_cons, join_cons_ne by apply snoc_ne. rewrite IH.
  rewrite <- !app_assoc. reflexivity.
Qed.

Lemma count_app c a b : count c (a ++ b) = (count c a + count c b)%nat.
Proof. unfold count. rewrite filter_app, app_length. auto. Qed.
Lemma count_zero c s : ~ In c s -> count c s = 0%nat.
Proof.
  unfold count. induction s as [|x s IH]; intros H; auto. cbn [filter].
  destruct (c =? x) eqn:E; [apply N.eqb_eq in E; subst; exfalso; apply H; left; auto|].
  apply IH. intros Hi. apply H. right; auto.
Qed.

Lemma wire_lines l : clean l -> Forall (fun kv => one_line (fst kv)) l ->
  count 10 (h_str l) = S (length l).
Proof.
  intros Hv Hk. rewrite wire_shape, count_app. change (count 10 [13; 10]) with 1%nat.
  enough (count 10 (concat (map (fun kv : str * str => fst kv ++ [58; 32] ++ snd kv ++ [13; 10]) l)) = length l) by lia.
  unfold clean in Hv. induction l as [|kv l IH]; auto. inv Hv. inv Hk.
  cbn [map concat length]. rewrite !count_app, IH by auto.
  destruct H1 as [H1 _], H3 as [H3 _]. rewrite (count_zero 10 (snd kv)), (count_zero 10 (fst kv)); auto.
Qed.

(** ** Header classes *)
Lemma mems_spec x l : mems x l = true <-> In x l.
Proof.
  unfold mems. rewrite existsb_exists. split.
  - intros (y & H & E). apply eqs_eq in E. subst; auto.
  - intros H. exists x. split; auto. apply eqs_refl.
Qed.

Lemma entity_spec h : is_entity_header h = true <-> exists n, In n entity_names /\ same_name h n.
Proof.
  unfold is_entity_header. rewrite mems_spec. unfold same_name.
  assert (E : entity_headers = map lower entity_names) by (vm_compute; reflexivity).
  rewrite E, in_map_iff. split; intros (n & H1 & H2); exists n; auto.
Qed.
Lemma hop_spec h : is_hop_by_hop_header h = true <-> exists n, In n hop_names /\ same_name h n.
Proof.
  unfold is_hop_by_hop_header. rewrite mems_spec. unfold same_name.
  assert (E : hop_by_hop_headers = map lower hop_names) by (vm_compute; reflexivity).
  rewrite E, in_map_iff. split; intros (n & H1 & H2); exists n; auto.
Qed.

Lemma sifted_filter {A} (P : A -> Prop) f (l : list A) :
  (forall x, f x = false <-> P x) -> sifted P l (filter f l).
Proof.
  intros H. induction l as [|x l IH]; cbn [filter]; [constructor|].
  destruct (f x) eqn:E.
  - apply si_keep; auto. rewrite <- H. congruence.
  - apply si_drop; auto. apply H; auto.
Qed.

Lemma remove_entity_spec l allowed :
  sifted (fun kv => (exists n, In n entity_names /\ same_name (fst kv) n) /\
                    ~ (exists a, In a allowed /\ same_name (fst kv) a))
         l (remove_entity_headers l allowed).
Proof.
  apply sifted_filter. intros kv. rewrite orb_false_iff, negb_false_iff, entity_spec.
  assert (E : mems (lower (fst kv)) (map lower allowed) = true <-> exists a, In a allowed /\ same_name (fst kv) a).
  { rewrite mems_spec, in_map_iff. unfold same_name. split; intros (a & H1 & H2); exists a; auto. }
  rewrite <- E. destruct (mems (lower (fst kv)) (map lower allowed)); intuition congruence.
Qed.
Lemma remove_hop_spec l :
  sifted (fun kv => exists n, In n hop_names /\ same_name (fst kv) n) l (remove_hop_by_hop_headers l).
Proof.
  apply sifted_filter. intros kv. rewrite negb_false_iff. apply hop_spec.
Qed.

(** ** HeaderSet *)
Definition hs_ok (s : hset) : Prop :=
  distinct_names (hs_headers s) /\ forall x, In x (hs_set s) <-> In x (map lower (hs_headers s)).

Lemma mems_false x l : mems x l = false <-> ~ In x l.
Proof. rewrite <- mems_spec. destruct (mems x l); split; congruence. Qed.

Lemma NoDup_snoc {A} (l : list A) x : NoDup l -> ~ In x l -> NoDup (l ++ [x]).
Proof.
  intros H Hx. apply NoDup_rev in H. rewrite <- (rev_involutive (l ++ [x])). apply NoDup_rev.
  rewrite rev_app_distr. cbn [rev app]. constructor; auto. rewrite <- in_rev. auto.
Qed.

Lemma update_loop_ok items : forall s ins, hs_ok s -> hs_ok (fst (hs_update_loop s items ins)).
Proof.
  induction items as [|h items IH]; intros s ins H; cbn [hs_update_loop fst]; auto.
  destruct (mems (lower h) (hs_set s)) eqn:E; auto. apply IH. destruct H as [H1 H2].
  apply mems_false in E. split; cbn [hs_headers hs_set].
  - unfold distinct_names in *. rewrite map_app. cbn [map]. apply NoDup_snoc; auto.
    rewrite <- H2. auto.
  - intros x. rewrite map_app, in_app_iff, <- H2. cbn [map In]. tauto.
Qed.
Lemma bump_ok s : hs_ok s -> hs_ok (bump s).
Proof. auto. Qed.
Lemma update_ok s items : hs_ok s -> hs_ok (hs_update s items).
Proof.
  intros H. unfold hs_update. pose proof (update_loop_ok items s false H).
  destruct (hs_update_loop s items false) as [s' ins]. destruct ins; auto.
Qed.

Lemma set_remove_spec x s y : In y (set_remove x s) <-> In y s /\ x <> y.
Proof.
  unfold set_remove. rewrite filter_In, negb_true_iff, eqs_neq. tauto.
Qed.

Lemma del_first_spec h l : h = lower h -> NoDup (map lower l) ->
  forall y, In y (map lower (hs_del_first h l)) <-> In y (map lower l) /\ h <> y.
Proof.
  intros Hl. induction l as [|k l IH]; cbn [hs_del_first map]; intros Hn y.
  - cbn [In]. tauto.
  - inv Hn. destruct (eqs (lower k) h) eqn:E.
    + apply eqs_eq in E. cbn [In]. split.
      * intros Hi. split; auto. intros <-. congruence.
      * intros [[Hk|Hi] Hne]; auto. congruence.
    + apply eqs_neq in E. cbn [map In]. rewrite IH by auto. split.
      * intros [<-|[Hi Hne]]; auto.
      * intros [[->|Hi] Hne]; auto.
Qed.
Lemma del_first_sub h l : exists f, hs_del_first h l = f /\ (forall x, In x (map lower f) -> In x (map lower l)) /\
  (NoDup (map lower l) -> NoDup (map lower f)).
Proof.
  exists (hs_del_first h l). split; auto. induction l as [|k l [IH1 IH2]]; cbn [hs_del_first]; auto.
  destruct (eqs (lower k) h); cbn [map In].
  - split; auto. intros H; inv H; auto.
  - split; [intros x [|]; auto|]. intros H; inv H. constructor; auto.
Qed.

Lemma remove_ok s h s' : h = lower h -> hs_ok s -> hs_remove s h = Ok s' -> hs_ok s'.
Proof.
  intros Hl [H1 H2] H. unfold hs_remove in H. destruct (mems (lower h) (hs_set s)); inv H.
  apply bump_ok. split; cbn [hs_headers hs_set].
  - destruct (del_first_sub h (hs_headers s)) as (f & <- & _ & Hf). apply Hf; auto.
  - intros x. rewrite set_remove_spec, del_first_spec, H2; auto. rewrite <- Hl. tauto.
Qed.

Lemma nth_split_py {A} i (l : list A) n d : py_index i (length l) = Some n ->
  l = firstn n l ++ nth n l d :: skipn (S n) l.
Proof.
  intros H. destruct (py_index_some i l n H) as [x [Hl _]].
  assert (Hx : nth n l d = x).
  { assert (Hlen : (n < length l)%nat).
    { unfold py_index in H. destruct (_ && _) eqn:E; inv H. destruct (i <? 0)%Z; lia. }
    rewrite Hl. rewrite app_nth2; rewrite firstn_length, Nat.min_l by lia; auto. rewrite Nat.sub_diag. auto. }
  rewrite Hx. auto.
Qed.

Lemma delitem_ok s i : hs_ok s -> hs_ok (fst (hs_delitem s i)) /\ snd (hs_delitem s i) <> Some KeyError.
Proof.
  intros [H1 H2]. unfold hs_delitem. destruct (py_index i (length (hs_headers s))) as [n|] eqn:E.
  2: { cbn [fst snd]. split; [split; auto|discriminate]. }
  pose proof (nth_split_py i (hs_headers s) n [] E) as Hs.
  set (x := nth n (hs_headers s) []) in *. unfold remove_nth.
  set (pre := firstn n (hs_headers s)) in *. set (post := skipn (S n) (hs_headers s)) in *.
  clearbody x pre post. unfold distinct_names in H1. rewrite Hs in H1. rewrite map_app in H1. cbn [map] in H1.
  assert (Hin : mems (lower x) (hs_set s) = true).
  { apply mems_spec. rewrite H2, Hs, map_app. apply in_or_app. right. left. auto. }
  rewrite Hin. cbn [fst snd]. split; [|discriminate]. apply bump_ok. split; cbn [hs_headers hs_set].
  - unfold distinct_names. rewrite map_app. apply NoDup_remove_1 in H1. auto.
  - intros y. rewrite set_remove_spec, H2, Hs, !map_app, !in_app_iff. cbn [map In].
    apply NoDup_remove_2 in H1. rewrite in_app_iff in H1. split.
    + intros [[Hy|[Hy|Hy]] Hne]; auto. congruence.
    + intros Hy. split; [tauto|]. intros <-. tauto.
Qed.

Lemma setitem_ok s i v : hs_ok s ->
  (forall n, py_index i (length (hs_headers s)) = Some n ->
     ~ In (lower v) (map lower (remove_nth n (hs_headers s)))) ->
  hs_ok (fst (hs_setitem s i v)) /\ snd (hs_setitem s i v) <> Some KeyError.
Proof.
  intros [H1 H2] Hf. unfold hs_setitem. destruct (py_index i (length (hs_headers s))) as [n|] eqn:E.
  2: { cbn [fst snd]. split; [split; auto|discriminate]. }
  specialize (Hf n eq_refl). unfold remove_nth in Hf. unfold set_nth.
  pose proof (nth_split_py i (hs_headers s) n [] E) as Hs.
  set (x := nth n (hs_headers s) []) in *.
  set (pre := firstn n (hs_headers s)) in *. set (post := skipn (S n) (hs_headers s)) in *.
  clearbody x pre post. unfold distinct_names in H1. rewrite Hs in H1. rewrite map_app in H1. cbn [map] in H1.
  assert (Hin : mems (lower x) (hs_set s) = true).
  { apply mems_spec. rewrite H2, Hs, map_app. apply in_or_app. right. left. auto. }
  rewrite Hin. cbn [fst snd]. split; [|discriminate]. apply bump_ok. split; cbn [hs_headers hs_set].
  - unfold distinct_names. rewrite map_app in *. cbn [map]. pose proof (NoDup_remove_1 _ _ _ H1).
    apply NoDup_Add with (a := lower v) (l := map lower pre ++ map lower post).
    + apply Add_app.
    + split; auto.
  - intros y. cbn [In]. rewrite set_remove_spec, H2, Hs, !map_app, !in_app_iff. cbn [map In].
    apply NoDup_remove_2 in H1. rewrite in_app_iff in H1. split.
    + intros [<-|[[Hy|[Hy|Hy]] Hne]]; auto. congruence.
    + intros [Hy|[<-|Hy]]; auto; right; (split; [tauto|]); intros <-; tauto.
Qed.

Lemma hs_init_ok l : distinct_names l -> hs_ok (hs_init l).
Proof. intros H. split; auto. intros x. reflexivity. Qed.

Lemma step_ok s o : hs_ok s -> tame s o -> hs_ok (fst (hs_step s o)).
Proof.
  intros H Ht. destruct o; cbn [hs_step tame] in *.
  - apply update_ok; auto.
  - apply update_ok; auto.
  - destruct (hs_remove s h) eqn:E; cbn [fst]; auto. eapply remove_ok; eauto.
  - unfold hs_discard. cbn [fst]. destruct (hs_remove s h) eqn:E; auto. eapply remove_ok; eauto.
  - cbn [fst]. split; cbn; [constructor|tauto].
  - apply delitem_ok; auto.
  - apply setitem_ok; auto. intros n Hn. destruct (py_index_some _ _ _ Hn) as [x Hx].
    unfold remove_nth. intros Hi. apply in_map_iff in Hi as (y & Hy & Hin).
    pose proof (Ht _ _ _ Hx) as Hf. rewrite Forall_forall in Hf. apply (Hf y); auto.
Qed.

Lemma run_ok ops : forall s, hs_ok s -> tame_run s ops -> hs_ok (hs_run s ops).
Proof.
  induction ops as [|o ops IH]; intros s H Ht; cbn [hs_run fold_left]; auto.
  inv Ht. apply IH; auto. apply step_ok; auto.
Qed.

Lemma ok_contains s h : hs_ok s -> (hs_contains s h = true <-> exists n, In n (hs_iter s) /\ same_name n h).
Proof.
  intros [_ H]. unfold hs_contains, hs_iter. rewrite mems_spec, H, in_map_iff. unfold same_name.
  split; intros (n & A & B); exists n; auto.
Qed.

Lemma ok_len s : hs_ok s -> hs_len s = length (hs_iter s).
Proof.
  intros [H1 H2]. unfold hs_len, hs_iter. rewrite <- (map_length lower (hs_headers s)).
  apply Nat.le_antisymm; apply NoDup_incl_length; auto.
  - apply NoDup_nodup.
  - intros x Hx. apply nodup_In in Hx. apply H2; auto.
  - intros x Hx. apply nodup_In. apply H2; auto.
Qed.

Lemma find_from_spec h l : forall n,
  ((find_from n h l = -1)%Z /\ Forall (fun k => ~ same_name k h) l) \/
  (exists pre x post, l = pre ++ x :: post /\ same_name x h /\ Forall (fun k => ~ same_name k h) pre /\ find_from n h l = Z.of_nat (n + length pre)%nat).
Proof.
  induction l as [|k l IH]; intros n; cbn [find_from]; [left; auto|].
  destruct (eqs (lower k) (lower h)) eqn:E.
  - right. exists [], k, l. apply eqs_eq in E. split; [auto|]. split; [auto|]. split; [auto|]. f_equal. cbn. lia.
  - apply eqs_neq in E. destruct (IH (S n)) as [[A B]|(pre & x & post & -> & A & B & C)].
    + left. split; auto.
    + right. exists (k :: pre), x, post. repeat split; auto. rewrite C. f_equal. cbn. lia.
Qed.

Lemma ok_find s h : hs_ok s -> ((0 <= hs_find s h)%Z <-> hs_contains s h = true).
Proof.
  intros H. rewrite ok_contains by auto. unfold hs_find, hs_iter.
  destruct (find_from_spec h (hs_headers s) 0) as [[A B]|(pre & x & post & E & A & B & C)].
  - rewrite A. split; [lia|]. intros (n & Hi & Hn). rewrite Forall_forall in B. destruct (B n); auto.
  - rewrite C. split; [|lia]. intros _. exists x. rewrite E. split; auto. apply in_or_app. right. left. auto.
Qed.

Lemma set_is_set_effect k v a b : h_set a k (HStr v) [] = Ok b -> set_effect k v a b.
Proof.
  unfold h_set. rewrite stored_nil. cbn [text]. destruct (validate_value v); [|discriminate].
  pose proof (set_effect_model a k v) as H. destruct (set_loop a k v); intros E; inv E; auto.
Qed.

Lemma constructor_breaks : exists items : list (str * str),
  ~ Forall (fun kv => one_line (snd kv)) (h_init_list items) /\
  (count 10 (h_str (h_init_list items)) > S (length (h_init_list items)))%nat.
Proof.
  exists [(lit "A", lit "1" ++ [13; 10] ++ lit "B: 2")]. split.
  - intros H. inv H. destruct H2 as [H2 _]. apply H2. cbn. tauto.
  - vm_compute. lia.
Qed.

Lemma names_break : exists ops : list hop,
  (count 10 (h_str (h_run [] ops)) > S (length (h_run [] ops)))%nat.
Proof.
  exists [HAdd (lit "A: 1" ++ [13; 10] ++ lit "B") (HStr (lit "2")) []]. vm_compute. lia.
Qed.

Lemma hs_agreement (names : list str) (ops : list hsop) :
  distinct_names names -> tame_run (hs_init names) ops ->
  let s := hs_run (hs_init names) ops in
  distinct_names (hs_iter s) /\
  (forall h, hs_contains s h = true <-> exists n, In n (hs_iter s) /\ same_name n h) /\
  (forall h, (0 <= hs_find s h)%Z <-> hs_contains s h = true) /\
  hs_len s = length (hs_iter s).
Proof.
  intros Hd Ht s. assert (H : hs_ok s) by (apply run_ok; auto; apply hs_init_ok; auto).
  split; [apply H|]. split; [intros; apply ok_contains; auto|]. split; [intros; apply ok_find; auto|].
  apply ok_len; auto.
Qed.

Lemma hs_example :
  let ops := [SAdd (lit "Foo"); SUpdate [lit "BAR"; lit "foo"; lit "Baz"]; SRemove (lit "bar");
              SSetItem (-1) (lit "Qux"); SDelItem 0] in
  tame_run (hs_init []) ops /\ hs_iter (hs_run (hs_init []) ops) = [lit "Qux"] /\
  hs_contains (hs_run (hs_init []) ops) (lit "qUX") = true.
Proof.
  split; [|vm_compute; auto].
  constructor; [exact I|]. constructor; [exact I|]. constructor; [vm_compute; auto|].
  constructor; [|constructor; [exact I|constructor]].
  vm_compute. intros pre x post [H _]. destruct pre as [|? [|? [|? ?]]]; inv H; repeat constructor; vm_compute; discriminate.
Qed.

Lemma setitem_breaks : exists names i v,
  distinct_names names /\
  let s := hs_run (hs_init names) [SSetItem i v; SDelItem i] in
  hs_contains s v = false /\ In v (hs_iter s).
Proof.
  exists [lit "a"; lit "b"], 1%Z, (lit "a"). split; [|vm_compute; auto].
  vm_compute. constructor; [intros [H|[]]; discriminate|]. constructor; [intros []|constructor].
Qed.

Lemma hs_to_header_reads s :
  hs_iter s <> [[]] -> Forall (fun v => ~ wears_quotes v) (hs_iter s) ->
  parse_list_header (hs_to_header s) = hs_iter s.
Proof.
  intros H1 H2. apply (list_header_roundtrip true (hs_iter s)); auto. contradiction.
Qed.
