(** Proofs about hashes, pickles and fromkeys of immutable containers. *)
From Coq Require Import Arith List NArith ZArith Bool Lia.
From Verif Require Import PyStr PyStrFacts ModelCallback SpecCallback ProofCallback ModelMultiDict SpecMultiDict ProofMultiDict ModelOrdered SpecOrdered ProofOrdered
  ModelCombined SpecCombined ProofCombined ModelMultiObject SpecMultiObject ProofMultiObject ModelFrozen SpecFrozen.
Import ListNotations.
Open Scope N_scope.
Ltac inv H := inversion H; subst; clear H.

(** ** Hashes *)
Section Hash.
  Context {S A R : Type} (h : S -> Z) (base : str -> A -> S -> S * res R) (c : container).
  Lemma call_same name a s : In name (mutators c) -> name <> open_mutator c -> fst (imm_call base c s (name, a)) = s.
  Proof.
    intros H1 H2. pose proof (imm_unchanged base c s [(name, a)]) as H. cbn [imm_run] in H.
    destruct (imm_call base c s (name, a)). cbn [fst map] in *. assert (X : (s0, [r]) = (s, [Raise TypeError])) by (apply H; constructor; auto).
    inv X. auto.
  Qed.
  Lemma run_same l : forall o, Forall (frozen_call c) l -> cache o = None \/ cache o = Some (h (data o)) ->
    data (fst (f_run h base c o l)) = data o /\ Forall (fun z => z = h (data o)) (snd (f_run h base c o l)).
  Proof.
    induction l as [|x l IH]; intros o F C; [split; auto; constructor|]. inv F. cbn [f_run].
    assert (E : exists o' z, f_step h base c o x = (o', z) /\ data o' = data o /\ (cache o' = None \/ cache o' = Some (h (data o')))
      /\ match z with Some z => z = h (data o) | None => True end).
    { destruct x as [|name a]; cbn [f_step].
      - unfold f_hash. destruct C as [C|C]; rewrite C; cbn; eauto 10.
      - destruct H1 as [K1 K2]. rewrite (call_same name a (data o) K1 K2). do 2 eexists. cbn. eauto. }
    destruct E as (o' & z & E & D & C' & Z). rewrite E. destruct (IH o' H2 C') as [I1 I2]. destruct (f_run h base c o' l) as [o'' zs]. cbn [fst snd] in *.
    split; [congruence|]. rewrite D in I2. destruct z; auto.
  Qed.
  (** every call of hash has a result *)
  Lemma run_count l : forall o, length (snd (f_run h base c o l)) = length (filter (fun x => match x with FHash => true | _ => false end) l).
  Proof.
    induction l as [|x l IH]; intros o; auto. cbn [f_run filter]. destruct x; cbn [f_step].
    - unfold f_hash. destruct (cache o); [|]; cbv zeta beta iota; match goal with |- context[f_run h base c ?o' l] => specialize (IH o'); destruct (f_run h base c o' l) end; cbn in *; lia.
    - match goal with |- context[f_run h base c ?o' l] => specialize (IH o'); destruct (f_run h base c o' l) end; cbn in *; auto.
  Qed.
End Hash.

(** ** Pickles *)
Section Pickle.
  Context {V : Type} (dup : V -> V).
  Lemma map_fst_dup (d : dict V) : map fst (map (dup_pair dup) d) = map fst d.
  Proof. rewrite map_map. apply map_ext. intros []; auto. Qed.
  Lemma id_pickled (d : dict V) : NoDup (map fst d) -> id_pickle dup d = map (fun kv => (fst kv, dup (snd kv))) d.
  Proof. intros H. unfold id_pickle, as_dict. rewrite fold_dset; auto. cbn. rewrite map_fst_dup. auto. Qed.
  Definition some_values (kl : str * list V) : bool := match snd kl with [] => false | _ => true end.
  Definition dup_list (kl : str * list V) : str * list V := (fst kl, map dup (snd kl)).
  Lemma items_filtered (d : mdict V) : map (dup_pair dup) (m_items_multi d) = m_items_multi (map dup_list (filter some_values d)).
  Proof.
    unfold m_items_multi. induction d as [|[k l] d IH]; auto. cbn [flat_map fst snd filter some_values]. rewrite map_app, IH. destruct l as [|v l]; auto.
    cbn [some_values snd map flat_map]. f_equal. unfold dup_list, dup_pair. cbn [map fst snd]. rewrite !map_map. reflexivity.
  Qed.
  Lemma imd_pickled (d : mdict V) : NoDup (map fst d) -> imd_pickle dup d = map dup_list (filter some_values d).
  Proof.
    intros H. unfold imd_pickle, m_init. rewrite items_filtered. rewrite adds_multi; auto.
    - cbn [app]. rewrite map_map. cbn. clear -H. induction d as [|[k l] d IH]; cbn; [constructor|]. inv H. destruct l; cbn; auto.
      constructor; auto. intros X. apply H2. clear -X. induction d as [|[k' l'] d IH]; auto. cbn in *. destruct l'; cbn in *; intuition.
    - apply Forall_forall. intros [k l] X. apply in_map_iff in X as ([k' l'] & E & X). apply filter_In in X as [_ X]. unfold dup_list in E. inv E.
      destruct l'; [discriminate|]. cbn. discriminate.
  Qed.
  Lemma filter_all (d : mdict V) : Forall (fun kl => snd kl <> []) d -> filter some_values d = d.
  Proof. induction 1 as [|[k l] d H _ IH]; auto. cbn. destruct l; [contradiction|]. cbn. f_equal. auto. Qed.
  (** equality and hash *)
  Variable veq : V -> V -> bool.
  Hypothesis same : forall v, veq (dup v) v = true.
  Lemma leq_dup l : leq veq (map dup l) l = true.
  Proof. induction l; auto. cbn. rewrite same. auto. Qed.
  Lemma md_eq_dup (d : mdict V) : NoDup (map fst d) -> md_eq veq (map dup_list d) d = true.
  Proof.
    intros H. unfold md_eq. rewrite map_length, Nat.eqb_refl. cbn [andb]. apply forallb_forall. intros [k l] X. apply in_map_iff in X as ([k' l'] & E & X). inv E.
    cbn [fst snd dup_list]. rewrite (nodup_get _ _ _ H X). apply leq_dup.
  Qed.
End Pickle.

(** ** Around an immutable object *)
Lemma view_spared {V} (dup : V -> V) (s : store V) i a : reached dup (fun c => ~ hands_out c) s -> possible (fun c => ~ hands_out c) s a -> spares i a ->
  (i < length (objs s))%nat -> view (act dup s a) i = view s i /\ (i < length (objs (act dup s a)))%nat.
Proof.
  intros R Po Sp L. pose proof (reached_ok dup _ s R) as O.
  assert (M : forall s' n d, makes s s' n d -> view s' i = view s i /\ (i < length (objs s'))%nat).
  { intros s' n d (_ & A & B & _ & _ & C & _). subst n. split; [apply C; lia|lia]. }
  destruct a as [x|j|j|j|j c|l|r l]; cbn [act].
  - pose proof (init_makes s x O) as K. destruct (x_init s x). eauto.
  - pose proof (copy_makes s j O) as K. destruct (x_copy s j). eauto.
  - pose proof (deepcopy_makes dup s j O) as K. destruct (x_deepcopy dup s j). eauto.
  - destruct (Forall_dec (fun kl : str * list V => snd kl <> []) ltac:(intros [? [|? ?]]; [right|left]; cbn; congruence) (view s j)) as [F|F].
    + destruct (pickle_makes dup s j O F) as (s' & n & E & K). rewrite E. cbn [fst]. eauto.
    + rewrite (pickle_raise dup s j F). auto.
  - cbn in Po. destruct Po as (Hj & Or & Nh). pose proof (call_told s j c O Hj Or) as T. destruct (x_call s j c) as [s' r]. destruct T as (T & _).
    change (view (hold s' (returned r)) i) with (view s' i). change (objs (hold s' (returned r))) with (objs s').
    assert (D : exists d : mdict V, does s s' j d /\ (j = i -> d = view s i)).
    { cbn in Sp. destruct (meant s c) eqn:E; [|eexists; split; [apply T|intros ->; auto]].
      eexists. split; [apply T|]. intros J. specialize (Sp J). destruct c; try contradiction; discriminate. }
    destruct D as (d & (_ & F & W) & Ed). rewrite (f_objs _ _ _ F). split; auto.
    destruct (Nat.eq_dec i j) as [->|N]; [rewrite W; auto|]. eapply frame_view; eauto.
  - cbn [alloc]. pose proof (alloc_does s i l O) as (_ & F & W). split; auto.
  - cbn in Po. split; [|auto]. apply change_private; auto. eapply reached_private; eauto.
Qed.
Lemma views_spared {V} (dup : V -> V) i l : forall s : store V, reached dup (fun c => ~ hands_out c) s -> (i < length (objs s))%nat ->
  all_possible dup (fun c => ~ hands_out c) s l -> Forall (spares i) l -> view (acts dup s l) i = view s i.
Proof.
  induction l as [|a l IH]; intros s R L P F; auto. inv F. destruct P as [P1 P2]. cbn [acts fold_left].
  destruct (view_spared dup s i a R P1 H1 L) as [A B]. rewrite <- A. apply IH; auto. constructor; auto.
Qed.

(** ** fromkeys *)
Section FromKeys.
  Context {V : Type}.
  Lemma run_app (l l' : list (mop V)) : forall d, fst (m_run d (l ++ l')) = fst (m_run (fst (m_run d l)) l').
  Proof.
    induction l as [|o l IH]; intros d; auto. cbn [app m_run]. destruct (m_step d o) as [d' r]. specialize (IH d').
    destruct (m_run d' (l ++ l')), (m_run d' l). cbn [fst] in *. auto.
  Qed.
  Lemma as_dict_snoc (l : list (str * V)) k v : as_dict (l ++ [(k, v)]) = dset (as_dict l) k v.
  Proof. unfold as_dict. rewrite fold_left_app. reflexivity. Qed.
  Lemma adds_snoc (d : mdict V) l k v : m_adds d (l ++ [(k, v)]) = m_add (m_adds d l) k v.
  Proof. unfold m_adds. rewrite fold_left_app. reflexivity. Qed.
  Lemma keyed_snoc l k (v : V) : keyed (l ++ [k]) v = keyed l v ++ [(k, v)].
  Proof. unfold keyed. rewrite map_app. reflexivity. Qed.
  Lemma distinct_In l r : distinct l r -> forall k, In k r <-> In k l.
  Proof.
    induction 1 as [|l k r H IH I|l k r H IH I]; intros x; [tauto| |]; rewrite ?in_app_iff; cbn; [|rewrite IH; tauto].
    rewrite IH. intuition. subst. auto.
  Qed.
  Lemma distinct_NoDup l r : distinct l r -> NoDup r.
  Proof.
    induction 1 as [|l k r H IH I|l k r H IH I]; auto; [constructor|]. apply NoDup_rev in IH. rewrite <- (rev_involutive (r ++ [k])). apply NoDup_rev.
    rewrite rev_app_distr. cbn. constructor; auto. rewrite <- in_rev. rewrite (distinct_In _ _ H). auto.
  Qed.
  Lemma distinct_total l : exists r, distinct l r.
  Proof.
    induction l as [|k l (r & H)] using rev_ind; [exists []; constructor|]. destruct (in_dec (list_eq_dec N.eq_dec) k l) as [I|I]; eexists; [eapply dist_seen|eapply dist_new]; eauto.
  Qed.
  Lemma dset_new {W} (d : dict W) k v : ~ In k (map fst d) -> dset d k v = d ++ [(k, v)].
  Proof.
    induction d as [|[k' v'] d IH]; intros H; auto. cbn in H. cbn [dset]. destruct (eqs k k') eqn:E; [apply eqs_eq in E; subst; tauto|]. cbn. f_equal. apply IH. tauto.
  Qed.
  Lemma dset_same {W} (d : dict W) k v : dget d k = Some v -> dset d k v = d.
  Proof.
    induction d as [|[k' v'] d IH]; intros H; [discriminate|]. cbn [dset dget] in *. destruct (eqs k k') eqn:E; [inv H; auto|]. f_equal. auto.
  Qed.
  Lemma dget_const {W} r k (v : W) : In k r -> dget (map (fun k => (k, v)) r) k = Some v.
  Proof.
    induction r as [|x r IH]; intros H; [destruct H|]. cbn [map dget]. destruct (eqs k x) eqn:E; auto. destruct H as [->|H]; auto. rewrite eqs_refl in E. discriminate.
  Qed.
  Lemma fst_const {W} r (v : W) : map fst (map (fun k : str => (k, v)) r) = r.
  Proof. rewrite map_map. cbn. apply map_id. Qed.
  Lemma id_keys l r (v : V) : distinct l r -> id_fromkeys l v = map (fun k => (k, v)) r.
  Proof.
    unfold id_fromkeys. induction 1 as [|l k r H IH I|l k r H IH I]; auto; rewrite keyed_snoc, as_dict_snoc, IH.
    - apply dset_same. apply dget_const. apply (distinct_In _ _ H). auto.
    - rewrite map_app. apply dset_new. rewrite fst_const. rewrite (distinct_In _ _ H). auto.
  Qed.
  Lemma md_keys l r (v : V) : distinct l r -> md_fromkeys l v = map (fun k => (k, [v])) r.
  Proof.
    unfold md_fromkeys. induction 1 as [|l k r H IH I|l k r H IH I]; auto; rewrite map_app, run_app, IH; cbn [map m_run m_step fst].
    - apply dset_same. apply dget_const. apply (distinct_In _ _ H). auto.
    - rewrite map_app. apply dset_new. rewrite fst_const. rewrite (distinct_In _ _ H). auto.
  Qed.
  Lemma times_snoc k x l : times k (l ++ [x]) = (times k l + (if eqs x k then 1 else 0))%nat.
  Proof. induction l; cbn [app times]; [lia|]. rewrite IHl. lia. Qed.
  Lemma times_In k l : ~ In k l -> times k l = 0%nat.
  Proof.
    induction l as [|x l IH]; intros H; auto. cbn in *. destruct (eqs x k) eqn:E; [apply eqs_eq in E; tauto|]. rewrite IH; auto.
  Qed.
  Lemma dset_map {W} (f : str -> W) r k v : NoDup r -> In k r -> dset (map (fun k => (k, f k)) r) k v = map (fun x => (x, if eqs k x then v else f x)) r.
  Proof.
    induction r as [|x r IH]; intros N H; [destruct H|]. inv N. cbn [map dset]. destruct (eqs k x) eqn:E.
    - apply eqs_eq in E. subst. f_equal. apply map_ext_in. intros y Y. destruct (eqs x y) eqn:E; auto. apply eqs_eq in E. subst. contradiction.
    - f_equal. apply IH; auto. destruct H; auto. subst. rewrite eqs_refl in E. discriminate.
  Qed.
  Lemma dget_map {W} (f : str -> W) r k : In k r -> dget (map (fun k => (k, f k)) r) k = Some (f k).
  Proof.
    induction r as [|x r IH]; intros H; [destruct H|]. cbn [map dget]. destruct (eqs k x) eqn:E; [apply eqs_eq in E; subst; auto|]. destruct H as [->|H]; auto. rewrite eqs_refl in E. discriminate.
  Qed.
  Lemma imd_keys l r (v : V) : distinct l r -> imd_fromkeys l v = map (fun k => (k, repeat v (times k l))) r.
  Proof.
    unfold imd_fromkeys, m_init. induction 1 as [|l k r H IH I|l k r H IH I]; auto; rewrite keyed_snoc, adds_snoc, IH; unfold m_add.
    - rewrite dget_map by (apply (distinct_In _ _ H); auto). rewrite (dset_map (fun k => repeat v (times k l))); [|eapply distinct_NoDup; eauto|apply (distinct_In _ _ H); auto].
      apply map_ext. intros x. rewrite times_snoc. destruct (eqs k x) eqn:E; [|f_equal; f_equal; lia].
      apply eqs_eq in E. subst. f_equal. change [v] with (repeat v 1). rewrite <- repeat_app. reflexivity.
    - assert (N : ~ In k (map fst (map (fun k => (k, repeat v (times k l))) r))). { rewrite map_map. cbn. rewrite map_id. rewrite (distinct_In _ _ H). auto. }
      destruct (dget _ k) eqn:E; [exfalso; apply N; apply dget_In in E; apply (in_map fst) in E; exact E|]. rewrite dset_new by exact N. rewrite map_app. f_equal.
      + apply map_ext_in. intros x X. rewrite times_snoc. destruct (eqs k x) eqn:E'; [|f_equal; f_equal; lia]. apply eqs_eq in E'. subst. apply (distinct_In _ _ H) in X. contradiction.
      + cbn [map]. rewrite times_snoc, eqs_refl, times_In by auto. reflexivity.
  Qed.
End FromKeys.

(** ** Ordered dicts *)
Section Ordered.
  Context {V : Type} (dup : V -> V).
  Lemma init_items (m : source V) : o_items_multi (o_init m) = Some (pairs_of m).
  Proof. destruct (ordered_refines m [] (Forall_nil _)) as [[R _] _]. exact R. Qed.
  Lemma iod_pickled (m : source V) : iod_pickle dup (o_init m) = Some (o_init (SPairs (map (dup_pair dup) (pairs_of m)))).
  Proof. unfold iod_pickle. rewrite init_items. reflexivity. Qed.
  Lemma pairs_eq_dup (veq : V -> V -> bool) l : (forall v, veq (dup v) v = true) -> pairs_eq veq (map (dup_pair dup) l) l = true.
  Proof. intros E. induction l as [|[k v] l IH]; auto. cbn. rewrite eqs_refl, E. auto. Qed.
  Lemma iod_reads (m : source V) : exists o, iod_pickle dup (o_init m) = Some o /\ ordered_reads o (map (dup_pair dup) (pairs_of m)).
  Proof.
    eexists. split; [apply iod_pickled|]. destruct (ordered_refines (SPairs (map (dup_pair dup) (pairs_of m))) [] (Forall_nil _)) as [R _]. exact R.
  Qed.
  Lemma iod_same (m : source V) (veq : V -> V -> bool) fhash : (forall v, veq (dup v) v = true) -> lawful veq fhash ->
    exists o h, iod_pickle dup (o_init m) = Some o /\ omd_eq veq o (o_init m) = Some true /\ omd_hash fhash o = Some h /\ omd_hash fhash (o_init m) = Some h.
  Proof.
    intros E L. rewrite iod_pickled. eexists. 
    assert (Q : omd_eq veq (o_init (SPairs (map (dup_pair dup) (pairs_of m)))) (o_init m) = Some true).
    { rewrite omd_eq_spec. cbn [pairs_of]. rewrite pairs_eq_dup; auto. }
    destruct (omd_hash_eq veq fhash _ _ L Q) as (h & H1 & H2). exists h. auto.
  Qed.
End Ordered.
