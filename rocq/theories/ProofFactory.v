(** * Proofs about factories of bindings *)
From Coq Require Import Arith List NArith ZArith Bool Lia Permutation.
From Verif Require Import PyStr PyStrFacts ModelAccept SpecAccept ModelDispatch SpecDispatch ProofDispatch ModelFactory SpecFactory.
Import ListNotations.
Open Scope N_scope.

Ltac inv H := inversion H; subst; clear H.

(** ** Sets of methods *)
Lemma existsb_eqs x l : existsb (eqs x) l = true <-> In x l.
Proof.
  rewrite existsb_exists. split.
  - intros (y & I & E). apply eqs_eq in E. subst. exact I.
  - intros I. exists x. split; [exact I|]. apply eqs_refl.
Qed.
Lemma to_set_in l x : In x (to_set l) <-> In x l.
Proof.
  induction l as [|y l IH]; cbn [to_set]; [tauto|]. cbv zeta.
  destruct (existsb (eqs y) (to_set l)) eqn:E.
  - apply existsb_eqs in E. cbn [In]. rewrite <- IH. split; [auto|]. intros [<-|H]; auto.
  - cbn [In]. rewrite IH. tauto.
Qed.
Lemma to_set_NoDup l : NoDup (to_set l).
Proof.
  induction l as [|y l IH]; cbn [to_set]; [constructor|]. cbv zeta.
  destruct (existsb (eqs y) (to_set l)) eqn:E; [exact IH|]. constructor; [|exact IH].
  intros I. apply existsb_eqs in I. congruence.
Qed.
Lemma method_set_in m x : In x (method_set m) <-> asked m x.
Proof.
  destruct m as [|s|l]; cbn [method_set asked].
  - cbn. intuition congruence.
  - cbn. intuition congruence.
  - apply to_set_in.
Qed.
Lemma method_set_NoDup m : NoDup (method_set m).
Proof. destruct m as [|s|l]; cbn [method_set]; [repeat constructor; auto..|apply to_set_NoDup]. Qed.

(** ** What factories yield *)
Section yielding.
  Variable order : list str -> list str.
  Hypothesis ok : some_order order.

  Lemma view_yields_exactly name n m ct la ch qs :
    exactly (fun b => b_name b = name /\ asked m (b_method b) /\ b_repr b = numbered n (new_repr ct la ch qs))
            (view_yields order (new_view name n m ct la ch qs)).
  Proof.
    unfold exactly, view_yields. cbn [new_view w_name w_methods w_repr]. split.
    - apply FinFun.Injective_map_NoDup; [intros x y E; congruence|].
      apply (Permutation_NoDup (Permutation_sym (ok _))). apply method_set_NoDup.
    - intros b. rewrite in_map_iff. split.
      + intros (x & <- & I). cbn. split; [reflexivity|]. split; [|reflexivity].
        apply method_set_in. apply (Permutation_in _ (ok _) I).
      + intros (H1 & H2 & H3). exists (b_method b). split; [destruct b; cbn in *; congruence|].
        apply (Permutation_in _ (Permutation_sym (ok _))). apply method_set_in. exact H2.
  Qed.

  Lemma class_yields_named name attrs ms : class_yields (mk_class_view (Some name) attrs) ms =
    (flat_map (fun m => match dget attrs m with
                        | Some n => [mk_binding name m (numbered n (new_repr None None None None))]
                        | None => [] end) ms, None).
  Proof using Type.
    induction ms as [|m ms IH]; cbn [class_yields flat_map k_attrs k_name]; [reflexivity|].
    destruct (dget attrs m); rewrite IH; reflexivity.
  Qed.
  Lemma class_exactly name attrs ms : NoDup ms ->
    exactly (fun b => b_name b = name /\ In (b_method b) ms /\
                      exists n, dget attrs (b_method b) = Some n /\ b_repr b = numbered n (new_repr None None None None))
            (flat_map (fun m => match dget attrs m with
                        | Some n => [mk_binding name m (numbered n (new_repr None None None None))]
                        | None => [] end) ms).
  Proof using Type.
    intros ND. split.
    - induction ND as [|m ms NI ND IH]; cbn [flat_map]; [constructor|].
      destruct (dget attrs m) as [n|]; [|exact IH]. constructor; [|exact IH].
      intros I. apply in_flat_map in I as (m' & I' & J). destruct (dget attrs m'); [|destruct J].
      destruct J as [J|[]]. inv J. auto.
    - intros b. rewrite in_flat_map. split.
      + intros (m & I & J). destruct (dget attrs m) as [n|] eqn:E; [|destruct J]. destruct J as [<-|[]]. cbn.
        split; [reflexivity|]. split; [exact I|]. exists n. auto.
      + intros (H1 & H2 & n & H3 & H4). exists (b_method b). split; [exact H2|]. rewrite H3. left.
        destruct b; cbn in *; congruence.
  Qed.
  Lemma class_methods_NoDup : NoDup class_methods.
  Proof using Type. repeat (constructor; [cbn; intuition discriminate|]). constructor. Qed.
  Lemma exactly_iff (P Q : binding -> Prop) bs : (forall b, P b <-> Q b) -> exactly P bs -> exactly Q bs.
  Proof using Type. intros E (N & H). split; [exact N|]. intros b. rewrite H. apply E. Qed.
  Lemma class_yields_exactly name attrs : exists bs,
    class_yields (mk_class_view (Some name) attrs) (order class_methods) = (bs, None) /\
    gives [] (SClass (mk_class_view (Some name) attrs)) bs.
  Proof.
    eexists. split; [apply class_yields_named|]. constructor.
    eapply exactly_iff; [|apply class_exactly; apply (Permutation_NoDup (Permutation_sym (ok _))), class_methods_NoDup].
    assert (E : forall x, In x (order class_methods) <-> In x class_methods).
    { intros x. split; apply Permutation_in; [apply ok|apply Permutation_sym, ok]. }
    intros b. cbn beta. rewrite E. reflexivity.
  Qed.
End yielding.

(** ** The store *)
Lemma nth_ext_eq {A} (l l' : list A) : (forall i, nth_error l i = nth_error l' i) -> l = l'.
Proof.
  revert l'. induction l as [|x l IH]; intros [|y l'] H; auto.
  - discriminate (H 0%nat).
  - discriminate (H 0%nat).
  - f_equal; [specialize (H 0%nat); cbn in H; congruence|]. apply IH. intros i. apply (H (S i)).
Qed.
Lemma nth_update st t f i : nth_error (update st t f) i =
  if (i =? t)%nat then option_map f (nth_error st i) else nth_error st i.
Proof.
  unfold update. destruct (nth_error st t) as [d|] eqn:E.
  - apply nth_error_split in E as (a & b & -> & <-).
    rewrite firstn_app, Nat.sub_diag, firstn_all, firstn_O, app_nil_r.
    replace (skipn (S (length a)) (a ++ d :: b)) with b
      by (rewrite skipn_app, skipn_all2 by lia; replace (S (length a) - length a)%nat with 1%nat by lia; reflexivity).
    destruct (i =? length a)%nat eqn:Ei.
    + apply Nat.eqb_eq in Ei. subst i. rewrite !nth_error_app2, Nat.sub_diag by lia. reflexivity.
    + apply Nat.eqb_neq in Ei. destruct (le_lt_dec (length a) i) as [L|L].
      * rewrite !nth_error_app2 by lia. destruct (i - length a)%nat as [|k] eqn:K; [lia|]. reflexivity.
      * rewrite !nth_error_app1 by lia. reflexivity.
  - destruct (i =? t)%nat eqn:Ei; [|reflexivity]. apply Nat.eqb_eq in Ei. subst. rewrite E. reflexivity.
Qed.
Lemma length_update st t f : length (update st t f) = length st.
Proof.
  unfold update. destruct (nth_error st t) as [d|] eqn:E; [|reflexivity].
  apply nth_error_split in E as (a & b & -> & <-).
  rewrite firstn_app, Nat.sub_diag, firstn_all, firstn_O, app_nil_r.
  rewrite skipn_app, skipn_all2 by lia. replace (S (length a) - length a)%nat with 1%nat by lia.
  rewrite !app_length. reflexivity.
Qed.
Lemma update_ext st t f g : (forall d, f d = g d) -> update st t f = update st t g.
Proof. intros E. unfold update. destruct (nth_error st t); [rewrite E|]; reflexivity. Qed.
Lemma update_id st t : update st t (fun d => d) = st.
Proof.
  apply nth_ext_eq. intros i. rewrite nth_update. destruct (i =? t)%nat; [|reflexivity]. destruct (nth_error st i); reflexivity.
Qed.
Lemma update_update st t f g : update (update st t f) t g = update st t (fun d => g (f d)).
Proof.
  apply nth_ext_eq. intros i. rewrite !nth_update. destruct (i =? t)%nat; [|reflexivity]. destruct (nth_error st i); reflexivity.
Qed.

Notation extending l := (fun d => fold_left add_binding l d).

Lemma add_live_other fuel : forall st t s d pre post, s <> t -> nth_error st s = Some d -> d_views d = pre ++ post ->
  add_live fuel st t s (length pre) =
  if (length post <=? fuel)%nat then Some (update st t (extending post)) else None.
Proof.
  induction fuel as [|fuel IH]; intros st t s d pre post N E V.
  - cbn [add_live]. rewrite E, V, nth_error_app2, Nat.sub_diag by lia. destruct post as [|b post]; cbn.
    + rewrite update_id. reflexivity.
    + reflexivity.
  - cbn [add_live]. rewrite E, V, nth_error_app2, Nat.sub_diag by lia. destruct post as [|b post]; cbn [nth_error length].
    + cbn. rewrite update_id. reflexivity.
    + replace (S (length pre)) with (length (pre ++ [b])) by (rewrite app_length; cbn; lia).
      rewrite (IH _ _ _ d (pre ++ [b]) post); auto.
      * cbn [Nat.leb]. destruct (length post <=? fuel)%nat; [|reflexivity]. rewrite update_update. reflexivity.
      * rewrite nth_update. apply Nat.eqb_neq in N. rewrite N. exact E.
      * rewrite V, <- app_assoc. reflexivity.
Qed.
Lemma fold_views bs d : d_views (fold_left add_binding bs d) = d_views d ++ bs.
Proof.
  revert d. induction bs as [|b bs IH]; intros d; cbn [fold_left]; [symmetry; apply app_nil_r|].
  rewrite IH. cbn. rewrite <- app_assoc. reflexivity.
Qed.
Lemma add_live_self fuel : forall st t d i, nth_error st t = Some d -> (i < length (d_views d))%nat ->
  add_live fuel st t t i = None.
Proof.
  induction fuel as [|fuel IH]; intros st t d i E L; cbn [add_live]; rewrite E;
    (destruct (nth_error (d_views d) i) as [b|] eqn:B; [|apply nth_error_None in B; lia]).
  - reflexivity.
  - apply (IH _ _ (add_binding d b)).
    + rewrite nth_update, Nat.eqb_refl, E. reflexivity.
    + cbn. rewrite app_length. cbn. lia.
Qed.

(** What a factory yields when the store is [st] *)
Definition yielded (order : list str -> list str) (st : store) (f : source) : list binding :=
  match f with
  | SDispatcher i => match nth_error st i with Some d => d_views d | None => [] end
  | _ => fst (yields order f)
  end.

Section adding.
  Variable order : list str -> list str.

  Lemma usable_yields (st : store) f : usable (length st) f -> snd (yields order f) = None.
  Proof using Type.
    intros [b|name k m ct la ch qs|name attrs|i L]; cbn [yields snd]; auto. rewrite class_yields_named. reflexivity.
  Qed.
  Lemma add_one fuel (st : store) t f : usable (length st) f -> f <> SDispatcher t ->
    add_factory order fuel st t f =
    match f with
    | SDispatcher _ => if (length (yielded order st f) <=? fuel)%nat
                       then Some (update st t (extending (yielded order st f)), None) else None
    | _ => Some (update st t (extending (yielded order st f)), None)
    end.
  Proof using Type.
    intros U N. pose proof (usable_yields st f U) as Y. destruct f as [|b|v|k|i]; try reflexivity.
    - inv U.
    - cbn [add_factory yielded]. destruct (yields order (SClass k)) as [l e]. cbn [fst snd] in *. subst. reflexivity.
    - inv U. cbn [add_factory yielded]. destruct (nth_error st i) as [d|] eqn:E; [|apply nth_error_None in E; lia].
      pose proof (add_live_other fuel st t i d [] (d_views d) ltac:(congruence) E eq_refl) as A.
      cbn [length] in A. rewrite A. destruct (length (d_views d) <=? fuel)%nat; reflexivity.
  Qed.
  Lemma yielded_frame st t l f : f <> SDispatcher t -> yielded order (update st t l) f = yielded order st f.
  Proof using Type.
    intros N. destruct f as [|b|v|k|i]; try reflexivity. cbn [yielded]. rewrite nth_update.
    destruct (i =? t)%nat eqn:E; [|reflexivity]. apply Nat.eqb_eq in E. congruence.
  Qed.
  Lemma add_many fuel fs : forall st t, Forall (usable (length st)) fs -> ~ In (SDispatcher t) fs ->
    (forall f, In f fs -> (length (yielded order st f) <= fuel)%nat) ->
    add_factories order fuel st t fs = Some (update st t (extending (concat (map (yielded order st) fs))), None).
  Proof using Type.
    induction fs as [|f fs IH]; intros st t U N F; cbn [add_factories map concat].
    - cbn. rewrite update_id. reflexivity.
    - inv U. assert (Nf : f <> SDispatcher t) by (intros ->; apply N; left; reflexivity).
      rewrite add_one; auto.
      assert (L : (length (yielded order st f) <=? fuel)%nat = true) by (apply Nat.leb_le, F; left; reflexivity).
      assert (G : add_factories order fuel (update st t (extending (yielded order st f))) t fs =
        Some (update st t (extending (yielded order st f ++ concat (map (yielded order st) fs))), None)).
      { rewrite IH.
        - rewrite update_update. f_equal. f_equal. apply update_ext. intros d. rewrite fold_left_app.
          f_equal. f_equal. apply map_ext_in. intros f' I'. apply yielded_frame. intros ->. apply N. right. exact I'.
        - rewrite length_update. assumption.
        - intros I. apply N. right. exact I.
        - intros f' I'. rewrite yielded_frame; [apply F; right; exact I'|]. intros ->. apply N. right. exact I'. }
      destruct f; try (rewrite L); exact G.
  Qed.
End adding.

Lemma gives_yielded order st f : some_order order -> usable (length st) f ->
  gives (contents st) f (yielded order st f).
Proof.
  intros O [b|name k m ct la ch qs|name attrs|i L]; cbn [yielded].
  - constructor.
  - constructor. apply view_yields_exactly. exact O.
  - destruct (class_yields_exactly order O name attrs) as (bs & E & G). cbn [yields]. rewrite E. cbn [fst].
    inv G. constructor. assumption.
  - constructor. unfold contents. rewrite nth_error_map. destruct (nth_error st i) as [d|] eqn:E; [reflexivity|].
    apply nth_error_None in E. lia.
Qed.
Lemma added_update st t bs : added (contents st) t bs (contents (update st t (extending bs))).
Proof.
  unfold added, contents. rewrite !map_length, length_update. split; [reflexivity|]. intros i.
  rewrite !nth_error_map, nth_update. destruct (i =? t)%nat; [|reflexivity].
  destruct (nth_error st i) as [d|]; cbn; [rewrite fold_views|]; reflexivity.
Qed.

Lemma adds order st t fs : some_order order -> Forall (usable (length st)) fs -> ~ In (SDispatcher t) fs ->
  exists n bss st', Forall2 (gives (contents st)) fs bss /\ added (contents st) t (concat bss) (contents st') /\
    forall fuel, (n <= fuel)%nat -> add_factories order fuel st t fs = Some (st', None).
Proof.
  intros O U N. exists (list_max (map (fun f => length (yielded order st f)) fs)), (map (yielded order st) fs).
  eexists. split; [|split; [apply added_update|]].
  - clear N. induction U as [|f fs Uf U IH]; cbn [map]; constructor; auto. apply gives_yielded; auto.
  - intros fuel L. apply add_many; auto. apply list_max_le in L. rewrite Forall_forall in L.
    intros f I. apply L. apply in_map_iff. exists f. auto.
Qed.

Lemma self_adds order st t d : nth_error st t = Some d ->
  ((exists fuel r, add_factories order fuel st t [SDispatcher t] = Some r) <-> d_views d = []).
Proof.
  intros E. split.
  - intros (fuel & r & H). destruct (d_views d) eqn:V; [reflexivity|]. exfalso.
    cbn [add_factories add_factory] in H. rewrite (add_live_self fuel st t d 0 E) in H; [discriminate|].
    rewrite V. cbn. lia.
  - intros V. exists 0%nat, (st, None). cbn. rewrite E, V. reflexivity.
Qed.

(** ** Lookups in a store *)
(** A dispatcher is as if the bindings it holds had been added one by one. *)
Definition built (d : dispatcher) : Prop := d = add_bindings new_dispatcher (map FBinding (d_views d)).

Lemma add_bindings_each bs : forall d, add_bindings d (map FBinding bs) = fold_left add_binding bs d.
Proof. induction bs as [|b bs IH]; intros d; [reflexivity|]. cbn. unfold add_bindings in IH. rewrite IH. reflexivity. Qed.
Lemma registered_each bs : registered (map FBinding bs) = bs.
Proof. induction bs as [|b bs IH]; [reflexivity|]. unfold registered in *. cbn. rewrite IH. reflexivity. Qed.
Lemma built_new : built new_dispatcher.
Proof. reflexivity. Qed.
Lemma built_fold d bs : built d -> built (fold_left add_binding bs d).
Proof.
  unfold built. rewrite fold_views, map_app. intros B. unfold add_bindings in *. rewrite fold_left_app, <- B.
  symmetry. apply (add_bindings_each bs d).
Qed.
Lemma built_add d b : built d -> built (add_binding d b).
Proof. apply (built_fold d [b]). Qed.

Definition all_built (st : store) : Prop := Forall built st.
Lemma built_update st t f : (forall d, built d -> built (f d)) -> all_built st -> all_built (update st t f).
Proof.
  intros F B. unfold all_built in *. rewrite Forall_forall in *. intros d I. apply In_nth_error in I as (i & E).
  rewrite nth_update in E. destruct (i =? t)%nat.
  - destruct (nth_error st i) as [d'|] eqn:E'; cbn in E; inv E. apply F, B. eapply nth_error_In; eauto.
  - apply B. eapply nth_error_In; eauto.
Qed.
Lemma built_live fuel : forall st t s i st', all_built st -> add_live fuel st t s i = Some st' -> all_built st'.
Proof.
  induction fuel as [|fuel IH]; intros st t s i st' B H; cbn [add_live] in H;
    (destruct (nth_error st s) as [d|]; [|inv H; exact B]); (destruct (nth_error (d_views d) i) as [b|]; [|inv H; exact B]).
  - discriminate.
  - eapply IH; [|exact H]. apply built_update; auto using built_add.
Qed.
Section histories.
  Variable order : list str -> list str.
  Lemma built_factory fuel st t f st' e : all_built st -> add_factory order fuel st t f = Some (st', e) -> all_built st'.
  Proof using Type.
    intros B H. destruct f as [|b|v|k|s]; cbn [add_factory] in H;
      try (destruct (yields order _) as [l x] in H; inv H; apply built_update; auto using built_fold).
    destruct (add_live fuel st t s 0) as [st1|] eqn:E; cbn in H; inv H. eapply built_live; eauto.
  Qed.
  Lemma built_factories fuel fs : forall st t st' e, all_built st -> add_factories order fuel st t fs = Some (st', e) -> all_built st'.
  Proof using Type.
    induction fs as [|f fs IH]; intros st t st' e B H; cbn [add_factories] in H; [inv H; exact B|].
    destruct (add_factory order fuel st t f) as [[st1 [x|]]|] eqn:E; [inv H| |discriminate]; eauto using built_factory.
  Qed.
  Lemma built_step fuel st c st' : all_built st -> dstep order fuel st c = Some st' -> all_built st'.
  Proof using Type.
    intros B H. destruct c as [fs|t fs]; cbn [dstep] in H.
    - destruct (add_factories order fuel (st ++ [new_dispatcher]) (length st) fs) as [[st1 [x|]]|] eqn:E; inv H; auto.
      eapply built_factories; [|exact E]. apply Forall_app. split; auto. constructor; [apply built_new|constructor].
    - destruct (add_factories order fuel st t fs) as [[st1 x]|] eqn:E; cbn in H; inv H. eapply built_factories; eauto.
  Qed.
  Lemma built_run fuel l : forall st st', all_built st -> drun order fuel st l = Some st' -> all_built st'.
  Proof using Type.
    induction l as [|c l IH]; intros st st' B H; cbn [drun] in H; [inv H; exact B|].
    destruct (dstep order fuel st c) as [st1|] eqn:E; [|discriminate]. eauto using built_step.
  Qed.
  Lemma built_reached fuel l st i d : drun order fuel [] l = Some st -> nth_error st i = Some d -> built d.
  Proof using Type.
    intros H E. assert (B : all_built st) by (eapply built_run; [|exact H]; constructor).
    unfold all_built in B. rewrite Forall_forall in B. apply B. eapply nth_error_In; eauto.
  Qed.

  Lemma reached_found float_of fmul fuel l st i d name method a la c r :
    drun order fuel [] l = Some st -> nth_error st i = Some d ->
    lookup float_of fmul d name method a la c = Ok r ->
    exists b, serves (d_views d) name method b /\ b_repr b = r.
  Proof using Type.
    intros H E L. pose proof (built_reached _ _ _ _ _ H E) as B. rewrite B in L. apply lookup_found in L.
    rewrite registered_each in L. exact L.
  Qed.
  Lemma reached_unknown float_of fmul fuel l st i d name method a la c :
    drun order fuel [] l = Some st -> nth_error st i = Some d ->
    (lookup float_of fmul d name method a la c = Raise NotImplemented <-> forall b, In b (d_views d) -> b_name b <> name).
  Proof using Type.
    intros H E. pose proof (built_reached _ _ _ _ _ H E) as B. unfold built in B. rewrite B at 1. rewrite lookup_unknown, registered_each. reflexivity.
  Qed.
  Lemma reached_method float_of fmul fuel l st i d name method a la c :
    drun order fuel [] l = Some st -> nth_error st i = Some d ->
    (lookup float_of fmul d name method a la c = Raise MethodNotAllowed <->
     (exists b, In b (d_views d) /\ b_name b = name) /\ forall b, ~ serves (d_views d) name method b).
  Proof using Type.
    intros H E. pose proof (built_reached _ _ _ _ _ H E) as B. unfold built in B. rewrite B at 1. rewrite lookup_method, registered_each. reflexivity.
  Qed.
End histories.

(** ** The order of sets does not matter *)
Definition alike (l1 l2 : list binding) : Prop :=
  length l1 = length l2 /\ forall n m, offered l1 n m = offered l2 n m.

Lemma alike_refl l : alike l l.
Proof. split; reflexivity. Qed.
Lemma offered_app' l l' n m : offered (l ++ l') n m = offered l n m ++ offered l' n m.
Proof. unfold offered. rewrite filter_app, map_app. reflexivity. Qed.
Lemma alike_app a b c d : alike a b -> alike c d -> alike (a ++ c) (b ++ d).
Proof. intros [L1 O1] [L2 O2]. split; [rewrite !app_length; congruence|]. intros n m. rewrite !offered_app', O1, O2. reflexivity. Qed.

Lemma perm_const {A} (x : A) l1 l2 : Permutation l1 l2 -> (forall y, In y l1 -> y = x) -> l1 = l2.
Proof.
  intros P H. assert (R : forall l, (forall y, In y l -> y = x) -> l = repeat x (length l)).
  { induction l as [|y l IH]; intros K; [reflexivity|]. cbn. rewrite <- IH by (intros; apply K; right; auto).
    rewrite (K y) by (left; auto). reflexivity. }
  rewrite (R l1 H), (R l2), (Permutation_length P); [reflexivity|].
  intros y I. apply H. apply (Permutation_in _ (Permutation_sym P) I).
Qed.
Lemma perm_filter {A} (f : A -> bool) l1 l2 : Permutation l1 l2 -> Permutation (filter f l1) (filter f l2).
Proof.
  induction 1 as [|x l l' P IH|x y l|l l' l'' P IH P' IH']; cbn [filter]; auto.
  - destruct (f x); auto.
  - destruct (f x), (f y); auto. apply perm_swap.
  - eapply perm_trans; eauto.
Qed.
Lemma alike_perm l1 l2 (r : str -> str -> repr) : Permutation l1 l2 -> (forall b, In b l1 -> b_repr b = r (b_name b) (b_method b)) ->
  alike l1 l2.
Proof.
  intros P H. split; [apply Permutation_length, P|]. intros n m. apply (perm_const (r n m)).
  - apply Permutation_map, perm_filter, P.
  - intros y I. apply in_map_iff in I as (b & <- & I). apply filter_In in I as (I & E). apply andb_prop in E as [E1 E2].
    apply eqs_eq in E1, E2. subst. apply H. exact I.
Qed.

Lemma class_none_yields attrs ms : class_yields (mk_class_view None attrs) ms =
  ([], if existsb (fun m => dhas attrs m) ms then Some AttributeError else None).
Proof.
  induction ms as [|m ms IH]; cbn [class_yields k_attrs k_name existsb]; [reflexivity|].
  unfold dhas at 1. destruct (dget attrs m); cbn [orb]; [reflexivity|exact IH].
Qed.

Section two_orders.
  Variables o1 o2 : list str -> list str.
  Hypothesis ok1 : some_order o1.
  Hypothesis ok2 : some_order o2.

  Lemma orders l : Permutation (o1 l) (o2 l).
  Proof. apply (perm_trans (ok1 l)), Permutation_sym, ok2. Qed.

  Lemma yields_alike f : alike (fst (yields o1 f)) (fst (yields o2 f)) /\ snd (yields o1 f) = snd (yields o2 f).
  Proof.
    destruct f as [|b|v|[[name|] attrs]|i]; cbn [yields fst snd]; try (split; [apply alike_refl|reflexivity]).
    - split; [|reflexivity]. apply (alike_perm _ _ (fun _ _ => w_repr v)).
      + apply Permutation_map, orders.
      + intros b I. unfold view_yields in I. apply in_map_iff in I as (m & <- & _). reflexivity.
    - rewrite !class_yields_named. cbn [fst snd]. split; [|reflexivity].
      apply (alike_perm _ _ (fun _ m => match dget attrs m with
          | Some n => numbered n (new_repr None None None None) | None => new_repr None None None None end)).
      + apply Permutation_flat_map, orders.
      + intros b I. apply in_flat_map in I as (m & _ & J). destruct (dget attrs m) eqn:E; [|destruct J].
        destruct J as [<-|[]]. cbn. rewrite E. reflexivity.
    - rewrite !class_none_yields. cbn [fst snd]. split; [apply alike_refl|].
      replace (existsb (fun m => dhas attrs m) (o2 class_methods)) with (existsb (fun m => dhas attrs m) (o1 class_methods)); [reflexivity|].
      apply eq_true_iff_eq. rewrite !existsb_exists.
      split; intros (x & I & E); exists x; (split; [|exact E]); eapply Permutation_in; [apply orders|exact I|apply Permutation_sym, orders|exact I].
  Qed.

  Definition same_store (st1 st2 : store) : Prop :=
    Forall2 (fun d1 d2 => alike (d_views d1) (d_views d2)) st1 st2.

  Lemma same_length st1 st2 : same_store st1 st2 -> length st1 = length st2.
  Proof using Type. induction 1; cbn; auto. Qed.
  Lemma same_nth st1 st2 i : same_store st1 st2 ->
    match nth_error st1 i, nth_error st2 i with
    | Some d1, Some d2 => alike (d_views d1) (d_views d2)
    | None, None => True
    | _, _ => False
    end.
  Proof using Type.
    intros S. revert i. induction S as [|d1 d2 st1 st2 A S IH]; intros [|i]; cbn; auto. apply IH.
  Qed.
  Lemma same_update st1 st2 t l1 l2 : same_store st1 st2 -> alike l1 l2 ->
    same_store (update st1 t (extending l1)) (update st2 t (extending l2)).
  Proof using Type.
    intros S A. revert t. induction S as [|d1 d2 st1 st2 Ad S IH]; intros t.
    - unfold update. destruct t; constructor.
    - destruct t as [|t].
      + cbn. constructor; [rewrite !fold_views; apply alike_app; auto|exact S].
      + specialize (IH t). unfold update in *. cbn [nth_error].
        pose proof (same_nth _ _ t S) as N.
        destruct (nth_error st1 t), (nth_error st2 t); try contradiction.
        * cbn [firstn skipn app]. constructor; auto.
        * constructor; auto.
  Qed.

  Definition rel_res (r1 r2 : option (store * option exn)) : Prop :=
    match r1, r2 with
    | Some (st1, e1), Some (st2, e2) => same_store st1 st2 /\ e1 = e2
    | None, None => True
    | _, _ => False
    end.

  Lemma same_factory fuel st1 st2 t f : same_store st1 st2 ->
    rel_res (add_factory o1 fuel st1 t f) (add_factory o2 fuel st2 t f).
  Proof.
    intros S. destruct (yields_alike f) as [A E].
    assert (G : rel_res (let (l, e) := yields o1 f in Some (update st1 t (extending l), e))
                        (let (l, e) := yields o2 f in Some (update st2 t (extending l), e))).
    { destruct (yields o1 f) as [l1 e1], (yields o2 f) as [l2 e2]. cbn [fst snd rel_res] in *.
      split; [apply same_update; auto|exact E]. }
    destruct f as [|b|v|k|s]; try exact G. clear G. cbn [add_factory].
    pose proof (same_nth _ _ s S) as N.
    destruct (nth_error st1 s) as [d1|] eqn:E1, (nth_error st2 s) as [d2|] eqn:E2; try contradiction.
    - destruct (Nat.eq_dec s t) as [->|Ne].
      + destruct (d_views d1) as [|b1 l1] eqn:V1; destruct (d_views d2) as [|b2 l2] eqn:V2; try (destruct N as [N _]; discriminate N).
        * assert (F : forall st d, nth_error st t = Some d -> d_views d = [] -> add_live fuel st t t 0 = Some st).
          { intros st d E' V. destruct fuel; cbn [add_live]; rewrite E', V; reflexivity. }
          rewrite (F st1 d1 E1 V1), (F st2 d2 E2 V2). cbn. auto.
        * rewrite (add_live_self fuel st1 t d1 0 E1) by (rewrite V1; cbn; lia).
          rewrite (add_live_self fuel st2 t d2 0 E2) by (rewrite V2; cbn; lia). exact I.
      + pose proof (add_live_other fuel st1 t s d1 [] (d_views d1) Ne E1 eq_refl) as A1.
        pose proof (add_live_other fuel st2 t s d2 [] (d_views d2) Ne E2 eq_refl) as A2.
        cbn [length] in A1, A2. rewrite A1, A2. destruct N as [NL NO]. rewrite NL.
        destruct (length (d_views d2) <=? fuel)%nat; cbn; [|exact I]. split; [|reflexivity].
        apply same_update; [exact S|]. split; assumption.
    - assert (F : forall st, nth_error st s = None -> add_live fuel st t s 0 = Some st).
      { intros st E'. destruct fuel; cbn [add_live]; rewrite E'; reflexivity. }
      rewrite (F st1 E1), (F st2 E2). cbn. auto.
  Qed.
  Lemma same_factories fuel fs : forall st1 st2 t, same_store st1 st2 ->
    rel_res (add_factories o1 fuel st1 t fs) (add_factories o2 fuel st2 t fs).
  Proof.
    induction fs as [|f fs IH]; intros st1 st2 t S; cbn [add_factories]; [cbn; auto|].
    pose proof (same_factory fuel st1 st2 t f S) as R.
    destruct (add_factory o1 fuel st1 t f) as [[s1 e1]|], (add_factory o2 fuel st2 t f) as [[s2 e2]|]; cbn in R; try contradiction; auto.
    destruct R as [R ->]. destruct e2; [cbn; auto|]. apply IH. exact R.
  Qed.
  Lemma same_step fuel st1 st2 c : same_store st1 st2 ->
    match dstep o1 fuel st1 c, dstep o2 fuel st2 c with
    | Some s1, Some s2 => same_store s1 s2 | None, None => True | _, _ => False end.
  Proof.
    intros S. destruct c as [fs|t fs]; cbn [dstep].
    - assert (L : length st1 = length st2) by (apply same_length; exact S). rewrite L.
      assert (S' : same_store (st1 ++ [new_dispatcher]) (st2 ++ [new_dispatcher])).
      { apply Forall2_app; [exact S|]. constructor; [apply alike_refl|constructor]. }
      pose proof (same_factories fuel fs _ _ (length st2) S') as R.
      destruct (add_factories o1 fuel (st1 ++ [new_dispatcher]) (length st2) fs) as [[s1 e1]|],
        (add_factories o2 fuel (st2 ++ [new_dispatcher]) (length st2) fs) as [[s2 e2]|]; cbn in R; try contradiction; auto.
      destruct R as [R ->]. destruct e2; auto.
    - pose proof (same_factories fuel fs _ _ t S) as R.
      destruct (add_factories o1 fuel st1 t fs) as [[s1 e1]|], (add_factories o2 fuel st2 t fs) as [[s2 e2]|]; cbn in *; try contradiction; auto.
      apply R.
  Qed.
  Lemma same_run fuel l : forall st1 st2, same_store st1 st2 ->
    match drun o1 fuel st1 l, drun o2 fuel st2 l with
    | Some s1, Some s2 => same_store s1 s2 | None, None => True | _, _ => False end.
  Proof.
    induction l as [|c l IH]; intros st1 st2 S; cbn [drun]; auto.
    pose proof (same_step fuel _ _ c S) as R.
    destruct (dstep o1 fuel st1 c), (dstep o2 fuel st2 c); try contradiction; [apply IH; exact R|exact I].
  Qed.

  Lemma alike_lookup float_of fmul d1 d2 name method a la c : built d1 -> built d2 -> alike (d_views d1) (d_views d2) ->
    lookup float_of fmul d1 name method a la c = lookup float_of fmul d2 name method a la c.
  Proof using Type.
    clear. intros B1 B2 [_ A].
    assert (I1 : indexed d1). { rewrite B1. apply (indexed_fs (map FBinding (d_views d1)) new_dispatcher indexed_new). }
    assert (I2 : indexed d2). { rewrite B2. apply (indexed_fs (map FBinding (d_views d2)) new_dispatcher indexed_new). }
    destruct I1 as [L1 N1], I2 as [L2 N2].
    assert (X : forall m, at_index d1 name m = at_index d2 name m).
    { intros m. specialize (L1 name m). specialize (L2 name m). rewrite A in L1.
      destruct (at_index d1 name m), (at_index d2 name m); destruct L1, L2; try congruence. }
    assert (Y : dget (d_index d1) name = None <-> dget (d_index d2) name = None).
    { rewrite N1, N2. split; intros H b I E; subst.
      - assert (J : In (b_repr b) (offered (d_views d1) (b_name b) (b_method b))) by (rewrite A; apply In_offered; eauto).
        apply In_offered in J as (b' & J & E1 & _). exact (H b' J E1).
      - assert (J : In (b_repr b) (offered (d_views d2) (b_name b) (b_method b))) by (rewrite <- A; apply In_offered; eauto).
        apply In_offered in J as (b' & J & E1 & _). exact (H b' J E1). }
    unfold lookup, at_index in *.
    destruct (dget (d_index d1) name) as [m1|], (dget (d_index d2) name) as [m2|]; try (exfalso; destruct Y; intuition discriminate).
    - rewrite !X. reflexivity.
    - reflexivity.
  Qed.

  Lemma order_free fuel l :
    match drun o1 fuel [] l, drun o2 fuel [] l with
    | Some st1, Some st2 => length st1 = length st2 /\
        forall i d1 d2, nth_error st1 i = Some d1 -> nth_error st2 i = Some d2 ->
        forall float_of fmul name method a la c,
          lookup float_of fmul d1 name method a la c = lookup float_of fmul d2 name method a la c
    | None, None => True
    | _, _ => False
    end.
  Proof.
    pose proof (same_run fuel l [] [] ltac:(constructor)) as R.
    destruct (drun o1 fuel [] l) as [st1|] eqn:E1, (drun o2 fuel [] l) as [st2|] eqn:E2; auto.
    split; [apply same_length; exact R|]. intros i d1 d2 H1 H2 float_of fmul name method a la c.
    pose proof (same_nth _ _ i R) as N. rewrite H1, H2 in N.
    apply alike_lookup; [exact (built_reached o1 fuel l st1 i d1 E1 H1)|exact (built_reached o2 fuel l st2 i d2 E2 H2)|exact N].
  Qed.
End two_orders.

(** ** Sources that fail, and the end of histories *)
Lemma add_behind order fuel gs : forall fs st t st', add_factories order fuel st t fs = Some (st', None) ->
  add_factories order fuel st t (fs ++ gs) = add_factories order fuel st' t gs.
Proof.
  induction fs as [|f fs IH]; intros st t st' H; cbn [add_factories app] in *; [injection H as ->; reflexivity|].
  destruct (add_factory order fuel st t f) as [[st1 [e|]]|]; try discriminate. apply IH. exact H.
Qed.
Lemma nameless_adds order fuel st t attrs m : some_order order ->
  In m [lit "GET"; lit "HEAD"; lit "POST"; lit "PUT"; lit "DELETE"] -> dhas attrs m = true ->
  add_factory order fuel st t (SClass (mk_class_view None attrs)) = Some (st, Some AttributeError).
Proof.
  intros O I H. cbn [add_factory yields]. rewrite class_none_yields.
  replace (existsb (fun m => dhas attrs m) (order class_methods)) with true.
  - cbn [fold_left]. rewrite update_id. reflexivity.
  - symmetry. apply existsb_exists. exists m. split; [|exact H].
    apply (Permutation_in _ (Permutation_sym (O _))). exact I.
Qed.
Lemma adds_fail order st t fs attrs m fs' : some_order order -> Forall (usable (length st)) fs -> ~ In (SDispatcher t) fs ->
  In m [lit "GET"; lit "HEAD"; lit "POST"; lit "PUT"; lit "DELETE"] -> dhas attrs m = true ->
  exists n bss st', Forall2 (gives (contents st)) fs bss /\ added (contents st) t (concat bss) (contents st') /\
    forall fuel, (n <= fuel)%nat ->
      add_factories order fuel st t (fs ++ SClass (mk_class_view None attrs) :: fs') = Some (st', Some AttributeError).
Proof.
  intros O U N I H. destruct (adds order st t fs O U N) as (n & bss & st' & G & A & E). exists n, bss, st'. split; auto. split; auto.
  intros fuel L. rewrite (add_behind _ _ _ _ _ _ _ (E fuel L)). cbn [add_factories]. rewrite (nameless_adds _ _ _ _ _ _ O I H). reflexivity.
Qed.
Lemma added_length h t bs h' : added h t bs h' -> length h' = length h.
Proof. intros [E _]. exact E. Qed.
Lemma contents_length st : length (contents st) = length st.
Proof. apply map_length. Qed.
Lemma usable_more n f : usable n f -> usable (S n) f.
Proof. intros H. inversion H; subst; constructor; lia. Qed.
Lemma ends order : some_order order -> forall l st, ordinary (length st) l ->
  exists n st', length st' = (length st + dispatchers_made l)%nat /\ forall fuel, (n <= fuel)%nat -> drun order fuel st l = Some st'.
Proof.
  intros O. induction l as [|c l IH]; intros st H; unfold dispatchers_made; cbn [filter length].
  - exists 0%nat, st. split; [lia|]. reflexivity.
  - inversion H as [|n fs l' U R E1 E2|n t fs l' Lt U N R E1 E2]; subst.
    + assert (X : exists n bss st', Forall2 (gives (contents (st ++ [new_dispatcher]))) fs bss /\
        added (contents (st ++ [new_dispatcher])) (length st) (concat bss) (contents st') /\
        forall fuel, (n <= fuel)%nat -> add_factories order fuel (st ++ [new_dispatcher]) (length st) fs = Some (st', None)).
      { apply adds; auto.
        - rewrite app_length. cbn [length]. rewrite Nat.add_1_r. eapply Forall_impl; [|exact U]. intros. apply usable_more. auto.
        - intros I. rewrite Forall_forall in U. apply U in I. inversion I; subst. lia. }
      destruct X as (n & bss & st' & _ & A & E). apply added_length in A. rewrite !contents_length, app_length in A. cbn [length] in A.
      destruct (IH st') as (n2 & st2 & L2 & E2). { rewrite A, Nat.add_1_r. exact R. }
      exists (Nat.max n n2), st2. split; [cbn [length]; unfold dispatchers_made in L2; lia|].
      intros fuel L. cbn [drun dstep]. rewrite E by lia. apply E2. lia.
    + destruct (adds order st t fs O U N) as (n & bss & st' & _ & A & E). apply added_length in A. rewrite !contents_length in A.
      destruct (IH st') as (n2 & st2 & L2 & E2). { rewrite A. exact R. }
      exists (Nat.max n n2), st2. split; [unfold dispatchers_made in L2; lia|].
      intros fuel L. cbn [drun dstep]. rewrite E by lia. cbn [option_map fst]. apply E2. lia.
Qed.
