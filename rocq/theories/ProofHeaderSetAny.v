(** HeaderSet after any history, tame or not: lemmas for C14. *)
From Coq Require Import Arith List NArith ZArith Bool Lia.
From Verif Require Import PyStr PyStrFacts ModelHeaders SpecHeaders ProofHeaders.
Import ListNotations.
Open Scope N_scope.

Definition hs_sub (s : hset) : Prop := forall x, In x (hs_set s) -> In x (map lower (hs_headers s)).

Lemma update_loop_sub items : forall s ins, hs_sub s -> hs_sub (fst (hs_update_loop s items ins)).
Proof.
  induction items as [|h items IH]; intros s ins H; cbn [hs_update_loop fst]; auto.
  destruct (mems (lower h) (hs_set s)); auto. apply IH. intros x Hx. cbn [hs_headers hs_set In] in *.
  rewrite map_app, in_app_iff. destruct Hx as [<-|Hx]; [right; left; auto|left; auto].
Qed.
Lemma update_sub s items : hs_sub s -> hs_sub (hs_update s items).
Proof.
  intros H. unfold hs_update. pose proof (update_loop_sub items s false H) as H'.
  destruct (hs_update_loop s items false) as [s' ins]. destruct ins; exact H'.
Qed.

Lemma del_first_keeps h l y : In y (map lower l) -> lower h <> y -> In y (map lower (hs_del_first h l)).
Proof.
  induction l as [|k l IH]; cbn [map hs_del_first In]; intros Hy Hn; auto.
  destruct (eqs (lower k) h) eqn:E.
  - apply eqs_eq in E. destruct Hy as [<-|Hy]; auto. subst h. rewrite lower_idem in Hn. congruence.
  - cbn [map In]. destruct Hy; auto.
Qed.
Lemma remove_sub s h s' : hs_sub s -> hs_remove s h = Ok s' -> hs_sub s'.
Proof.
  intros H E. unfold hs_remove in E. destruct (mems (lower h) (hs_set s)); [|discriminate].
  injection E as <-. intros x Hx. cbn [bump hs_headers hs_set] in *.
  apply set_remove_spec in Hx as [Hx Hn]. apply del_first_keeps; auto.
Qed.

Lemma delitem_sub s i : hs_sub s -> hs_sub (fst (hs_delitem s i)).
Proof.
  intros H. unfold hs_delitem. destruct (py_index i (length (hs_headers s))) as [n|] eqn:E; [|exact H].
  pose proof (nth_split_py i (hs_headers s) n [] E) as Hs.
  assert (K : forall x, In x (hs_set s) -> x <> lower (nth n (hs_headers s) []) ->
              In x (map lower (remove_nth n (hs_headers s)))).
  { intros x Hx Hn. apply H in Hx. rewrite Hs, map_app, in_app_iff in Hx. cbn [map In] in Hx.
    unfold remove_nth. rewrite map_app, in_app_iff. destruct Hx as [Hx|[Hx|Hx]]; auto. congruence. }
  cbv zeta. destruct (mems (lower (nth n (hs_headers s) [])) (hs_set s)) eqn:Em; cbn [fst]; intros x Hx;
    cbn [bump hs_headers hs_set] in *.
  - apply set_remove_spec in Hx as [Hx Hn]. apply K; congruence.
  - apply mems_false in Em. apply K; auto. intros ->. auto.
Qed.
Lemma setitem_sub s i v : hs_sub s -> hs_sub (fst (hs_setitem s i v)).
Proof.
  intros H. unfold hs_setitem. destruct (py_index i (length (hs_headers s))) as [n|] eqn:E; [|exact H].
  pose proof (nth_split_py i (hs_headers s) n [] E) as Hs. cbv zeta.
  destruct (mems (lower (nth n (hs_headers s) [])) (hs_set s)) eqn:Em; cbn [fst]; [|exact H].
  intros x Hx. cbn [bump hs_headers hs_set In] in *. unfold set_nth. rewrite map_app, in_app_iff. cbn [map In].
  destruct Hx as [Hx|Hx]; [right; left; auto|].
  apply set_remove_spec in Hx as [Hx Hn]. apply H in Hx. rewrite Hs, map_app, in_app_iff in Hx.
  cbn [map In] in Hx. destruct Hx as [Hx|[Hx|Hx]]; auto. congruence.
Qed.

Lemma step_sub s o : hs_sub s -> hs_sub (fst (hs_step s o)).
Proof.
  intros H. destruct o; cbn [hs_step].
  - apply update_sub; auto.
  - apply update_sub; auto.
  - destruct (hs_remove s h) eqn:E; cbn [fst]; auto. eapply remove_sub; eauto.
  - unfold hs_discard. cbn [fst]. destruct (hs_remove s h) eqn:E; auto. eapply remove_sub; eauto.
  - cbn [fst]. intros x [].
  - apply delitem_sub; auto.
  - apply setitem_sub; auto.
Qed.
Lemma run_sub ops : forall s, hs_sub s -> hs_sub (hs_run s ops).
Proof.
  induction ops as [|o ops IH]; intros s H; cbn [hs_run fold_left]; auto. apply IH, step_sub, H.
Qed.

Lemma members_listed names ops :
  let s := hs_run (hs_init names) ops in
  (forall h, hs_contains s h = true -> exists n, In n (hs_iter s) /\ same_name n h) /\
  (forall h, hs_contains s h = true -> (0 <= hs_find s h)%Z) /\
  (hs_len s <= length (hs_iter s))%nat.
Proof.
  intros s. assert (H : hs_sub s) by (apply run_sub; intros x Hx; exact Hx).
  assert (K : forall h, hs_contains s h = true -> exists n, In n (hs_iter s) /\ same_name n h).
  { intros h Hh. unfold hs_contains in Hh. apply mems_spec in Hh. apply H in Hh.
    apply in_map_iff in Hh as (n & Hn & Hi). exists n. split; auto. }
  split; [exact K|split].
  - intros h Hh. destruct (K h Hh) as (n & Hi & Hn). unfold hs_find, hs_iter in *.
    destruct (find_from_spec h (hs_headers s) 0) as [[A B]|(pre & x & post & E & A & B & C)].
    + rewrite Forall_forall in B. destruct (B n); auto.
    + rewrite C. lia.
  - unfold hs_len, hs_iter. rewrite <- (map_length lower (hs_headers s)).
    apply NoDup_incl_length; [apply NoDup_nodup|]. intros x Hx. apply nodup_In in Hx. auto.
Qed.

(** Membership alone. *)
Lemma update_loop_set items : forall s ins x,
  In x (hs_set (fst (hs_update_loop s items ins))) <-> In x (hs_set s) \/ In x (map lower items).
Proof.
  induction items as [|h items IH]; intros s ins x; cbn [hs_update_loop fst map In]; [tauto|].
  destruct (mems (lower h) (hs_set s)) eqn:E; rewrite IH; cbn [hs_set In].
  - apply mems_spec in E. split; [tauto|]. intros [K|[<-|K]]; auto.
  - tauto.
Qed.
Lemma update_members s items h :
  hs_contains (hs_update s items) h = true <->
  hs_contains s h = true \/ exists n, In n items /\ same_name n h.
Proof.
  unfold hs_contains. rewrite !mems_spec.
  assert (E : forall x, In x (hs_set (hs_update s items)) <-> In x (hs_set s) \/ In x (map lower items)).
  { intros x. unfold hs_update. pose proof (update_loop_set items s false x) as K.
    destruct (hs_update_loop s items false) as [s' ins]. destruct ins; exact K. }
  rewrite E, in_map_iff. unfold same_name. split; intros [K|(n & K1 & K2)]; eauto.
Qed.
Lemma discard_members s n h :
  hs_contains (hs_discard s n) h = true <-> hs_contains s h = true /\ ~ same_name n h.
Proof.
  unfold hs_contains, hs_discard, hs_remove, same_name. rewrite !mems_spec.
  destruct (mems (lower n) (hs_set s)) eqn:E; cbn [bump hs_set].
  - apply set_remove_spec.
  - apply mems_false in E. split; [|tauto]. intros K. split; auto. intros R. congruence.
Qed.
