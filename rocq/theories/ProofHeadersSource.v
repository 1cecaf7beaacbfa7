(** Where the values of a header list come from: lemmas for C09. *)
From Coq Require Import Arith List NArith ZArith Bool Lia.
From Verif Require Import PyStr ModelHeaders SpecHeaders ProofHeaders.
Import ListNotations.
Open Scope N_scope.

Section Source.
Variable P : str -> Prop.
Hypothesis HP : forall v, one_line v -> P v.
Let ok (l : list (str * str)) : Prop := Forall (fun kv => P (snd kv)) l.

Lemma without_ok k a b : without k a b -> ok a -> ok b.
Proof using Type. unfold ok. induction 1; intros Hc; auto; inversion Hc; subst; auto. Qed.
Lemma set_effect_ok k v a b : set_effect k v a b -> one_line v -> ok a -> ok b.
Proof using HP.
  unfold ok. intros [[_ ->]|(pre & e & post & post' & -> & _ & _ & H3 & ->)] Hv Ha.
  - apply Forall_app; auto.
  - apply Forall_app in Ha as [Hp Hq]. inversion Hq; subst. apply Forall_app; split; auto.
    constructor; auto. eapply without_ok; eauto.
Qed.
Lemma extend_ok a items b e : extend_effect a items b e -> ok a -> ok b.
Proof using HP.
  induction 1; auto. intros Hc. apply IHextend_effect. apply Forall_app; auto.
Qed.
Lemma at_index_ok i l pre (x : str * str) post : at_index i l pre x post -> ok l -> ok pre /\ ok post.
Proof using Type. intros [-> _] H. apply Forall_app in H as [H1 H2]. inversion H2; subst. auto. Qed.

Lemma call_ok l o l' e : header_call l o l' e -> ok l -> ok l'.
Proof using HP.
  intros H Hc; inversion H; subst; clear H; auto.
  - apply Forall_app; auto.
  - eapply set_effect_ok; eauto.
  - eapply set_effect_ok; eauto.
  - apply Forall_app; auto.
  - eapply extend_ok; eauto.
  - eapply without_ok; eauto.
  - eapply without_ok; eauto.
  - match goal with H : at_index _ _ _ _ _ |- _ => destruct (at_index_ok _ _ _ _ _ H Hc) end. apply Forall_app; auto.
  - apply Forall_app in Hc. tauto.
  - match goal with H : at_index _ _ _ _ _ |- _ => destruct (at_index_ok _ _ _ _ _ H Hc) end. apply Forall_app; auto.
  - match goal with H : at_index _ _ _ _ _ |- _ => destruct (at_index_ok _ _ _ _ _ H Hc) end. apply Forall_app; auto.
  - unfold ok in *. rewrite Forall_forall in *. intros kv Hi. apply in_map_iff in Hi as (y & <- & Hy). cbn [snd]. auto.
  - constructor.
Qed.

Lemma run_ok ops : forall l, ok l -> ok (h_run l ops).
Proof using HP.
  induction ops as [|o ops IH]; intros l H; cbn [h_run fold_left]; auto.
  apply IH. eapply call_ok; [apply step_spec|auto].
Qed.
End Source.

Lemma values_source l ops v :
  In v (map snd (h_run l ops)) -> one_line v \/ In v (map snd l).
Proof.
  intros Hv. apply in_map_iff in Hv as (kv & <- & Hi).
  assert (H : Forall (fun kv => one_line (snd kv) \/ In (snd kv) (map snd l)) (h_run l ops)).
  { apply (run_ok (fun v => one_line v \/ In v (map snd l))); [auto|].
    apply Forall_forall. intros x Hx. right. apply in_map. exact Hx. }
  rewrite Forall_forall in H. apply H. exact Hi.
Qed.

Lemma run_exact l :
  (forall ops, Forall (fun kv => one_line (snd kv)) (h_run l ops)) <->
  Forall (fun kv => one_line (snd kv)) l.
Proof.
  split; [intros H; exact (H [])|intros H ops; apply run_clean; exact H].
Qed.
