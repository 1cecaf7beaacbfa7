From Coq Require Import Arith List NArith ZArith Bool Lia.
From Verif Require Import PyStr PyStrFacts ModelHeaders SpecHeaders ProofHeaders ModelMirror ProofMirror ModelQop.
From Verif Require ModelCallback.
Import ListNotations.
Open Scope N_scope.

Lemma auth_refuses d m a : m = lit "__delitem__" \/ m = lit "__setitem__" -> auth_call d m a = (d, Some TypeError).
Proof. intros [-> | ->]; reflexivity. Qed.
Lemma qop_update_cases d s : qop_update d s = (d, if Nat.eqb (hs_len s) 0 && negb (dhas d (lit "qop")) then None else Some TypeError).
Proof.
  unfold qop_update. destruct (Nat.eqb (hs_len s) 0), (dhas d (lit "qop")); cbn [andb negb]; auto; apply auth_refuses; auto.
Qed.
Lemma qop_call_spec s d o : let '(s', d', e) := hs_call qop_update s d o in
  s' = fst (hs_step s o) /\ d' = d /\
  e = (if Nat.eqb (hs_calls s') (hs_calls s) then snd (hs_step s o)
       else if Nat.eqb (hs_len s') 0 && negb (dhas d (lit "qop")) then None else Some TypeError).
Proof.
  unfold hs_call. destruct (hs_step s o) as [s' e]. cbn [fst snd]. destruct (Nat.eqb (hs_calls s') (hs_calls s)) eqn:E.
  - rewrite E. auto.
  - rewrite qop_update_cases. rewrite E. auto.
Qed.
Lemma qop_calls_kept ops : forall s d, snd (fst (qop_calls s d ops)) = d /\ fst (fst (qop_calls s d ops)) = hs_run s ops.
Proof.
  induction ops as [|o ops IH]; intros s d; cbn [qop_calls]; [auto|].
  pose proof (qop_call_spec s d o) as C. destruct (hs_call qop_update s d o) as [[s1 d1] e]. destruct C as (-> & -> & _).
  specialize (IH (fst (hs_step s o)) d). destruct (qop_calls _ d ops) as [[s2 d2] es]. exact IH.
Qed.
Lemma qop_ok d : distinct_names (hs_iter (auth_qop d)) -> hs_ok (auth_qop d).
Proof.
  unfold auth_qop, parse_set_header. destruct (match dget d (lit "qop") with Some v => v | None => None end) as [[|c v]|]; intros D; apply hs_init_ok, D.
Qed.
Lemma qop_told d ops o : distinct_names (hs_iter (auth_qop d)) -> tame_run (auth_qop d) ops ->
  let s := hs_run (auth_qop d) ops in tame s o ->
  let '(s', d', e) := hs_call qop_update s d o in
  s' = fst (hs_step s o) /\ d' = d /\
  (hs_iter s' <> hs_iter s ->
     e = Some TypeError \/ (e = None /\ hs_iter s' = [] /\ forall v, ~ In (lit "qop", v) d)).
Proof.
  intros D T s To. assert (K : hs_ok s) by (apply run_ok; auto; apply qop_ok; auto).
  pose proof (qop_call_spec s d o) as C. pose proof (step_calls s o K) as SC. pose proof (step_ok s o K To) as K'.
  destruct (hs_call qop_update s d o) as [[s' d'] e]. destruct C as (-> & -> & ->). repeat split; auto.
  intros N. cbv zeta in SC. unfold hs_iter in N. destruct SC as [[_ SC]|[SC _]]; [congruence|].
  replace (Nat.eqb _ _) with false by (symmetry; apply Nat.eqb_neq; lia).
  destruct (Nat.eqb (hs_len _) 0 && _) eqn:E; [|auto]. right. apply andb_true_iff in E as [E1 E2].
  apply Nat.eqb_eq in E1. rewrite (ok_len _ K') in E1. apply length_zero_iff_nil in E1. split; auto. split; auto.
  intros v I. apply negb_true_iff in E2. unfold dhas in E2.
  destruct (dget d (lit "qop")) eqn:G; [discriminate|].
  clear -I G. induction d as [|[k w] d IH]; [destruct I|]. cbn [dget] in G. destruct (eqs (lit "qop") k) eqn:E; [discriminate|].
  destruct I as [I|I]; [|auto]. injection I as -> ->. vm_compute in E. discriminate.
Qed.
Lemma qop_known d ops w : distinct_names (hs_iter (auth_qop d)) -> tame_run (auth_qop d) ops ->
  let s := hs_run (auth_qop d) ops in
  (exists n, In n (hs_iter s) /\ same_name n w) -> hs_call qop_update s d (SAdd w) = (s, d, None).
Proof.
  intros D T s H. assert (K : hs_ok s) by (apply run_ok; auto; apply qop_ok; auto).
  apply (ok_contains s w K) in H. unfold hs_contains in H. unfold hs_call. cbn [hs_step]. unfold hs_update. cbn [hs_update_loop].
  rewrite H. rewrite Nat.eqb_refl. auto.
Qed.
