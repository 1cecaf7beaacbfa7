(** Claim C126: calls on the qop set after any history. *)
From Coq Require Import Arith List NArith ZArith Bool Lia.
From Verif Require Import PyStr PyStrFacts ModelHeaders SpecHeaders ProofHeaders ModelMirror ModelQop ProofQop.
Import ListNotations.
Open Scope N_scope.

Lemma update_loop_calls items : forall s ins,
  hs_calls (fst (hs_update_loop s items ins)) = hs_calls s /\
  (snd (hs_update_loop s items ins) = false -> ins = false /\ fst (hs_update_loop s items ins) = s) /\
  (ins = true -> snd (hs_update_loop s items ins) = true).
Proof.
  induction items as [|h items IH]; intros s ins; cbn [hs_update_loop fst snd]; [auto|].
  destruct (mems (lower h) (hs_set s)); [apply IH|].
  destruct (IH (HSt (hs_headers s ++ [h]) (lower h :: hs_set s) (hs_calls s)) true) as (A & B & C).
  split; [exact A|]. split; [|intros _; exact (C eq_refl)]. intros F. rewrite (C eq_refl) in F. discriminate.
Qed.
Lemma update_calls s items : hs_update s items = s \/ hs_calls (hs_update s items) = S (hs_calls s).
Proof.
  unfold hs_update. pose proof (update_loop_calls items s false) as (A & B & _).
  destruct (hs_update_loop s items false) as [s' ins]. cbn [fst snd] in *. destruct ins.
  - right. cbn [bump hs_calls]. rewrite A. reflexivity.
  - left. apply B. reflexivity.
Qed.
Lemma remove_calls s h s' : hs_remove s h = Ok s' -> hs_calls s' = S (hs_calls s).
Proof. unfold hs_remove. destruct (mems _ _); [|discriminate]. intros E. injection E as <-. reflexivity. Qed.

Lemma step_any s o :
  fst (hs_step s o) = s \/
  hs_calls (fst (hs_step s o)) = S (hs_calls s) \/
  ((exists i, o = SDelItem i) /\ snd (hs_step s o) = Some KeyError /\ hs_calls (fst (hs_step s o)) = hs_calls s).
Proof.
  destruct o; cbn [hs_step fst].
  - destruct (update_calls s [h]); auto.
  - destruct (update_calls s l); auto.
  - destruct (hs_remove s h) eqn:E; cbn [fst]; auto. right. left. eapply remove_calls; eauto.
  - unfold hs_discard. destruct (hs_remove s h) eqn:E; auto. right. left. eapply remove_calls; eauto.
  - right. left. reflexivity.
  - unfold hs_delitem. destruct (py_index i (length (hs_headers s))); [|left; reflexivity].
    cbv zeta. destruct (mems _ _); cbn [fst snd]; [right; left; reflexivity|].
    right. right. split; [eauto|auto].
  - unfold hs_setitem. destruct (py_index i (length (hs_headers s))); [|left; reflexivity].
    cbv zeta. destruct (mems _ _); cbn [fst snd]; [right; left; reflexivity|left; reflexivity].
Qed.

Lemma empty_no_member s h : hs_len s = 0%nat -> hs_contains s h = false.
Proof.
  unfold hs_len, hs_contains. intros E. apply length_zero_iff_nil in E. apply mems_false. intros I.
  apply (nodup_In (list_eq_dec N.eq_dec)) in I. rewrite E in I. destruct I.
Qed.
Lemma no_field (d : dict (option str)) k v : dhas d k = false -> ~ In (k, v) d.
Proof.
  unfold dhas. destruct (dget d k) eqn:G; [discriminate|]. intros _.
  induction d as [|[k' w] d IH]; [intros []|]. cbn [dget] in G. destruct (eqs k k') eqn:E; [discriminate|].
  intros [I|I]; [|exact (IH G I)]. injection I as -> ->. rewrite eqs_refl in E. discriminate.
Qed.

(** Whatever was called before, tame or not: a call that changes the words iterated over, or
    which words are members, is refused with TypeError; but for taking out by its place a word
    that is no member, which is refused with KeyError, and for a call that leaves no member
    in the set of an authorization without qop. *)
Theorem C126_told_any : forall d ops o,
  let s := hs_run (auth_qop d) ops in
  let '(s', d', e) := hs_call qop_update s d o in
  d' = d /\
  (hs_iter s' <> hs_iter s \/ (exists w, hs_contains s' w <> hs_contains s w) ->
     e = Some TypeError \/
     (e = Some KeyError /\ exists i, o = SDelItem i) \/
     (e = None /\ (forall w, hs_contains s' w = false) /\ forall v, ~ In (lit "qop", v) d)).
Proof.
  intros d ops o s. pose proof (qop_call_spec s d o) as C. pose proof (step_any s o) as A.
  destruct (hs_call qop_update s d o) as [[s' d'] e]. destruct C as (-> & -> & ->). split; [reflexivity|].
  intros N. destruct A as [A|[A|(A1 & A2 & A3)]].
  - rewrite A in N. destruct N as [N|[w N]]; congruence.
  - replace (Nat.eqb _ _) with false by (symmetry; apply Nat.eqb_neq; lia).
    destruct (Nat.eqb (hs_len _) 0 && _) eqn:E; [|auto]. right. right. apply andb_true_iff in E as [E1 E2].
    apply Nat.eqb_eq in E1. split; [reflexivity|]. split; [intros w; apply empty_no_member; exact E1|].
    intros v. apply no_field. apply negb_true_iff. exact E2.
  - right. left. rewrite A3, Nat.eqb_refl. auto.
Qed.
Print Assumptions C126_told_any.

(** Words given twice, and one discarded in upper case: none of this is tame. *)
Example C126_told_any_example :
  let d := [(lit "qop", Some (lit "auth, auth, x"))] in
  let '(s, d', es) := qop_calls (auth_qop d) d [SDiscard (lit "X"); SDelItem 2; SDiscard (lit "auth"); SDelItem 0] in
  d' = d /\ hs_iter s = [] /\ es = [Some TypeError; Some KeyError; Some TypeError; Some KeyError].
Proof. vm_compute. repeat split. Qed.
