(** The matcher against a declarative reading of regular expressions. *)
From Coq Require Import Arith List NArith Bool Lia.
From Verif Require Import PyStr PyStrFacts Regex.
Import ListNotations.
Open Scope N_scope.

Definition step (c : N) (rest : str) (s : st) : st := St (Some c) rest (s_caps s).

(** [matches r s s']: from [s] the expression can consume up to [s']. *)
Inductive matches : re -> st -> st -> Prop :=
| MEps s : matches REps s s
| MSet p s c rest : s_rest s = c :: rest -> p c = true -> matches (RSet p) s (step c rest s)
| MSeq a b s s1 s2 : matches a s s1 -> matches b s1 s2 -> matches (RSeq a b) s s2
| MAltL a b s s' : matches a s s' -> matches (RAlt a b) s s'
| MAltR a b s s' : matches b s s' -> matches (RAlt a b) s s'
| MStarE g a s : matches (RStar g a) s s
| MStarS g a s s1 s2 :
    matches a s s1 -> (length (s_rest s1) < length (s_rest s))%nat ->
    matches (RStar g a) s1 s2 -> matches (RStar g a) s s2
| MGroup g a s s' : matches a s s' ->
    matches (RGroup g a) s (St (s_prev s') (s_rest s') ((g, consumed s s') :: s_caps s'))
| MEnd s : at_end (s_rest s) = true -> matches REnd s s
| MEos s : s_rest s = [] -> matches REos s s
| MNB c s : s_prev s <> Some c -> matches (RNotBehind c) s s.

(** ** Soundness *)
Lemma run_sound {R} (r : re) : forall (s : st) (k : st -> option R) x,
  run r s k = Some x -> exists s', matches r s s' /\ k s' = Some x.
Proof.
  induction r; intros s k x H; cbn [run] in H.
  - eauto using matches.
  - destruct (s_rest s) eqn:E; [discriminate|]. destruct (p n) eqn:Ep; [|discriminate].
    eexists; split; [eapply MSet; eauto|auto].
  - apply IHr1 in H as (s1 & M1 & H). apply IHr2 in H as (s2 & M2 & H).
    eauto using matches.
  - destruct (run r1 s k) eqn:E.
    + inv H. apply IHr1 in E as (s1 & M1 & H). eauto using matches.
    + apply IHr2 in H as (s1 & M1 & H). eauto using matches.
  - destruct greedy.
    + revert H. generalize (length (s_rest s)) at 1 as fuel. intros fuel; revert s.
      induction fuel; intros s H; cbn [star_g] in H; [eauto using matches|].
      destruct (run r s _) eqn:E.
      * inv H. apply IHr in E as (s1 & M1 & H).
        destruct (Nat.ltb_spec (length (s_rest s1)) (length (s_rest s))); [|discriminate].
        apply IHfuel in H as (s2 & M2 & H). eauto using matches.
      * eauto using matches.
    + revert H. generalize (length (s_rest s)) at 1 as fuel. intros fuel; revert s.
      induction fuel; intros s H; cbn [star_l] in H; [eauto using matches|].
      destruct (k s) eqn:Ek.
      * inv H. eauto using matches.
      * apply IHr in H as (s1 & M1 & H).
        destruct (Nat.ltb_spec (length (s_rest s1)) (length (s_rest s))); [|discriminate].
        apply IHfuel in H as (s2 & M2 & H). eauto using matches.
  - apply IHr in H as (s1 & M1 & H). eexists; split; [eapply MGroup; eauto|auto].
  - destruct (at_end (s_rest s)) eqn:E; [|discriminate]. eauto using matches.
  - destruct (s_rest s) eqn:E; [|discriminate]. eauto using matches.
  - destruct (s_prev s) eqn:E.
    + destruct (n =? c) eqn:En; [discriminate|]. eexists; split; [apply MNB|auto].
      rewrite E. intros H2; inv H2. rewrite N.eqb_refl in En. discriminate.
    + eexists; split; [apply MNB|auto]. congruence.
Qed.

(** ** Completeness: if some way of matching satisfies the continuation, the
    matcher finds one. *)
Lemma run_complete {R} (r : re) : forall (s s' : st) (k : st -> option R),
  matches r s s' -> k s' <> None -> run r s k <> None.
Proof.
  induction r; intros s s' k M Hk; cbn [run].
  - inv M; auto.
  - inv M. match goal with H : s_rest _ = _ |- _ => rewrite H end. match goal with H : p _ = true |- _ => rewrite H end. auto.
  - inv M. eapply IHr1; eauto.
  - inv M.
    + pose proof (IHr1 _ _ _ H3 Hk). destruct (run r1 s k); congruence.
    + destruct (run r1 s k); [discriminate|]. eapply IHr2; eauto.
  - assert (G : forall fuel s, (length (s_rest s) <= fuel)%nat -> matches (RStar greedy r) s s' ->
        (if greedy then star_g (run r) fuel s k else star_l (run r) fuel s k) <> None).
    { clear s M. induction fuel; intros s Hf M.
      - assert (s = s'). { inv M; auto. lia. }
        subst. destruct greedy; auto.
      - remember (RStar greedy r) as rr. destruct M; inv Heqrr.
        + destruct greedy; cbn [star_g star_l].
          * destruct (run r s _); auto. discriminate.
          * destruct (k s); auto; congruence.
        + assert (Hb : run r s (fun s' => if (length (s_rest s') <? length (s_rest s))%nat
              then (if greedy then star_g (run r) fuel s' k else star_l (run r) fuel s' k) else None) <> None).
          { eapply IHr; eauto. cbv beta. destruct (Nat.ltb_spec (length (s_rest s1)) (length (s_rest s))); [|lia].
            apply IHfuel; auto. lia. }
          destruct greedy; cbn [star_g star_l].
          * destruct (run r s _); [discriminate|congruence].
          * destruct (k s); [discriminate|auto]. }
    specialize (G (length (s_rest s)) s (le_n _) M). destruct greedy; auto.
  - inv M. eapply IHr; eauto.
  - inv M. match goal with H : at_end _ = _ |- _ => rewrite H end. auto.
  - inv M. match goal with H : s_rest _ = _ |- _ => rewrite H end. auto.
  - inv M. destruct (s_prev s') eqn:E; auto. destruct (n =? c) eqn:En; auto.
    apply N.eqb_eq in En. congruence.
Qed.

(** ** Position bookkeeping *)
Lemma matches_suffix r s s' : matches r s s' -> exists u, s_rest s = u ++ s_rest s'.
Proof.
  induction 1; try (exists []; reflexivity); eauto.
  - exists [c]. rewrite H. auto.
  - destruct IHmatches1 as [u1 E1], IHmatches2 as [u2 E2].
    exists (u1 ++ u2). rewrite E1, E2, app_assoc. auto.
  - destruct IHmatches1 as [u1 E1], IHmatches2 as [u2 E2].
    exists (u1 ++ u2). rewrite E1, E2, app_assoc. auto.
Qed.

Lemma consumed_app s s' u : s_rest s = u ++ s_rest s' -> consumed s s' = u.
Proof.
  intros E. unfold consumed. rewrite E, app_length.
  replace (length u + length (s_rest s') - length (s_rest s'))%nat with (length u) by lia.
  rewrite firstn_app, Nat.sub_diag, firstn_all, firstn_O, app_nil_r. auto.
Qed.

Lemma matches_consumed r s s' : matches r s s' -> s_rest s = consumed s s' ++ s_rest s'.
Proof.
  intros M. destruct (matches_suffix _ _ _ M) as [u E]. rewrite (consumed_app _ _ _ E). auto.
Qed.

(** ** Determinate evaluation rules, used to compute on symbolic strings. *)
Lemma run_str {R} (w : str) : forall prev rest caps (k : st -> option R),
  run (RStr w) (St prev (w ++ rest) caps) k =
  k (St (match rev w with [] => prev | c :: _ => Some c end) rest caps).
Proof.
  induction w as [|c w IH]; intros; cbn [RStr run app s_rest s_caps]; auto.
  unfold RChr. cbn [run s_rest s_caps]. rewrite N.eqb_refl, IH. f_equal. f_equal.
  cbn [rev]. destruct (rev w); auto.
Qed.

Lemma run_str_fail {R} (w : str) : forall prev s caps (k : st -> option R),
  starts w s = false -> run (RStr w) (St prev s caps) k = None.
Proof.
  induction w as [|c w IH]; intros prev s caps k H; cbn [starts] in H; [discriminate|].
  cbn [RStr run RChr s_rest s_caps]. destruct s as [|d s]; auto.
  unfold RChr; cbn [run s_rest s_caps].
  destruct (c =? d) eqn:E; auto.
Qed.

Definition last_or (prev : option N) (u : str) : option N :=
  match rev u with [] => prev | c :: _ => Some c end.

Lemma last_or_cons prev c u : last_or (Some c) u = last_or prev (c :: u).
Proof. unfold last_or. cbn [rev]. destruct (rev u); auto. Qed.

Lemma last_or_app prev a b : last_or (last_or prev a) b = last_or prev (a ++ b).
Proof. unfold last_or. rewrite rev_app_distr. destruct (rev b); auto. Qed.

(** Greedy class repetition: if the continuation succeeds after the longest
    run, that is the result. *)
Lemma run_star_set_g {R} p u : forall prev rest caps (k : st -> option R) x,
  forallb p u = true ->
  (forall c r, rest = c :: r -> p c = false) ->
  k (St (last_or prev u) rest caps) = Some x ->
  run (RStar true (RSet p)) (St prev (u ++ rest) caps) k = Some x.
Proof.
  intros prev rest caps k x Hu Hr Hk. cbn [run s_rest].
  assert (G : forall fuel prev, (length (u ++ rest) <= fuel)%nat ->
     k (St (last_or prev u) rest caps) = Some x ->
     star_g (run (RSet p)) fuel (St prev (u ++ rest) caps) k = Some x).
  { clear Hk prev. induction u as [|c u IH]; intros fuel prev Hf Hk.
    - destruct fuel; cbn [star_g]; auto. cbn [run app s_rest].
      destruct rest as [|c r]; auto. rewrite (Hr c r eq_refl). auto.
    - cbn [forallb] in Hu. apply andb_true_iff in Hu as [Hc Hu].
      destruct fuel; cbn [app length] in Hf; [lia|]. cbn [star_g app run s_rest s_caps].
      rewrite Hc. cbn [s_rest].
      replace (length (u ++ rest) <? length (c :: u ++ rest))%nat with true
        by (symmetry; apply Nat.ltb_lt; cbn [length]; lia).
      rewrite IH; auto; [lia|]. rewrite (last_or_cons prev). auto. }
  apply G; auto.
Qed.

(** Greedy class repetition when the continuation fails everywhere. *)
Lemma run_star_set_g_none {R} p u : forall prev rest caps (k : st -> option R),
  forallb p u = true ->
  (forall c r, rest = c :: r -> p c = false) ->
  (forall a b, u = a ++ b -> k (St (last_or prev a) (b ++ rest) caps) = None) ->
  run (RStar true (RSet p)) (St prev (u ++ rest) caps) k = None.
Proof.
  intros prev rest caps k Hu Hr Hk.
  destruct (run (RStar true (RSet p)) _ k) eqn:E; auto. exfalso.
  apply run_sound in E as (s' & M & Hs').
  assert (G : exists a b, u = a ++ b /\ s' = St (last_or prev a) (b ++ rest) caps).
  { clear Hk Hs'. remember (RStar true (RSet p)) as rr.
    remember (St prev (u ++ rest) caps) as s. revert u prev Hu Heqs.
    induction M; inv Heqrr; intros u prev Hu ->.
    - exists [], u. auto.
    - inversion M1 as [|p0 s0 c rest0 Hc Hp| | | | | | | | |]; subst. cbn [s_rest s_caps] in *.
      destruct u as [|d u]; cbn [app] in Hc.
      + rewrite (Hr _ _ Hc) in Hp. discriminate.
      + inv Hc. cbn [forallb] in Hu. apply andb_true_iff in Hu as [_ Hu].
        destruct (IHM2 eq_refl u (Some c) Hu eq_refl) as (a & b & -> & ->).
        exists (c :: a), b. split; auto. rewrite (last_or_cons prev). auto. }
  destruct G as (a & b & -> & ->). rewrite Hk in Hs'; auto. discriminate.
Qed.

(** Lazy class repetition: the continuation fails on every proper prefix and
    succeeds after [u]. *)
Lemma run_star_set_l {R} p u : forall prev rest caps (k : st -> option R) x,
  forallb p u = true ->
  (forall a c b, u = a ++ c :: b -> k (St (last_or prev a) (c :: b ++ rest) caps) = None) ->
  k (St (last_or prev u) rest caps) = Some x ->
  run (RStar false (RSet p)) (St prev (u ++ rest) caps) k = Some x.
Proof.
  intros prev rest caps k x Hu Hn Hk. cbn [run s_rest].
  assert (G : forall fuel prev, (length (u ++ rest) <= fuel)%nat ->
     (forall a c b, u = a ++ c :: b -> k (St (last_or prev a) (c :: b ++ rest) caps) = None) ->
     k (St (last_or prev u) rest caps) = Some x ->
     star_l (run (RSet p)) fuel (St prev (u ++ rest) caps) k = Some x).
  { clear Hk Hn prev. induction u as [|c u IH]; intros fuel prev Hf Hn Hk.
    - destruct fuel; cbn [star_l app]; auto.
      change (last_or prev []) with prev in Hk. rewrite Hk. auto.
    - cbn [forallb] in Hu. apply andb_true_iff in Hu as [Hc Hu].
      destruct fuel; cbn [app length] in Hf; [lia|]. cbn [star_l app run s_rest s_caps].
      pose proof (Hn [] c u eq_refl) as H0. change (last_or prev []) with prev in H0.
      rewrite H0, Hc. cbn [s_rest].
      replace (length (u ++ rest) <? length (c :: u ++ rest))%nat with true
        by (symmetry; apply Nat.ltb_lt; cbn [length]; lia).
      apply IH; auto; [lia| |].
      + intros a d b ->. rewrite (last_or_cons prev). apply (Hn (c :: a) d b). auto.
      + rewrite (last_or_cons prev). auto. }
  apply G; auto.
Qed.

(** ** One-step equations *)
Section Step.
  Context {R : Type}.
  Implicit Types (k : st -> option R).
  Lemma run_seq a b s k : run (RSeq a b) s k = run a s (fun s' => run b s' k).
  Proof. reflexivity. Qed.
  Lemma run_alt a b s k :
    run (RAlt a b) s k = match run a s k with Some x => Some x | None => run b s k end.
  Proof. reflexivity. Qed.
  Lemma run_eps s k : run REps s k = k s.
  Proof. reflexivity. Qed.
  Lemma run_group g a s k :
    run (RGroup g a) s k =
    run a s (fun s' => k (St (s_prev s') (s_rest s') ((g, consumed s s') :: s_caps s'))).
  Proof. reflexivity. Qed.
  Lemma run_chr c prev rest caps k : run (RChr c) (St prev (c :: rest) caps) k = k (St (Some c) rest caps).
  Proof. unfold RChr. cbn [run s_rest s_caps]. rewrite N.eqb_refl. auto. Qed.
  Lemma run_chr_no c prev s caps k :
    (forall r, s <> c :: r) -> run (RChr c) (St prev s caps) k = None.
  Proof.
    intros H. unfold RChr. cbn [run s_rest s_caps]. destruct s as [|d s]; auto.
    destruct (c =? d) eqn:E; auto. apply N.eqb_eq in E. subst. exfalso. eapply H; eauto.
  Qed.
  Lemma run_set_ok p c prev rest caps k :
    p c = true -> run (RSet p) (St prev (c :: rest) caps) k = k (St (Some c) rest caps).
  Proof. intros H. cbn [run s_rest s_caps]. rewrite H. auto. Qed.
  Lemma run_set_no p prev s caps k :
    (forall c r, s = c :: r -> p c = false) -> run (RSet p) (St prev s caps) k = None.
  Proof. intros H. cbn [run s_rest s_caps]. destruct s; auto. rewrite (H n s); auto. Qed.
  Lemma run_opt_hit a s k x : run a s k = Some x -> run (ROpt a) s k = Some x.
  Proof. intros H. unfold ROpt. rewrite run_alt, H. auto. Qed.
  Lemma run_opt_miss a s k : run a s k = None -> run (ROpt a) s k = k s.
  Proof. intros H. unfold ROpt. rewrite run_alt, H. auto. Qed.
  Lemma run_plus_set p u c prev rest caps k x :
    p c = true -> forallb p u = true ->
    (forall d r, rest = d :: r -> p d = false) ->
    k (St (last_or prev (c :: u)) rest caps) = Some x ->
    run (RPlus true (RSet p)) (St prev (c :: u ++ rest) caps) k = Some x.
  Proof.
    intros Hc Hu Hr Hk. unfold RPlus. rewrite run_seq, run_set_ok by auto.
    apply run_star_set_g; auto. rewrite (last_or_cons prev). auto.
  Qed.
  Lemma consumed_self a rest prev prev' caps caps' :
    consumed (St prev (a ++ rest) caps) (St prev' rest caps') = a.
  Proof. apply consumed_app. auto. Qed.
End Step.

(** The least number of characters a pattern consumes. *)
Fixpoint minlen (r : re) : nat :=
  match r with
  | RSet _ => 1
  | RSeq a b => minlen a + minlen b
  | RAlt a b => Nat.min (minlen a) (minlen b)
  | RGroup _ a => minlen a
  | _ => 0
  end%nat.
Lemma minlen_ok r s s' : matches r s s' -> (length (s_rest s') + minlen r <= length (s_rest s))%nat.
Proof.
  intros M. induction M; cbn [minlen] in *; try lia.
  - rewrite H. cbn [length s_rest step]. lia.
  - cbn [s_rest]. lia.
Qed.
Lemma search_at_sound r s : forall prev pre m, search_at r prev s = Some (pre, m) ->
  exists prev' t, s = pre ++ t /\ matches r (St prev' t []) m.
Proof.
  induction s as [|c s IH]; intros prev pre m; cbn [search_at].
  - destruct (match_at r prev []) as [x|] eqn:E; [|discriminate]. intros H; inv H.
    apply run_sound in E as (s' & M & E). inv E. exists prev, []. auto.
  - destruct (match_at r prev (c :: s)) as [x|] eqn:E.
    + intros H; inv H. apply run_sound in E as (s' & M & E). inv E. exists prev, (c :: s). auto.
    + destruct (search_at r (Some c) s) as [[p x]|] eqn:E2; [|discriminate]. intros H; inv H.
      destruct (IH _ _ _ E2) as (p' & t & -> & M). exists p', t. auto.
Qed.
Lemma search_len r prev s pre m : search_at r prev s = Some (pre, m) ->
  (length (s_rest m) + minlen r <= length s)%nat.
Proof.
  intros H. apply search_at_sound in H as (p' & t & -> & M). apply minlen_ok in M. cbn [s_rest] in M.
  rewrite app_length. lia.
Qed.

(** A captured text is no longer than the text matched against. *)
Lemma caps_len r s s' : matches r s s' -> forall g x, In (g, x) (s_caps s') ->
  In (g, x) (s_caps s) \/ (length x <= length (s_rest s))%nat.
Proof.
  intros M. induction M; intros g' x' Hi; try (left; exact Hi); auto.
  - apply IHM2 in Hi as [Hi|Hi]; [auto|]. apply matches_suffix in M1 as (w & E). rewrite E, app_length. right. lia.
  - apply IHM2 in Hi as [Hi|Hi]; [auto|]. apply matches_suffix in M1 as (w & E). rewrite E, app_length. right. lia.
  - cbn [s_caps] in Hi. destruct Hi as [Hi|Hi]; [|auto]. inv Hi. right. unfold consumed. rewrite firstn_length. lia.
Qed.
