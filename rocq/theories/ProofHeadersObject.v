(** Proofs about slices and Headers objects next to each other. *)
From Coq Require Import Arith List NArith ZArith Bool Lia ZifyBool ZifyN ZifyNat Sorted.
From Verif Require Import PyStr PyStrFacts ModelHeaders SpecHeaders ProofHeaders ModelHeadersObject SpecHeadersObject.
Import ListNotations.
Open Scope Z_scope.
Ltac inv H := inversion H; subst; clear H.

Lemma F2_impl {A B} (P Q : A -> B -> Prop) l r : (forall a b, P a b -> Q a b) -> Forall2 P l r -> Forall2 Q l r.
Proof. intros I. induction 1; constructor; auto. Qed.

Lemma skipn_plus {A} a : forall b (l : list A), skipn a (skipn b l) = skipn (b + a) l.
Proof.
  intros b. induction b as [|b IH]; intros l; [reflexivity|].
  destruct l; cbn [skipn Nat.add]; [destruct a; reflexivity|apply IH].
Qed.

(** ** Walks *)
Lemma walk_up : forall f s stop step i, 0 < step -> stop - s <= Z.of_nat f ->
  In i (walk f s stop step) <-> s <= i < stop /\ (i - s) mod step = 0.
Proof.
  induction f as [|f IH]; intros s stop step i P F; cbn [walk].
  - cbn [In]. lia.
  - replace (step <? 0) with false by lia. destruct (s <? stop) eqn:C.
    + cbn [In]. rewrite IH by lia. replace (i - (s + step)) with (i - s + (-1) * step) by lia.
      rewrite Z.mod_add by lia. split.
      * intros [<-|[B M]]; [|split; [lia|exact M]]. rewrite Z.sub_diag. split; [lia|apply Z.mod_0_l; lia].
      * intros [B M]. destruct (Z.eq_dec s i) as [E|E]; [left; exact E|right].
        split; [|exact M]. apply Z.mod_divide in M; [|lia]. destruct M as [q Q]. assert (1 <= q) by (destruct (Z.le_gt_cases 1 q); [assumption|exfalso; nia]). nia.
    + cbn [In]. lia.
Qed.
Lemma walk_down : forall f s stop step i, step < 0 -> s - stop <= Z.of_nat f ->
  In i (walk f s stop step) <-> stop < i <= s /\ (s - i) mod (- step) = 0.
Proof.
  induction f as [|f IH]; intros s stop step i P F; cbn [walk].
  - cbn [In]. lia.
  - replace (step <? 0) with true by lia. destruct (stop <? s) eqn:C.
    + cbn [In]. rewrite IH by lia. replace (s + step - i) with (s - i + (-1) * (- step)) by lia.
      rewrite Z.mod_add by lia. split.
      * intros [<-|[B M]]; [|split; [lia|exact M]]. rewrite Z.sub_diag. split; [lia|apply Z.mod_0_l; lia].
      * intros [B M]. destruct (Z.eq_dec s i) as [E|E]; [left; exact E|right].
        split; [|exact M]. apply Z.mod_divide in M; [|lia]. destruct M as [q Q]. assert (1 <= q) by (destruct (Z.le_gt_cases 1 q); [assumption|exfalso; nia]). nia.
    + cbn [In]. lia.
Qed.
Lemma walk_order : forall f s stop step, step <> 0 ->
  in_order step (walk f s stop step) /\
  Forall (fun i => if 0 <? step then s <= i else i <= s) (walk f s stop step).
Proof.
  unfold in_order. induction f as [|f IH]; intros s stop step N; cbn [walk]; [split; constructor|].
  destruct (if step <? 0 then stop <? s else s <? stop); [|split; constructor].
  destruct (IH (s + step) stop step N) as [O B]. split.
  - constructor; [exact O|]. apply Forall_forall. intros i I. rewrite Forall_forall in B. specialize (B i I).
    destruct (0 <? step) eqn:P; unfold Z.gt; [lia|]. apply Z.compare_gt_iff. lia.
  - constructor; [destruct (0 <? step); lia|]. eapply Forall_impl; [|exact B]. cbn. intros i.
    destruct (0 <? step) eqn:P; lia.
Qed.

Lemma positions_spec n a b step i : step <> 0 ->
  In i (slice_positions n a b step) <-> picked (Z.of_nat n) a b step i.
Proof.
  intros N. unfold slice_positions, slice_bounds, picked. destruct (step <? 0) eqn:D.
  - replace (0 <? step) with false by lia. rewrite walk_down.
    2: lia.
    2: unfold clamp; cbv zeta; destruct a, b; repeat match goal with |- context [if ?q then _ else _] => destruct q eqn:? end; lia.
    assert (E : forall x, clamp x (-1) (Z.of_nat n - 1) (Z.of_nat n) = Z.max (-1) (Z.min (Z.of_nat n - 1) (from_end (Z.of_nat n) x))).
    { intros x. unfold clamp, from_end. cbv zeta. repeat match goal with |- context [if ?q then _ else _] => destruct q eqn:? end; lia. }
    unfold begin_down. split.
    + intros [B M]. assert (I : 0 <= i < Z.of_nat n) by (destruct a, b; rewrite ?E in *; lia).
      split; [exact I|]. destruct a as [x|]; [rewrite E in *; rewrite Z.max_r in * by lia|];
        (split; [lia|]; split; [destruct b; rewrite ?E in *; lia|exact M]).
    + intros (I & B1 & B2 & M). destruct a as [x|]; [rewrite E; rewrite Z.max_r by lia|];
        (split; [destruct b; rewrite ?E; lia|exact M]).
  - replace (0 <? step) with true by lia. rewrite walk_up.
    2: lia.
    2: unfold clamp; cbv zeta; destruct a, b; repeat match goal with |- context [if ?q then _ else _] => destruct q eqn:? end; lia.
    assert (E : forall x, clamp x 0 (Z.of_nat n) (Z.of_nat n) = Z.min (Z.of_nat n) (Z.max 0 (from_end (Z.of_nat n) x))).
    { intros x. unfold clamp, from_end. cbv zeta. repeat match goal with |- context [if ?q then _ else _] => destruct q eqn:? end; lia. }
    unfold begin_up. split.
    + intros [B M]. assert (I : 0 <= i < Z.of_nat n) by (destruct a, b; rewrite ?E in *; lia).
      split; [exact I|]. destruct a as [x|]; [rewrite E in *; rewrite Z.min_r in * by lia|];
        (split; [lia|]; split; [destruct b; rewrite ?E in *; lia|exact M]).
    + intros (I & B1 & B2 & M). destruct a as [x|]; [rewrite E; rewrite Z.min_r by lia|];
        (split; [destruct b; rewrite ?E; lia|exact M]).
Qed.
Lemma positions_order n a b step : step <> 0 -> in_order step (slice_positions n a b step).
Proof.
  intros N. unfold slice_positions. destruct (slice_bounds (Z.of_nat n) a b step). apply walk_order. exact N.
Qed.
Lemma positions_range n a b step : step <> 0 ->
  Forall (fun i => 0 <= i < Z.of_nat n) (slice_positions n a b step).
Proof. intros N. apply Forall_forall. intros i I. apply positions_spec in I; [|exact N]. apply I. Qed.

Section S.
  Context {A : Type}.
  Lemma elements_flat (l : list A) ps : Forall (fun i => 0 <= i < Z.of_nat (length l)) ps ->
    elements_at l ps (flat_map (at_position l) ps).
  Proof.
    unfold elements_at. induction 1 as [|i ps B _ IH]; cbn [flat_map]; [constructor|].
    unfold at_position at 1. destruct (nth_error l (Z.to_nat i)) as [x|] eqn:E.
    - cbn [app]. constructor; [split; [lia|exact E]|exact IH].
    - apply nth_error_None in E. lia.
  Qed.
  Lemma slice_read (l r : list A) a b c : list_slice l a b c = Ok r ->
    step_of c <> 0 /\ exists ps, in_order (step_of c) ps
      /\ (forall i, In i ps <-> picked (Z.of_nat (length l)) a b (step_of c) i) /\ elements_at l ps r.
  Proof.
    unfold list_slice. destruct (step_of c =? 0) eqn:Z0; [discriminate|]. intros H. inv H.
    split; [lia|]. exists (slice_positions (length l) a b (step_of c)).
    split; [apply positions_order; lia|]. split; [intros i; apply positions_spec; lia|].
    apply elements_flat, positions_range. lia.
  Qed.

  Fixpoint upto (i : Z) (n : nat) : list Z := match n with O => [] | S m => i :: upto (i + 1) m end.
  Lemma upto_in n : forall i j, In j (upto i n) <-> i <= j < i + Z.of_nat n.
  Proof. induction n as [|n IH]; intros i j; cbn [upto In]; [lia|]. rewrite IH. lia. Qed.
  Lemma upto_filter_sorted f n : forall i, StronglySorted Z.lt (filter f (upto i n)).
  Proof.
    induction n as [|n IH]; intros i; cbn [upto filter]; [constructor|].
    assert (G : Forall (Z.lt i) (filter f (upto (i + 1) n))).
    { apply Forall_forall. intros j J. apply filter_In in J. destruct J as [J _]. apply upto_in in J. lia. }
    destruct (f i); [constructor; [apply IH|exact G]|apply IH].
  Qed.
  Lemma drop_elements ps (l : list A) : forall i,
    Forall2 (fun j x => i <= j /\ nth_error l (Z.to_nat (j - i)) = Some x)
      (filter (fun j => negb (has_z j ps)) (upto i (length l))) (drop_positions i ps l).
  Proof.
    induction l as [|x l IH]; intros i; cbn [length upto filter drop_positions]; [constructor|].
    assert (G : Forall2 (fun j y => i <= j /\ nth_error (x :: l) (Z.to_nat (j - i)) = Some y)
      (filter (fun j => negb (has_z j ps)) (upto (i + 1) (length l))) (drop_positions (i + 1) ps l)).
    { eapply F2_impl; [|apply IH]. intros j y [B E]. split; [lia|].
      replace (Z.to_nat (j - i)) with (S (Z.to_nat (j - (i + 1)))) by lia. exact E. }
    destruct (has_z i ps); cbn [negb]; [exact G|]. constructor; [|exact G].
    split; [lia|]. rewrite Z.sub_diag. reflexivity.
  Qed.
  Lemma has_z_in i ps : has_z i ps = true <-> In i ps.
  Proof.
    unfold has_z. rewrite existsb_exists. split.
    - intros (x & I & E). apply Z.eqb_eq in E. subst. exact I.
    - intros I. exists i. split; [exact I|apply Z.eqb_refl].
  Qed.
  Lemma slice_drop (l r : list A) a b c : list_del_slice l a b c = Ok r ->
    step_of c <> 0 /\ exists ps, StronglySorted Z.lt ps
      /\ (forall i, In i ps <-> 0 <= i < Z.of_nat (length l) /\ ~ picked (Z.of_nat (length l)) a b (step_of c) i)
      /\ elements_at l ps r.
  Proof.
    unfold list_del_slice. destruct (step_of c =? 0) eqn:Z0; [discriminate|]. intros H. inv H.
    split; [lia|]. set (qs := slice_positions (length l) a b (step_of c)).
    exists (filter (fun j => negb (has_z j qs)) (upto 0 (length l))).
    split; [apply upto_filter_sorted|]. split.
    - intros i. rewrite filter_In, upto_in, <- positions_spec by lia. fold qs.
      rewrite <- has_z_in. destruct (has_z i qs); cbn; intuition (try discriminate; try lia).
    - unfold elements_at. eapply F2_impl; [|apply drop_elements]. intros j x [B E].
      rewrite Z.sub_0_r in E. split; [lia|exact E].
  Qed.

  Lemma set_nth_length (l : list A) i x : (i < length l)%nat -> length (set_nth i x l) = length l.
  Proof. intros L. unfold set_nth. rewrite app_length, firstn_length. cbn [length]. rewrite skipn_length. lia. Qed.
  Lemma set_nth_same (l : list A) i x : (i < length l)%nat -> nth_error (set_nth i x l) i = Some x.
  Proof.
    intros L. unfold set_nth. rewrite nth_error_app2; rewrite firstn_length; [|lia].
    replace (i - Nat.min i (length l))%nat with O by lia. reflexivity.
  Qed.
  Lemma set_nth_other (l : list A) : forall i j x, (i < length l)%nat -> j <> i ->
    nth_error (set_nth i x l) j = nth_error l j.
  Proof.
    unfold set_nth. induction l as [|y l IH]; intros i j x L N; [cbn in L; lia|].
    destruct i as [|i]; destruct j as [|j]; cbn; try reflexivity; [lia|].
    apply IH; cbn in L; lia.
  Qed.
  Lemma put_spec ps : forall (l new : list A), NoDup ps -> length ps = length new ->
    Forall (fun i => 0 <= i < Z.of_nat (length l)) ps ->
    length (put_positions l ps new) = length l
    /\ elements_at (put_positions l ps new) ps new
    /\ forall i, ~ In (Z.of_nat i) ps -> nth_error (put_positions l ps new) i = nth_error l i.
  Proof.
    unfold elements_at.
    induction ps as [|p ps IH]; intros l [|x new] D L B; try discriminate L; cbn [put_positions].
    - split; [reflexivity|]. split; [constructor|reflexivity].
    - inv D. inv B. injection L as L. assert (P : (Z.to_nat p < length l)%nat) by lia.
      destruct (IH (set_nth (Z.to_nat p) x l) new H2 L) as (I1 & I2 & I3).
      { rewrite set_nth_length by exact P. exact H4. }
      rewrite set_nth_length in I1 by exact P. split; [exact I1|]. split.
      + constructor; [|exact I2]. split; [lia|].
        rewrite I3; [apply set_nth_same; exact P|]. rewrite Z2Nat.id by lia. exact H1.
      + intros i N. rewrite I3 by (intros Q; apply N; right; exact Q).
        apply set_nth_other; [exact P|]. intros ->. apply N. left. lia.
  Qed.
  Lemma order_nodup step ps : step <> 0 -> in_order step ps -> NoDup ps.
  Proof.
    intros N. unfold in_order. induction 1 as [|p ps O IH B]; constructor; [|exact IH].
    intros I. rewrite Forall_forall in B. specialize (B p I). destruct (0 <? step); lia.
  Qed.
  Lemma slice_put (l r new : list A) a b c : step_of c <> 1 -> list_set_slice l a b c new = Ok r ->
    step_of c <> 0 /\ length r = length l /\ exists ps, in_order (step_of c) ps
      /\ (forall i, In i ps <-> picked (Z.of_nat (length l)) a b (step_of c) i)
      /\ elements_at r ps new
      /\ forall i, ~ In (Z.of_nat i) ps -> nth_error r i = nth_error l i.
  Proof.
    intros N1. unfold list_set_slice. destruct (step_of c =? 0) eqn:Z0; [discriminate|].
    replace (step_of c =? 1) with false by lia.
    destruct (Nat.eqb _ _) eqn:L; [|discriminate]. apply Nat.eqb_eq in L. intros H. inv H.
    assert (NZ : step_of c <> 0) by lia.
    pose proof (positions_order (length l) a b (step_of c) NZ) as O.
    destruct (put_spec _ l new (order_nodup _ _ NZ O) L (positions_range _ a b _ NZ)) as (P1 & P2 & P3).
    split; [lia|]. split; [exact P1|]. exists (slice_positions (length l) a b (step_of c)).
    split; [exact O|]. split; [intros i; apply positions_spec; lia|]. split; assumption.
  Qed.
  Lemma slice_put_refused (l new : list A) a b c e : list_set_slice l a b c new = Raise e ->
    e = ValueError /\ (step_of c = 0 \/ (step_of c <> 1 /\ forall ps, in_order (step_of c) ps ->
      (forall i, In i ps <-> picked (Z.of_nat (length l)) a b (step_of c) i) -> length ps <> length new)).
  Proof.
    unfold list_set_slice. destruct (step_of c =? 0) eqn:Z0; [intros H; inv H; split; [reflexivity|left; lia]|].
    destruct (step_of c =? 1) eqn:Z1; [destruct (slice_bounds _ a b 1); discriminate|].
    destruct (Nat.eqb _ _) eqn:L; [discriminate|]. apply Nat.eqb_neq in L. intros H. inv H.
    split; [reflexivity|]. right. split; [lia|]. intros ps O P E. apply L. rewrite <- E.
    assert (D1 : NoDup (slice_positions (length l) a b (step_of c))) by (eapply order_nodup; [|apply positions_order]; lia).
    assert (D2 : NoDup ps) by (eapply order_nodup; [|exact O]; lia).
    apply Nat.le_antisymm; apply NoDup_incl_length; try assumption; intros i I.
    - apply P. apply positions_spec in I; [exact I|lia].
    - apply positions_spec; [lia|]. apply P. exact I.
  Qed.
  Lemma slice_splice (l r new : list A) a b c : step_of c = 1 -> list_set_slice l a b c new = Ok r ->
    exists pre mid post, l = pre ++ mid ++ post /\ r = pre ++ new ++ post
      /\ Z.of_nat (length pre) = Z.min (Z.of_nat (length l)) (begin_up (Z.of_nat (length l)) a)
      /\ forall i, picked (Z.of_nat (length l)) a b 1 i
                   <-> Z.of_nat (length pre) <= i < Z.of_nat (length pre + length mid).
  Proof.
    intros E1. unfold list_set_slice. rewrite E1. cbn [Z.eqb Pos.eqb].
    change ((1 =? 0)) with false. cbv iota.
    set (n := Z.of_nat (length l)).
    destruct (slice_bounds n a b 1) as [i0 stop] eqn:SB. intros H. inv H.
    unfold slice_bounds in SB. change (1 <? 0) with false in SB. cbv iota in SB.
    assert (E : forall x, clamp x 0 n n = Z.min n (Z.max 0 (from_end n x))).
    { intros x. unfold clamp, from_end. cbv zeta. repeat match goal with |- context [if ?q then _ else _] => destruct q eqn:? end; lia. }
    assert (Hi : i0 = Z.min n (begin_up n a)).
    { unfold begin_up. destruct a; rewrite ?E in SB; injection SB as <- _; lia. }
    assert (Hs : stop = match b with Some x => Z.min n (Z.max 0 (from_end n x)) | None => n end).
    { destruct b; rewrite ?E in SB; injection SB as _ <-; reflexivity. }
    clear SB E. assert (B0 : 0 <= begin_up n a) by (unfold begin_up; destruct a; lia).
    assert (S0 : 0 <= stop <= n) by (destruct b; lia).
    exists (firstn (Z.to_nat i0) l), (firstn (Z.to_nat (Z.max i0 stop - i0)) (skipn (Z.to_nat i0) l)),
      (skipn (Z.to_nat (Z.max i0 stop)) l).
    split; [|split; [reflexivity|]].
    { rewrite <- (firstn_skipn (Z.to_nat i0) l) at 1. f_equal.
      rewrite <- (firstn_skipn (Z.to_nat (Z.max i0 stop - i0)) (skipn (Z.to_nat i0) l)) at 1. f_equal.
      rewrite skipn_plus. f_equal. lia. }
    rewrite !firstn_length, skipn_length. split; [lia|].
    intros i. unfold picked. change (0 <? 1) with true. cbv iota. rewrite Z.mod_1_r.
    rewrite Hi, Hs in *. destruct b as [x|]; lia.
  Qed.
End S.

(** ** Equality *)
Lemma line_eq_iff x y : line_eq x y = true <-> x = y.
Proof.
  destruct x as [a b], y as [c d]. unfold line_eq. cbn [fst snd]. rewrite andb_true_iff, !eqs_eq.
  split; [intros [-> ->]; reflexivity|intros H; inv H; split; reflexivity].
Qed.
Lemma has_line_in x l : has_line x l = true <-> In x l.
Proof.
  unfold has_line. rewrite existsb_exists. split.
  - intros (y & I & E). apply line_eq_iff in E. subst. exact I.
  - intros I. exists x. split; [exact I|apply line_eq_iff; reflexivity].
Qed.
Lemma eq_spec a b : h_eq a b = true <-> forall x, In x a <-> In x b.
Proof.
  unfold h_eq. rewrite andb_true_iff, !forallb_forall. split.
  - intros [P Q] x. split; intros I; apply has_line_in; auto.
  - intros P. split; intros x I; apply has_line_in; apply P; exact I.
Qed.

(** ** The store *)
Definition wf (w : hworld) : Prop :=
  NoDup (hw_objs w ++ hw_lists w) /\ Forall (fun id => (id < length (hw_store w))%nat) (hw_objs w ++ hw_lists w).
Lemma put_wf w id l : (id < length (hw_store w))%nat -> wf w -> wf (put w id l).
Proof.
  intros L [D B]. split; [exact D|]. cbn [put hw_store hw_objs hw_lists].
  rewrite set_nth_length by exact L. exact B.
Qed.
Lemma nodup_insert {A} (a b : list A) x : NoDup (a ++ b) -> ~ In x (a ++ b) -> NoDup ((a ++ [x]) ++ b).
Proof.
  intros D N. rewrite <- app_assoc. cbn [app]. apply NoDup_Add with (l := a ++ b) (a := x).
  - apply Add_app.
  - split; assumption.
Qed.
Lemma fresh_id w : wf w -> ~ In (length (hw_store w)) (hw_objs w ++ hw_lists w).
Proof. intros [_ B] I. rewrite Forall_forall in B. specialize (B _ I). lia. Qed.
Lemma new_obj_wf w l : wf w -> wf (new_obj w l).
Proof.
  intros W. pose proof (fresh_id w W) as F. destruct W as [D B]. split; cbn [new_obj hw_store hw_objs hw_lists].
  - apply nodup_insert; assumption.
  - rewrite app_length. cbn [length]. rewrite <- app_assoc. apply Forall_app in B. destruct B as [B1 B2].
    apply Forall_app. split; [eapply Forall_impl; [|exact B1]; cbn; lia|].
    constructor; [lia|]. eapply Forall_impl; [|exact B2]. cbn. lia.
Qed.
Lemma new_list_wf w l : wf w -> wf (new_list w l).
Proof.
  intros W. pose proof (fresh_id w W) as F. destruct W as [D B]. split; cbn [new_list hw_store hw_objs hw_lists].
  - rewrite app_assoc. rewrite <- (app_nil_r ((hw_objs w ++ hw_lists w) ++ [_])).
    apply nodup_insert; rewrite app_nil_r; assumption.
  - rewrite app_length, app_assoc. cbn [length]. apply Forall_app. split.
    + eapply Forall_impl; [|exact B]. cbn. lia.
    + constructor; [lia|constructor].
Qed.
Lemma obj_bound w o id : wf w -> obj_id w o = Some id -> (id < length (hw_store w))%nat.
Proof.
  intros [_ B] H. apply nth_error_In in H. rewrite Forall_forall in B. apply B, in_or_app. left. exact H.
Qed.
Lemma lst_bound w o id : wf w -> lst_id w o = Some id -> (id < length (hw_store w))%nat.
Proof.
  intros [_ B] H. apply nth_error_In in H. rewrite Forall_forall in B. apply B, in_or_app. right. exact H.
Qed.
Lemma nodup_nth {A} (l : list A) i j x : NoDup l -> nth_error l i = Some x -> nth_error l j = Some x -> i = j.
Proof.
  intros D I J. pose proof (proj1 (NoDup_nth_error l) D i j) as K. apply K; [|congruence].
  apply nth_error_Some. congruence.
Qed.
Lemma nodup_l {A} (a b : list A) : NoDup (a ++ b) -> NoDup a.
Proof. induction a as [|x a IH]; cbn; intros D; [constructor|]. inv D. constructor; [|auto]. intros I. apply H1, in_or_app. left. exact I. Qed.
Lemma nodup_r {A} (a b : list A) : NoDup (a ++ b) -> NoDup b.
Proof. induction a as [|x a IH]; cbn; intros D; [exact D|]. inv D. auto. Qed.
Lemma nodup_apart {A} (a b : list A) x : NoDup (a ++ b) -> In x a -> In x b -> False.
Proof.
  induction a as [|y a IH]; cbn; intros D I J; [exact I|]. inv D. destruct I as [->|I]; [|eauto].
  apply H1, in_or_app. right. exact J.
Qed.

Lemma list_at_put w id l j : (id < length (hw_store w))%nat ->
  list_at (put w id l) j = if Nat.eqb j id then l else list_at w j.
Proof.
  intros L. unfold list_at. cbn [put hw_store]. destruct (Nat.eqb j id) eqn:E.
  - apply Nat.eqb_eq in E. subst. apply nth_error_nth. apply set_nth_same. exact L.
  - apply Nat.eqb_neq in E. pose proof (set_nth_other (hw_store w) id j l L E) as K.
    destruct (nth_error (hw_store w) j) as [x|] eqn:N.
    + transitivity x; [apply nth_error_nth; exact K|symmetry; apply nth_error_nth; exact N].
    + apply nth_error_None in N, K. rewrite !nth_overflow by assumption. reflexivity.
Qed.
Lemma list_at_new w l o ls j : (j < length (hw_store w))%nat ->
  list_at (HW (hw_store w ++ [l]) o ls) j = list_at w j.
Proof. intros L. unfold list_at. cbn [hw_store]. apply app_nth1. exact L. Qed.
Lemma list_at_fresh w l o ls : list_at (HW (hw_store w ++ [l]) o ls) (length (hw_store w)) = l.
Proof. unfold list_at. cbn [hw_store]. rewrite app_nth2 by lia. rewrite Nat.sub_diag. reflexivity. Qed.

Lemma extend_wf src dst : forall f w i w' e, wf w -> (dst < length (hw_store w))%nat ->
  extend_live f w src dst i = Some (w', e) ->
  wf w' /\ hw_objs w' = hw_objs w /\ hw_lists w' = hw_lists w
  /\ forall j, j <> dst -> list_at w' j = list_at w j.
Proof.
  induction f as [|f IH]; intros w i w' e W L H; cbn [extend_live] in H; [discriminate|].
  destruct (nth_error (list_at w src) i) as [[k v]|]; [|inv H; auto].
  destruct (validate_value v); [|inv H; auto].
  apply IH in H; [|apply put_wf; assumption|cbn [put hw_store]; rewrite set_nth_length; exact L].
  destruct H as (W' & O & LL & P). split; [exact W'|]. split; [exact O|]. split; [exact LL|].
  intros j N. rewrite P by exact N. rewrite list_at_put by exact L.
  apply Nat.eqb_neq in N. rewrite N. reflexivity.
Qed.
Lemma wstep_wf fuel w o w' e : wf w -> wstep fuel w o = Some (w', e) -> wf w'.
Proof.
  intros W H. destruct o; cbn [wstep] in H.
  - inv H. apply new_list_wf. exact W.
  - destruct (lst_id w c) as [id|] eqn:I; inv H; [|exact W]. apply put_wf; [eapply lst_bound; eassumption|exact W].
  - destruct (lst_id w c) as [id|] eqn:I; inv H; [|exact W]. apply new_obj_wf. exact W.
  - destruct (obj_id w o) as [id|] eqn:I; inv H; [|exact W]. apply new_obj_wf. exact W.
  - destruct (obj_id w o) as [id|] eqn:I; [|inv H; exact W].
    destruct (list_slice _ a b c); inv H; [apply new_obj_wf|]; exact W.
  - destruct (obj_id w o) as [id|] eqn:I; inv H; [|exact W]. apply new_list_wf. exact W.
  - destruct (obj_id w o) as [id|] eqn:I; [|inv H; exact W].
    destruct (h_step _ call); inv H. apply put_wf; [eapply obj_bound; eassumption|exact W].
  - destruct (obj_id w o) as [id|] eqn:I; [|inv H; exact W].
    destruct (h_del_slice _ a b c); inv H; [apply put_wf; [eapply obj_bound; eassumption|]|]; exact W.
  - destruct (obj_id w o) as [id|] eqn:I; [|inv H; exact W].
    destruct (h_set_slice _ a b c items); inv H; [apply put_wf; [eapply obj_bound; eassumption|]|]; exact W.
  - destruct (obj_id w o) as [dst|] eqn:I; [|inv H; exact W].
    destruct (obj_id w p) as [src|] eqn:J; [|inv H; exact W].
    eapply extend_wf in H; [apply H|exact W|eapply obj_bound; eassumption].
Qed.
Lemma empty_wf : wf empty_world.
Proof. split; constructor. Qed.
Lemma wrun_wf fuel ops : forall w w', wf w -> wrun fuel w ops = Some w' -> wf w'.
Proof.
  induction ops as [|o ops IH]; intros w w' W H; cbn [wrun] in H; [inv H; exact W|].
  destruct (wstep fuel w o) as [[w1 e]|] eqn:S; [|discriminate]. eapply IH; [|exact H].
  eapply wstep_wf; eassumption.
Qed.

(** what one change of a list does to the views *)
Lemma content_put w id l p : wf w -> (id < length (hw_store w))%nat ->
  content (put w id l) p = if match obj_id w p with Some q => Nat.eqb q id | None => false end then l else content w p.
Proof.
  intros W L. unfold content, obj_id. cbn [put hw_objs]. destruct (nth_error (hw_objs w) p); [|reflexivity].
  apply list_at_put. exact L.
Qed.
Lemma client_put w id l p : wf w -> (id < length (hw_store w))%nat ->
  client (put w id l) p = if match lst_id w p with Some q => Nat.eqb q id | None => false end then l else client w p.
Proof.
  intros W L. unfold client, lst_id. cbn [put hw_lists]. destruct (nth_error (hw_lists w) p); [|reflexivity].
  apply list_at_put. exact L.
Qed.
Lemma obj_apart w o p id : wf w -> obj_id w o = Some id -> o <> p ->
  match obj_id w p with Some q => Nat.eqb q id | None => false end = false.
Proof.
  intros [D _] I N. destruct (obj_id w p) as [q|] eqn:P; [|reflexivity]. apply Nat.eqb_neq. intros ->.
  apply N. eapply nodup_nth; [apply nodup_l in D; exact D|exact I|exact P].
Qed.
Lemma lst_apart w o p id : wf w -> lst_id w o = Some id -> o <> p ->
  match lst_id w p with Some q => Nat.eqb q id | None => false end = false.
Proof.
  intros [D _] I N. destruct (lst_id w p) as [q|] eqn:P; [|reflexivity]. apply Nat.eqb_neq. intros ->.
  apply N. eapply nodup_nth; [apply nodup_r in D; exact D|exact I|exact P].
Qed.
Lemma obj_lst w o p id : wf w -> obj_id w o = Some id ->
  match lst_id w p with Some q => Nat.eqb q id | None => false end = false.
Proof.
  intros [D _] I. destruct (lst_id w p) as [q|] eqn:P; [|reflexivity]. apply Nat.eqb_neq. intros ->.
  eapply nodup_apart; [exact D| |]; eapply nth_error_In; eassumption.
Qed.
Lemma lst_obj w o p id : wf w -> lst_id w o = Some id ->
  match obj_id w p with Some q => Nat.eqb q id | None => false end = false.
Proof.
  intros [D _] I. destruct (obj_id w p) as [q|] eqn:P; [|reflexivity]. apply Nat.eqb_neq. intros ->.
  eapply nodup_apart; [exact D| |]; eapply nth_error_In; eassumption.
Qed.
Lemma content_new_obj w l p : wf w -> (p < length (hw_objs w))%nat -> content (new_obj w l) p = content w p.
Proof.
  intros W L. unfold content, obj_id. cbn [new_obj hw_objs]. rewrite nth_error_app1 by exact L.
  destruct (nth_error (hw_objs w) p) as [id|] eqn:E; [|reflexivity].
  apply list_at_new. eapply obj_bound; eassumption.
Qed.
Lemma content_new_list w l p : wf w -> content (new_list w l) p = content w p.
Proof.
  intros W. unfold content, obj_id. cbn [new_list hw_objs].
  destruct (nth_error (hw_objs w) p) as [id|] eqn:E; [|reflexivity].
  apply list_at_new. eapply obj_bound; eassumption.
Qed.
Lemma client_new_list w l p : wf w -> (p < length (hw_lists w))%nat -> client (new_list w l) p = client w p.
Proof.
  intros W L. unfold client, lst_id. cbn [new_list hw_lists]. rewrite nth_error_app1 by exact L.
  destruct (nth_error (hw_lists w) p) as [id|] eqn:E; [|reflexivity].
  apply list_at_new. eapply lst_bound; eassumption.
Qed.
Lemma client_new_obj w l p : wf w -> client (new_obj w l) p = client w p.
Proof.
  intros W. unfold client, lst_id. cbn [new_obj hw_lists].
  destruct (nth_error (hw_lists w) p) as [id|] eqn:E; [|reflexivity].
  apply list_at_new. eapply lst_bound; eassumption.
Qed.

Theorem independent fuel ops w o w' e :
  wrun fuel empty_world ops = Some w -> wstep fuel w o = Some (w', e) ->
  (forall p, (p < length (hw_objs w))%nat -> target_obj o <> Some p -> content w' p = content w p)
  /\ (forall p, (p < length (hw_lists w))%nat -> target_list o <> Some p -> client w' p = client w p).
Proof.
  intros R H. pose proof (wrun_wf _ _ _ _ empty_wf R) as W. clear R.
  destruct o; cbn [wstep target_obj target_list] in *.
  - inv H. split; intros p L N; [apply content_new_list|apply client_new_list]; assumption.
  - destruct (lst_id w c) as [id|] eqn:I; inv H; [|auto]. pose proof (lst_bound _ _ _ W I) as B. split; intros p L N.
    + rewrite content_put by assumption. rewrite (lst_obj w c p id W I). reflexivity.
    + rewrite client_put by assumption. rewrite (lst_apart w c p id W I) by congruence. reflexivity.
  - destruct (lst_id w c) as [id|] eqn:I; inv H; [|auto].
    split; intros p L N; [apply content_new_obj|apply client_new_obj]; assumption.
  - destruct (obj_id w o) as [id|] eqn:I; inv H; [|auto].
    split; intros p L N; [apply content_new_obj|apply client_new_obj]; assumption.
  - destruct (obj_id w o) as [id|] eqn:I; [|inv H; auto]. destruct (list_slice _ a b c); inv H; [|auto].
    split; intros p L N; [apply content_new_obj|apply client_new_obj]; assumption.
  - destruct (obj_id w o) as [id|] eqn:I; inv H; [|auto].
    split; intros p L N; [apply content_new_list|apply client_new_list]; assumption.
  - destruct (obj_id w o) as [id|] eqn:I; [|inv H; auto]. pose proof (obj_bound _ _ _ W I) as B.
    destruct (h_step _ call); inv H. split; intros p L N.
    + rewrite content_put by assumption. rewrite (obj_apart w o p id W I) by congruence. reflexivity.
    + rewrite client_put by assumption. rewrite (obj_lst w o p id W I). reflexivity.
  - destruct (obj_id w o) as [id|] eqn:I; [|inv H; auto]. pose proof (obj_bound _ _ _ W I) as B.
    destruct (h_del_slice _ a b c); inv H; [|auto]. split; intros p L N.
    + rewrite content_put by assumption. rewrite (obj_apart w o p id W I) by congruence. reflexivity.
    + rewrite client_put by assumption. rewrite (obj_lst w o p id W I). reflexivity.
  - destruct (obj_id w o) as [id|] eqn:I; [|inv H; auto]. pose proof (obj_bound _ _ _ W I) as B.
    destruct (h_set_slice _ a b c items); inv H; [|auto]. split; intros p L N.
    + rewrite content_put by assumption. rewrite (obj_apart w o p id W I) by congruence. reflexivity.
    + rewrite client_put by assumption. rewrite (obj_lst w o p id W I). reflexivity.
  - destruct (obj_id w o) as [dst|] eqn:I; [|inv H; auto]. pose proof (obj_bound _ _ _ W I) as B.
    destruct (obj_id w p) as [src|] eqn:J; [|inv H; auto].
    destruct (extend_wf _ _ _ _ _ _ _ W B H) as (_ & O & LL & P). split; intros q L N.
    + unfold content, obj_id. rewrite O. pose proof (obj_apart w o q dst W I ltac:(congruence)) as A.
      unfold obj_id in A. destruct (nth_error (hw_objs w) q) as [x|]; [|reflexivity].
      apply P. apply Nat.eqb_neq. exact A.
    + unfold client, lst_id. rewrite LL. pose proof (obj_lst w o q dst W I) as A.
      unfold lst_id in A. destruct (nth_error (hw_lists w) q) as [x|]; [|reflexivity].
      apply P. apply Nat.eqb_neq. exact A.
Qed.

(** what the operation does to its target *)
Lemma content_here w o id l : wf w -> obj_id w o = Some id -> content (put w id l) o = l.
Proof.
  intros W I. rewrite content_put by (try exact W; eapply obj_bound; eassumption).
  rewrite I, Nat.eqb_refl. reflexivity.
Qed.
Lemma content_of w o id : obj_id w o = Some id -> content w o = list_at w id.
Proof. intros I. unfold content. rewrite I. reflexivity. Qed.
Lemma obj_some w o : (o < length (hw_objs w))%nat -> exists id, obj_id w o = Some id.
Proof.
  intros L. unfold obj_id. destruct (nth_error (hw_objs w) o) eqn:E; [eexists; reflexivity|].
  apply nth_error_None in E. lia.
Qed.
Lemma lst_some w o : (o < length (hw_lists w))%nat -> exists id, lst_id w o = Some id.
Proof.
  intros L. unfold lst_id. destruct (nth_error (hw_lists w) o) eqn:E; [eexists; reflexivity|].
  apply nth_error_None in E. lia.
Qed.
Lemma new_obj_content w l : content (new_obj w l) (length (hw_objs w)) = l.
Proof.
  unfold content, obj_id. cbn [new_obj hw_objs]. rewrite nth_error_app2, Nat.sub_diag by lia.
  cbn [nth_error]. apply list_at_fresh.
Qed.
Lemma new_list_client w l : client (new_list w l) (length (hw_lists w)) = l.
Proof.
  unfold client, lst_id. cbn [new_list hw_lists]. rewrite nth_error_app2, Nat.sub_diag by lia.
  cbn [nth_error]. apply list_at_fresh.
Qed.
Lemma new_obj_count w l : length (hw_objs (new_obj w l)) = S (length (hw_objs w)).
Proof. cbn [new_obj hw_objs]. rewrite app_length. cbn. lia. Qed.
Lemma new_list_count w l : length (hw_lists (new_list w l)) = S (length (hw_lists w)).
Proof. cbn [new_list hw_lists]. rewrite app_length. cbn. lia. Qed.

Theorem copies fuel w o : (o < length (hw_objs w))%nat ->
  (exists w', wstep fuel w (WCopy o) = Some (w', None)
     /\ length (hw_objs w') = S (length (hw_objs w)) /\ content w' (length (hw_objs w)) = content w o)
  /\ (exists w', wstep fuel w (WExport o) = Some (w', None)
     /\ length (hw_lists w') = S (length (hw_lists w)) /\ client w' (length (hw_lists w)) = content w o).
Proof.
  intros L. destruct (obj_some w o L) as [id I]. cbn [wstep]. rewrite I. split; eexists; (split; [reflexivity|]);
    rewrite (content_of _ _ _ I); split.
  - apply new_obj_count.
  - apply new_obj_content.
  - apply new_list_count.
  - apply new_list_client.
Qed.
Theorem constructed fuel w c : (c < length (hw_lists w))%nat ->
  exists w', wstep fuel w (WNew c) = Some (w', None)
     /\ length (hw_objs w') = S (length (hw_objs w)) /\ content w' (length (hw_objs w)) = client w c.
Proof.
  intros L. destruct (lst_some w c L) as [id I]. cbn [wstep]. rewrite I. eexists. split; [reflexivity|].
  split; [apply new_obj_count|]. unfold client. rewrite I. apply new_obj_content.
Qed.
Theorem called fuel ops w o call : wrun fuel empty_world ops = Some w -> (o < length (hw_objs w))%nat ->
  exists w' e, wstep fuel w (WCall o call) = Some (w', e)
    /\ header_call (content w o) call (content w' o) e.
Proof.
  intros R L. pose proof (wrun_wf _ _ _ _ empty_wf R) as W. destruct (obj_some w o L) as [id I].
  cbn [wstep]. rewrite I. destruct (h_step (list_at w id) call) as [l e] eqn:S.
  exists (put w id l), e. split; [reflexivity|]. rewrite (content_here _ _ _ _ W I), (content_of _ _ _ I).
  pose proof (step_spec (list_at w id) call) as K. rewrite S in K. exact K.
Qed.
Theorem sliced fuel ops w o a b c : wrun fuel empty_world ops = Some w -> (o < length (hw_objs w))%nat ->
  let n := Z.of_nat (length (content w o)) in
  if step_of c =? 0 then wstep fuel w (WSlice o a b c) = Some (w, Some ValueError)
  else exists w' ps, wstep fuel w (WSlice o a b c) = Some (w', None)
    /\ length (hw_objs w') = S (length (hw_objs w))
    /\ in_order (step_of c) ps /\ (forall i, In i ps <-> picked n a b (step_of c) i)
    /\ elements_at (content w o) ps (content w' (length (hw_objs w))).
Proof.
  intros R L. destruct (obj_some w o L) as [id I]. cbn [wstep]. rewrite I, (content_of _ _ _ I). cbv zeta.
  destruct (list_slice (list_at w id) a b c) as [r|e] eqn:S.
  - destruct (slice_read _ _ _ _ _ S) as (N & ps & P1 & P2 & P3). replace (step_of c =? 0) with false by lia.
    exists (new_obj w ([] ++ r)), ps. split; [reflexivity|]. split; [apply new_obj_count|].
    split; [exact P1|]. split; [exact P2|]. rewrite new_obj_content. exact P3.
  - unfold list_slice in S. destruct (step_of c =? 0); [inv S; reflexivity|discriminate S].
Qed.
Theorem slice_deleted fuel ops w o a b c : wrun fuel empty_world ops = Some w -> (o < length (hw_objs w))%nat ->
  let n := Z.of_nat (length (content w o)) in
  if step_of c =? 0 then wstep fuel w (WDelSlice o a b c) = Some (w, Some ValueError)
  else exists w' ps, wstep fuel w (WDelSlice o a b c) = Some (w', None)
    /\ StronglySorted Z.lt ps /\ (forall i, In i ps <-> 0 <= i < n /\ ~ picked n a b (step_of c) i)
    /\ elements_at (content w o) ps (content w' o).
Proof.
  intros R L. pose proof (wrun_wf _ _ _ _ empty_wf R) as W. destruct (obj_some w o L) as [id I].
  cbn [wstep]. rewrite I. cbv zeta. rewrite (content_of _ _ _ I). unfold h_del_slice.
  destruct (list_del_slice (list_at w id) a b c) as [r|e] eqn:S.
  - destruct (slice_drop _ _ _ _ _ S) as (N & ps & P1 & P2 & P3). replace (step_of c =? 0) with false by lia.
    exists (put w id r), ps. split; [reflexivity|]. split; [exact P1|]. split; [exact P2|].
    rewrite (content_here _ _ _ _ W I). exact P3.
  - unfold list_del_slice in S. destruct (step_of c =? 0); [inv S; reflexivity|discriminate S].
Qed.

Lemma text_unicodify v : unicodify v = text v.
Proof. destruct v; reflexivity. Qed.
Lemma unicodified items :
  map (fun kv => (fst kv, unicodify (snd kv))) items = new_lines items.
Proof. unfold new_lines. apply map_ext. intros [k v]. cbn. rewrite text_unicodify. reflexivity. Qed.
Lemma all_valid (l : headers) : forallb (fun kv => validate_value (snd kv)) l = true <-> Forall clean_line l.
Proof.
  rewrite forallb_forall, Forall_forall. unfold clean_line. split; intros P x I; specialize (P x I);
    apply validate_spec; exact P.
Qed.
Theorem slice_set fuel ops w o a b c items : wrun fuel empty_world ops = Some w -> (o < length (hw_objs w))%nat ->
  let n := Z.of_nat (length (content w o)) in
  let new := new_lines items in
  exists w' e, wstep fuel w (WSetSlice o a b c items) = Some (w', e) /\
  match e with
  | None => Forall clean_line new /\
      if step_of c =? 1 then
        exists pre mid post, content w o = pre ++ mid ++ post /\ content w' o = pre ++ new ++ post
          /\ Z.of_nat (length pre) = Z.min n (begin_up n a)
          /\ forall i, picked n a b 1 i <-> Z.of_nat (length pre) <= i < Z.of_nat (length pre + length mid)
      else length (content w' o) = length (content w o) /\
        exists ps, in_order (step_of c) ps /\ (forall i, In i ps <-> picked n a b (step_of c) i)
          /\ elements_at (content w' o) ps new
          /\ forall i, ~ In (Z.of_nat i) ps -> nth_error (content w' o) i = nth_error (content w o) i
  | Some x => x = ValueError /\ content w' o = content w o /\
      (~ Forall clean_line new \/ step_of c = 0 \/
       (step_of c <> 1 /\ forall ps, in_order (step_of c) ps ->
          (forall i, In i ps <-> picked n a b (step_of c) i) -> length ps <> length new))
  end.
Proof.
  intros R L. pose proof (wrun_wf _ _ _ _ empty_wf R) as W. destruct (obj_some w o L) as [id I].
  cbn [wstep]. rewrite I. cbv zeta. rewrite (content_of _ _ _ I). unfold h_set_slice.
  rewrite unicodified. destruct (forallb _ (new_lines items)) eqn:V.
  - apply all_valid in V. destruct (list_set_slice (list_at w id) a b c (new_lines items)) as [r|e] eqn:S.
    + exists (put w id r), None. split; [reflexivity|]. split; [exact V|]. rewrite (content_here _ _ _ _ W I).
      destruct (step_of c =? 1) eqn:E1.
      * apply (slice_splice _ _ _ a b c); [lia|exact S].
      * apply slice_put in S; [|lia]. apply S.
    + exists w, (Some e). split; [reflexivity|]. apply slice_put_refused in S. destruct S as [-> S].
      rewrite (content_of _ _ _ I). auto.
  - exists w, (Some ValueError). split; [reflexivity|]. rewrite (content_of _ _ _ I).
    split; [reflexivity|]. split; [reflexivity|]. left. intros K. apply all_valid in K. congruence.
Qed.

(** extend *)
Lemma extend_other src dst : src <> dst -> forall f w i pre post bad, wf w -> (dst < length (hw_store w))%nat ->
  skipn i (list_at w src) = pre ++ bad ++ post -> Forall clean_line pre ->
  (bad = [] /\ post = [] \/ exists x, bad = [x] /\ ~ clean_line x) ->
  (i <= length (list_at w src) < f + i)%nat ->
  exists w', extend_live f w src dst i = Some (w', match bad with [] => None | _ => Some ValueError end)
    /\ list_at w' dst = list_at w dst ++ pre /\ hw_objs w' = hw_objs w.
Proof.
  intros N. induction f as [|f IH]; intros w i pre post bad W L E C B F.
  - lia.
  - cbn [extend_live]. destruct (nth_error (list_at w src) i) as [[k v]|] eqn:K.
    + assert (SK : skipn i (list_at w src) = (k, v) :: skipn (S i) (list_at w src)).
      { clear - K. revert K. generalize (list_at w src). induction i as [|i IH]; intros [|y l] K; try discriminate K; cbn in *.
        - injection K as ->. reflexivity.
        - apply IH. exact K. }
      rewrite SK in E. destruct pre as [|p pre].
      * destruct B as [[-> ->]|(x & -> & NC)]; [discriminate E|]. injection E as <- _.
        destruct (validate_value v) eqn:V; [exfalso; apply NC; apply validate_spec; exact V|].
        exists w. split; [reflexivity|]. rewrite app_nil_r. auto.
      * injection E as <- E. inv C. replace (validate_value v) with true by (symmetry; apply validate_spec; assumption).
        destruct (IH (put w dst (list_at w dst ++ [(k, v)])) (S i) pre post bad) as (w' & R & L' & O).
        -- apply put_wf; assumption.
        -- cbn [put hw_store]. rewrite set_nth_length; exact L.
        -- rewrite list_at_put by exact L. replace (Nat.eqb src dst) with false by (symmetry; apply Nat.eqb_neq; exact N). exact E.
        -- assumption.
        -- exact B.
        -- rewrite list_at_put by exact L. replace (Nat.eqb src dst) with false by (symmetry; apply Nat.eqb_neq; exact N).
           assert (i < length (list_at w src))%nat by (apply nth_error_Some; congruence). lia.
        -- exists w'. split; [exact R|]. rewrite L', list_at_put, Nat.eqb_refl by exact L.
           rewrite <- app_assoc. split; [reflexivity|]. rewrite O. reflexivity.
    + apply nth_error_None in K. assert (S0 : skipn i (list_at w src) = []) by (apply skipn_all2; lia).
      rewrite S0 in E. destruct B as [[-> ->]|(x & -> & _)]; [|destruct pre; discriminate E].
      destruct pre; [|discriminate E]. exists w. split; [reflexivity|]. rewrite app_nil_r. auto.
Qed.
Theorem extended fuel ops w o p pre bad post : wrun fuel empty_world ops = Some w ->
  (o < length (hw_objs w))%nat -> (p < length (hw_objs w))%nat -> o <> p ->
  content w p = pre ++ bad ++ post -> Forall clean_line pre ->
  (bad = [] /\ post = [] \/ exists x, bad = [x] /\ ~ clean_line x) ->
  (length (content w p) < fuel)%nat ->
  exists w', wstep fuel w (WExtend o p) = Some (w', match bad with [] => None | _ => Some ValueError end)
    /\ content w' o = content w o ++ pre.
Proof.
  intros R L1 L2 N E C B F. pose proof (wrun_wf _ _ _ _ empty_wf R) as W.
  destruct (obj_some w o L1) as [dst I], (obj_some w p L2) as [src J]. cbn [wstep]. rewrite I, J.
  rewrite (content_of _ _ _ J) in *. rewrite (content_of _ _ _ I).
  destruct (extend_other src dst) with (f := fuel) (w := w) (i := O) (pre := pre) (post := post) (bad := bad)
    as (w' & H & K & O); try assumption.
  - intros ->. apply N. destruct W as [D _]. eapply nodup_nth; [apply nodup_l in D; exact D|exact I|exact J].
  - eapply obj_bound; eassumption.
  - lia.
  - exists w'. split; [exact H|]. unfold content, obj_id in *. rewrite O, I. exact K.
Qed.
Lemma extend_self_loop id : forall f w i, wf w -> (id < length (hw_store w))%nat ->
  Forall clean_line (list_at w id) -> (i < length (list_at w id))%nat -> extend_live f w id id i = None.
Proof.
  induction f as [|f IH]; intros w i W L C B; [reflexivity|]. cbn [extend_live].
  destruct (nth_error (list_at w id) i) as [[k v]|] eqn:K.
  - assert (V : clean_line (k, v)) by (rewrite Forall_forall in C; apply C; eapply nth_error_In; exact K).
    replace (validate_value v) with true by (symmetry; apply validate_spec; exact V).
    apply IH.
    + apply put_wf; assumption.
    + cbn [put hw_store]. rewrite set_nth_length; exact L.
    + rewrite list_at_put, Nat.eqb_refl by exact L. apply Forall_app. auto.
    + rewrite list_at_put, Nat.eqb_refl by exact L. rewrite app_length. cbn. lia.
  - apply nth_error_None in K. lia.
Qed.
Theorem extend_self fuel ops w o : wrun fuel empty_world ops = Some w -> (o < length (hw_objs w))%nat ->
  content w o <> [] -> Forall clean_line (content w o) -> forall f, wstep f w (WExtend o o) = None.
Proof.
  intros R L N C f. pose proof (wrun_wf _ _ _ _ empty_wf R) as W. destruct (obj_some w o L) as [id I].
  cbn [wstep]. rewrite I, (content_of _ _ _ I) in *. apply extend_self_loop; try assumption.
  - eapply obj_bound; eassumption.
  - destruct (list_at w id); [congruence|cbn; lia].
Qed.

(** Histories end, but for objects extended by themselves. *)
Lemma extend_ends src dst : src <> dst -> forall f w i, wf w -> (dst < length (hw_store w))%nat ->
  (i <= length (list_at w src) < f + i)%nat -> exists r, forall f', (f <= f')%nat -> extend_live f' w src dst i = Some r.
Proof.
  intros N. induction f as [|f IH]; intros w i W L F; [lia|].
  destruct (nth_error (list_at w src) i) as [[k v]|] eqn:K.
  - destruct (validate_value v) eqn:V.
    + destruct (IH (put w dst (list_at w dst ++ [(k, v)])) (S i)) as (r & R).
      * apply put_wf; assumption.
      * cbn [put hw_store]. rewrite set_nth_length; exact L.
      * rewrite list_at_put by exact L. replace (Nat.eqb src dst) with false by (symmetry; apply Nat.eqb_neq; exact N).
        assert (i < length (list_at w src))%nat by (apply nth_error_Some; congruence). lia.
      * exists r. intros [|f'] Hf; [lia|]. cbn [extend_live]. rewrite K, V. apply R. lia.
    + exists (w, Some ValueError). intros [|f'] Hf; [lia|]. cbn [extend_live]. rewrite K, V. reflexivity.
  - exists (w, None). intros [|f'] Hf; [lia|]. cbn [extend_live]. rewrite K. reflexivity.
Qed.
Lemma wstep_ends w o : wf w -> (forall p, o <> WExtend p p) ->
  exists fuel r, forall fuel', (fuel <= fuel')%nat -> wstep fuel' w o = Some r.
Proof.
  intros W N. destruct o;
    try (exists O; cbn [wstep];
         repeat match goal with |- context [match ?x with _ => _ end] => destruct x end; eexists; reflexivity).
  cbn [wstep]. destruct (obj_id w o) as [dst|] eqn:I; [|exists O; eauto].
  destruct (obj_id w p) as [src|] eqn:J; [|exists O; eauto].
  destruct (extend_ends src dst) with (f := S (length (list_at w src))) (w := w) (i := O) as (r & R); try assumption.
  - intros ->. apply (N o). f_equal. destruct W as [D _]. eapply nodup_nth; [apply nodup_l in D; exact D|exact J|exact I].
  - eapply obj_bound; eassumption.
  - lia.
  - exists (S (length (list_at w src))), r. exact R.
Qed.
Lemma wrun_ends ops : forall w, wf w -> (forall p, ~ In (WExtend p p) ops) ->
  exists fuel w', forall fuel', (fuel <= fuel')%nat -> wrun fuel' w ops = Some w'.
Proof.
  induction ops as [|o ops IH]; intros w W N; [exists O, w; reflexivity|].
  destruct (wstep_ends w o W) as (f1 & [w1 e] & H1); [intros p ->; apply (N p); left; reflexivity|].
  destruct (IH w1) as (f2 & w2 & H2).
  - eapply wstep_wf; [exact W|apply (H1 f1); apply le_n].
  - intros p Hp. apply (N p). right. exact Hp.
  - exists (Nat.max f1 f2), w2. intros f Hf. cbn [wrun]. rewrite H1 by lia. apply H2. lia.
Qed.
Theorem history_ends ops : (forall p, ~ In (WExtend p p) ops) ->
  exists fuel w, forall fuel', (fuel <= fuel')%nat -> wrun fuel' empty_world ops = Some w.
Proof. apply wrun_ends, empty_wf. Qed.
