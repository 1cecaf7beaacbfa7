(** Proofs about classes made of mixins. *)
From Coq Require Import Arith List NArith Bool Lia.
From Verif Require Import PyStr PyStrFacts ModelMixins SpecMixins.
Import ListNotations.
Open Scope nat_scope.
Ltac inv H := inversion H; subst; clear H.

(** ** Orders *)
Lemma before_in {A} (x y : A) l : before x y l -> In x l /\ In y l.
Proof. induction 1; cbn; intuition. Qed.
Lemma before_nil {A} (x y : A) : ~ before x y [].
Proof. intros H. inv H. Qed.
Lemma before_irrefl {A} (x y : A) l : NoDup l -> before x y l -> x <> y.
Proof.
  intros D H. induction H as [l Hy|z l H IH]; inv D; [intros ->; auto|auto].
Qed.
Lemma before_asym {A} (x y : A) l : NoDup l -> before x y l -> before y x l -> False.
Proof.
  intros D H. induction H as [l Hy|z l H IH]; intros K; inv D.
  - inv K; auto. apply before_in in H0. tauto.
  - inv K; [apply before_in in H; tauto|auto].
Qed.
Lemma in_tail_spec c l : in_tail c l = true <-> exists x t, l = x :: t /\ In c t.
Proof.
  destruct l as [|x t]; cbn [in_tail].
  - split; [discriminate|intros (? & ? & H & _); discriminate].
  - rewrite existsb_exists. split.
    + intros (y & Hy & E). apply Nat.eqb_eq in E. subst. eauto.
    + intros (x' & t' & [= <- <-] & H). exists c. rewrite Nat.eqb_refl. auto.
Qed.
Lemma heads_in c ls : In c (heads ls) <-> exists t, In (c :: t) ls.
Proof.
  unfold heads. rewrite in_flat_map. split.
  - intros ([|x t] & Hl & Hc); [destruct Hc|]. destruct Hc as [->|[]]. eauto.
  - intros (t & H). exists (c :: t). split; auto. left; auto.
Qed.
Lemma heads_nil ls : heads ls = [] -> forall l, In l ls -> l = [].
Proof. intros H [|c t] Hl; auto. exfalso. assert (X : In c (heads ls)) by (apply heads_in; eauto). rewrite H in X. destruct X. Qed.
Lemma good_spec c ls : forallb (fun l => negb (in_tail c l)) ls = true <-> forall l, In l ls -> forall x t, l = x :: t -> ~ In c t.
Proof.
  rewrite forallb_forall. split; intros H l Hl.
  - intros x t -> Hc. specialize (H _ Hl). apply negb_true_iff in H. rewrite (proj2 (in_tail_spec c (x :: t))) in H; [discriminate|eauto].
  - apply negb_true_iff. destruct (in_tail c l) eqn:E; auto. exfalso. apply in_tail_spec in E as (x & t & -> & Hc). eapply H; eauto.
Qed.
Section drop.
  Variables (c : nat) (ls : list (list nat)).
  Hypothesis nodup : forall l, In l ls -> NoDup l.
  Hypothesis good : forall l, In l ls -> forall x t, l = x :: t -> ~ In c t.
  Lemma dropped l y : In l ls -> (In y (drop_head c l) <-> In y l /\ y <> c).
  Proof.
    intros Hl. destruct l as [|x t]; [cbn; tauto|]. cbn [drop_head]. destruct (Nat.eqb x c) eqn:E.
    - apply Nat.eqb_eq in E. subst x. pose proof (nodup _ Hl) as D. inv D. split; [intros H; split; [right; auto|intros ->; auto]|].
      intros [[->|H] N]; [congruence|auto].
    - apply Nat.eqb_neq in E. split; [|tauto]. intros H. split; auto. intros ->. destruct H as [->|H]; [congruence|].
      eapply good; eauto.
  Qed.
  Lemma dropped_before l x y : In l ls -> before x y l -> x <> c -> before x y (drop_head c l).
  Proof.
    intros Hl H N. destruct l as [|z t]; [apply before_nil in H; tauto|]. cbn [drop_head]. destruct (Nat.eqb z c) eqn:E; auto.
    apply Nat.eqb_eq in E. subst z. inv H; [congruence|auto].
  Qed.
  Lemma dropped_back l x y : before x y (drop_head c l) -> before x y l.
  Proof. destruct l as [|z t]; auto. cbn [drop_head]. destruct (Nat.eqb z c); auto. intros. apply bf_later. auto. Qed.
  Lemma dropped_nodup l : In l ls -> NoDup (drop_head c l).
  Proof. intros Hl. apply nodup in Hl. destruct l; auto. cbn [drop_head]. destruct (Nat.eqb n c); auto. inv Hl. auto. Qed.
End drop.
Lemma drop_total c ls : total (map (drop_head c) ls) <= total ls /\ (forall t, In (c :: t) ls -> total (map (drop_head c) ls) < total ls).
Proof.
  induction ls as [|l ls [IH1 IH2]]; cbn [map total fold_right]; [split; [lia|intros ? []]|].
  fold (total ls) (total (map (drop_head c) ls)).
  assert (X : length (drop_head c l) <= length l) by (destruct l; cbn [drop_head]; auto; destruct (Nat.eqb n c); cbn; lia).
  split; [lia|]. intros t [->|H]; [|specialize (IH2 t H); lia]. cbn [drop_head]. rewrite Nat.eqb_refl. cbn [length]. lia.
Qed.

Lemma merge_sound fuel : forall ls m, (forall l, In l ls -> NoDup l) -> merge fuel ls = Some m -> common_order m ls.
Proof.
  assert (Base : forall ls m, heads ls = [] -> m = [] -> common_order m ls).
  { intros ls m E ->. pose proof (heads_nil ls E) as N. split; [constructor|]. split.
    - intros c. split; [intros []|]. intros (l & Hl & Hc). rewrite (N l Hl) in Hc. destruct Hc.
    - intros l x y Hl H. rewrite (N l Hl) in H. apply before_nil in H. tauto. }
  induction fuel as [|fuel IH]; intros ls m D H; cbn [merge] in H.
  - destruct (heads ls) eqn:E; [|discriminate]. inv H. auto.
  - destruct (heads ls) as [|h0 hs] eqn:E; [inv H; auto|].
    destruct (find _ (h0 :: hs)) as [c|] eqn:F; [|discriminate]. apply find_some in F as [Fi Fg].
    rewrite <- E in Fi. apply heads_in in Fi as (t & Ht). pose proof (proj1 (good_spec c ls) Fg) as G. clear E h0 hs Fg.
    destruct (merge fuel (map (drop_head c) ls)) as [m'|] eqn:M; [|discriminate]. inv H.
    apply IH in M as (M1 & M2 & M3).
    2: { intros l Hl. apply in_map_iff in Hl as (l0 & <- & Hl). eapply dropped_nodup; eauto. }
    assert (In' : forall y, In y m' <-> y <> c /\ exists l, In l ls /\ In y l).
    { intros y. rewrite M2. split.
      - intros (l & Hl & Hy). apply in_map_iff in Hl as (l0 & <- & Hl). apply (dropped c ls D G) in Hy as [? ?]; auto. split; eauto.
      - intros (N & l & Hl & Hy). exists (drop_head c l). split; [apply in_map; auto|]. apply (dropped c ls D G); auto. }
    split; [|split].
    + constructor; auto. intros X. apply In' in X. tauto.
    + intros y. split.
      * intros [<-|Hy]; [exists (c :: t); split; auto; left; auto|]. apply In' in Hy. tauto.
      * intros Hy. destruct (Nat.eq_dec y c) as [->|N]; [left; auto|]. right. apply In'. auto.
    + intros l x y Hl Hb. destruct (before_in _ _ _ Hb) as [Hx Hy].
      assert (Ny : y <> c). { intros ->. inv Hb; [eapply G; eauto|]. eapply G; eauto. apply before_in in H. tauto. }
      destruct (Nat.eq_dec x c) as [->|N].
      * apply bf_here. apply In'. eauto.
      * apply bf_later. apply M3 with (l := drop_head c l); [apply in_map; auto|]. eapply dropped_before; eauto.
Qed.

Lemma remove_in (c y : nat) m : In y (remove Nat.eq_dec c m) <-> In y m /\ y <> c.
Proof. split; [apply in_remove|]. intros []. apply in_in_remove; auto. Qed.
Lemma remove_nodup (c : nat) m : NoDup m -> NoDup (remove Nat.eq_dec c m).
Proof.
  induction 1 as [|x m Hx D IH]; cbn [remove]; [constructor|]. destruct (Nat.eq_dec c x); auto. constructor; auto.
  rewrite remove_in. tauto.
Qed.
Lemma remove_before (c x y : nat) m : before x y m -> x <> c -> y <> c -> before x y (remove Nat.eq_dec c m).
Proof.
  induction 1 as [m Hy|z m H IH]; intros Nx Ny; cbn [remove].
  - destruct (Nat.eq_dec c x); [congruence|]. apply bf_here. apply remove_in. auto.
  - destruct (Nat.eq_dec c z); auto. apply bf_later. auto.
Qed.
Lemma merge_complete fuel : forall ls m, (forall l, In l ls -> NoDup l) -> common_order m ls -> total ls <= fuel -> merge fuel ls <> None.
Proof.
  assert (T : forall ls c t, In (c :: t) ls -> 0 < total ls).
  { intros ls c t H. destruct (drop_total c ls) as [_ X]. specialize (X t H). lia. }
  induction fuel as [|fuel IH]; intros ls m D (C1 & C2 & C3) F; cbn [merge]; destruct (heads ls) as [|h0 hs] eqn:E; try discriminate.
  - exfalso. assert (X : In h0 (heads ls)) by (rewrite E; left; auto). apply heads_in in X as (t & X). apply T in X. lia.
  - assert (X : In h0 (heads ls)) by (rewrite E; left; auto). apply heads_in in X as (t0 & X).
    destruct m as [|x m]. { exfalso. apply (proj2 (C2 h0)). exists (h0 :: t0). split; auto. left; auto. }
    assert (Gx : forall l, In l ls -> forall z t, l = z :: t -> ~ In x t).
    { intros l Hl z t -> Hx. pose proof (C3 _ z x Hl (bf_here z x t Hx)) as B. inv C1. inv B.
      - auto.
      - apply before_in in H0. tauto. }
    destruct (find _ (h0 :: hs)) as [c|] eqn:Fd.
    + apply find_some in Fd as [Fi Fg]. rewrite <- E in Fi. apply heads_in in Fi as (t & Ht). pose proof (proj1 (good_spec c ls) Fg) as G.
      assert (R : merge fuel (map (drop_head c) ls) <> None).
      { apply IH with (m := remove Nat.eq_dec c (x :: m)).
        - intros l Hl. apply in_map_iff in Hl as (l0 & <- & Hl). eapply dropped_nodup; eauto.
        - split; [apply remove_nodup; auto|]. split.
          + intros y. rewrite remove_in, C2. split.
            * intros ((l & Hl & Hy) & N). exists (drop_head c l). split; [apply in_map; auto|]. apply (dropped c ls D G); auto.
            * intros (l & Hl & Hy). apply in_map_iff in Hl as (l0 & <- & Hl). apply (dropped c ls D G) in Hy as [? ?]; auto. split; eauto.
          + intros l a b Hl Hb. apply in_map_iff in Hl as (l0 & <- & Hl). destruct (before_in _ _ _ Hb) as [Ha Hb'].
            apply (dropped c ls D G) in Ha as [_ Na]; auto. apply (dropped c ls D G) in Hb' as [_ Nb]; auto.
            apply remove_before; auto. eapply C3; eauto. eapply dropped_back; eauto.
        - destruct (drop_total c ls) as [_ Y]. specialize (Y t Ht). lia. }
      destruct (merge fuel _); [discriminate|congruence].
    + exfalso. assert (Hx : In x (heads ls)).
      { destruct (proj1 (C2 x)) as (l & Hl & Hx); [left; auto|]. destruct l as [|z t]; [destruct Hx|]. apply heads_in. exists t.
        destruct Hx as [->|Hx]; auto. exfalso. eapply Gx; eauto. }
      rewrite E in Hx. pose proof (find_none _ _ Fd x Hx) as N.
      cbv beta in N. rewrite (proj2 (good_spec x ls)) in N; [discriminate|exact Gx].
Qed.

(** *** Which common order it is *)
Lemma find_heads (P : nat -> bool) ls c : find P (heads ls) = Some c ->
  exists ls1 t ls2, ls = ls1 ++ (c :: t) :: ls2 /\ P c = true /\ forall x t', In (x :: t') ls1 -> P x = false.
Proof.
  induction ls as [|l ls IH]; [discriminate|]. destruct l as [|h t]; cbn [heads flat_map app].
  - intros H. destruct (IH H) as (ls1 & t & ls2 & -> & Hc & N). exists ([] :: ls1), t, ls2. split; auto. split; auto.
    intros x t' [K|K]; [discriminate|eauto].
  - cbn [find]. destruct (P h) eqn:E.
    + intros [= <-]. exists [], t, ls. repeat split; auto. intros x t' [].
    + intros H. destruct (IH H) as (ls1 & t1 & ls2 & -> & Hc & N). exists ((h :: t) :: ls1), t1, ls2. split; auto. split; auto.
      intros x t' [K|K]; [inv K; auto|eauto].
Qed.
Lemma may_first ls x : (forall l, In l ls -> NoDup l) -> (forall l, In l ls -> forall z t, l = z :: t -> ~ In x t) <-> may_come ls [] x.
Proof.
  intros D. split.
  - intros G. split; [intros []|]. intros l y Hl B. destruct l as [|z t]; [apply before_nil in B; destruct B|]. exfalso.
    apply (G _ Hl z t eq_refl). inv B; auto. apply before_in in H0. tauto.
  - intros [_ G] l Hl z t -> Hx. apply (G _ z Hl). apply bf_here. auto.
Qed.
Section pull.
  Variables (c : nat) (ls : list (list nat)).
  Hypothesis nodup : forall l, In l ls -> NoDup l.
  Hypothesis good : forall l, In l ls -> forall x t, l = x :: t -> ~ In c t.
  Lemma pull_candidate p l x : In l ls -> (candidate p (drop_head c l) x /\ x <> c) <-> candidate (c :: p) l x.
  Proof.
    intros Hl. destruct l as [|z t]; cbn [drop_head].
    - split; [intros [(a & b & H & _) _]|intros (a & b & H & _)]; destruct a; discriminate.
    - pose proof (good _ Hl z t eq_refl) as G. destruct (Nat.eqb z c) eqn:E.
      + apply Nat.eqb_eq in E. subst z. split.
        * intros [(a & b & -> & Ha & Hx) N]. exists (c :: a), b. split; auto. split; [|intros [K|K]; [congruence|auto]].
          intros y [<-|Hy]; [left; auto|right; auto].
        * intros ([|a0 a] & b & H & Ha & Hx); cbn [app] in H; injection H as -> ->; [exfalso; apply Hx; left; auto|].
          assert (N : x <> a0) by (intros ->; apply Hx; left; auto). split; auto. exists a, b. split; auto. split; [|intros K; apply Hx; right; auto].
          intros y Hy. destruct (Ha y (or_intror Hy)) as [<-|]; auto. exfalso. apply G. apply in_or_app. auto.
      + apply Nat.eqb_neq in E. split.
        * intros [(a & b & H & Ha & Hx) N]. exists a, b. split; auto. split; [intros y Hy; right; auto|intros [K|K]; [congruence|auto]].
        * intros (a & b & H & Ha & Hx). assert (N : x <> c) by (intros ->; apply Hx; left; auto). split; auto. exists a, b. split; auto.
          split; [|intros K; apply Hx; right; auto]. intros y Hy. destruct (Ha y Hy) as [<-|]; auto. exfalso.
          destruct a as [|a0 a]; [destruct Hy|]. cbn [app] in H. injection H as -> ->. destruct Hy as [->|Hy]; [congruence|].
          apply G. apply in_or_app. auto.
  Qed.
  Lemma pull_may p x : x <> c -> may_come (map (drop_head c) ls) p x <-> may_come ls (c :: p) x.
  Proof.
    intros N. split; intros [H1 H2]; split.
    - intros [K|K]; [congruence|auto].
    - intros l y Hl B. destruct (Nat.eq_dec c y) as [->|Ny]; [left; auto|]. right. apply (H2 (drop_head c l)); [apply in_map; auto|].
      apply (dropped_before c ls l y x); auto.
    - intros K. apply H1. right. auto.
    - intros l' y Hl B. apply in_map_iff in Hl as (l & <- & Hl). destruct (H2 l y Hl (dropped_back _ _ _ _ B)) as [<-|]; auto. exfalso.
      apply before_in in B as [B _]. apply (dropped c ls nodup good) in B; tauto.
  Qed.
End pull.
Lemma merge_rule fuel : forall ls m, (forall l, In l ls -> NoDup l) -> merge fuel ls = Some m ->
  forall p c q, m = p ++ c :: q -> comes_next ls p c.
Proof.
  induction fuel as [|fuel IH]; intros ls m D H p c q E; cbn [merge] in H; destruct (heads ls) as [|h0 hs] eqn:Eh; try discriminate;
    try (injection H as <-; destruct p; discriminate).
  rewrite <- Eh in H. destruct (find _ (heads ls)) as [c0|] eqn:F; [|discriminate].
  destruct (merge fuel (map (drop_head c0) ls)) as [m'|] eqn:M; [|discriminate]. cbn [option_map] in H. injection H as <-.
  apply find_heads in F as (ls1 & t & ls2 & Els & Gc & Gn). pose proof (proj1 (good_spec c0 ls) Gc) as G.
  destruct p as [|p0 p]; cbn [app] in E; injection E as E1 E2; subst.
  - exists ls1, (c :: t), ls2. split; auto. split; [exists [], t; repeat split; auto; intros y []|]. split; [apply may_first; auto|].
    intros l' x Hl (a & b & El & Ha & _) K. destruct a as [|a0 a]; [|apply (Ha a0); left; auto]. cbn [app] in El. subst l'.
    specialize (Gn x b Hl). rewrite (proj2 (good_spec x (ls1 ++ (c :: t) :: ls2))) in Gn; [discriminate|]. apply may_first; auto.
  - set (ls := ls1 ++ (p0 :: t) :: ls2) in *. clearbody ls. clear ls1 ls2 t Gn.
    assert (D' : forall l, In l (map (drop_head p0) ls) -> NoDup l).
    { intros l Hl. apply in_map_iff in Hl as (l0 & <- & Hl). eapply dropped_nodup; eauto. }
    destruct (IH _ _ D' M p c q eq_refl) as (k1 & l & k2 & Ek & C & W & Nx).
    assert (Nc : c <> p0).
    { intros ->. destruct C as (a & b & El & _).
      assert (Hl : In l (map (drop_head p0) ls)) by (rewrite Ek; apply in_or_app; right; left; auto).
      apply in_map_iff in Hl as (l0 & E0 & Hl). assert (X : In p0 (drop_head p0 l0)) by (rewrite E0, El; apply in_or_app; right; left; auto).
      apply (dropped p0 ls D G) in X; tauto. }
    apply map_eq_app in Ek as (ls1 & lr & -> & Em1 & Em2). apply map_eq_cons in Em2 as (l0 & ls2 & -> & El & _). subst k1 l.
    exists ls1, l0, ls2. split; auto. split; [|split].
    + apply (pull_candidate p0 _ G); [apply in_or_app; right; left; auto|auto].
    + apply (pull_may p0 _ D G); auto.
    + intros l' x Hl K W'. assert (Hl' : In l' (ls1 ++ l0 :: ls2)) by (apply in_or_app; auto).
      apply (pull_candidate p0 _ G) in K as [K Nxp]; auto. apply (Nx (drop_head p0 l') x); [apply in_map; auto|auto|].
      apply (pull_may p0 _ D G); auto.
Qed.

(** ** Classes *)
Lemma repeats_spec l : repeats l = false <-> NoDup l.
Proof.
  induction l as [|c t IH]; cbn [repeats]; [split; [constructor|auto]|]. rewrite orb_false_iff, IH. split.
  - intros [H D]. constructor; auto. intros Hc. assert (X : existsb (Nat.eqb c) t = true); [|congruence].
    apply existsb_exists. exists c. rewrite Nat.eqb_refl. auto.
  - intros H. inv H. split; auto. destruct (existsb (Nat.eqb c) t) eqn:E; auto. exfalso. apply existsb_exists in E as (x & Hx & E).
    apply Nat.eqb_eq in E. subst. auto.
Qed.
Definition wf_at (w : world) (c : nat) : Prop := NoDup (mro_at w c) /\ (exists t, mro_at w c = c :: t) /\ (forall x, In x (mro_at w c) -> x < length w).
Lemma mro_old w k c : c < length w -> mro_at (w ++ [k]) c = mro_at w c.
Proof. intros H. unfold mro_at. rewrite nth_error_app1; auto. Qed.
Lemma attrs_old w k c : c < length w -> attrs_at (w ++ [k]) c = attrs_at w c.
Proof. intros H. unfold attrs_at. rewrite nth_error_app1; auto. Qed.
Lemma mro_new w k : mro_at (w ++ [k]) (length w) = k_mro k.
Proof. unfold mro_at. rewrite nth_error_app2, Nat.sub_diag; auto. Qed.
Lemma attrs_new w k : attrs_at (w ++ [k]) (length w) = k_attrs k.
Proof. unfold attrs_at. rewrite nth_error_app2, Nat.sub_diag; auto. Qed.
Definition parents (bases : list nat) : list nat := match bases with [] => [0] | _ => bases end.
Definition orders (w : world) (bases : list nat) : list (list nat) := map (mro_at w) (parents bases) ++ [parents bases].
Lemma orders_nodup w bases : (forall c, c < length w -> wf_at w c) -> (forall b, In b (parents bases) -> b < length w) -> NoDup (parents bases) ->
  forall l, In l (orders w bases) -> NoDup l.
Proof.
  intros W B D l Hl. unfold orders in Hl. apply in_app_or in Hl as [Hl|[<-|[]]]; auto.
  apply in_map_iff in Hl as (b & <- & Hb). apply W; auto.
Qed.
Lemma make_spec w bases attrs : (forall c, c < length w -> wf_at w c) -> (forall b, In b (parents bases) -> b < length w) ->
  match make_class w bases attrs with
  | Ok w' => exists m, w' = w ++ [Class (parents bases) (length w :: m) attrs] /\ NoDup (parents bases) /\ common_order m (orders w bases)
  | Raise e => e = TypeError /\ (NoDup (parents bases) -> forall m, ~ common_order m (orders w bases))
  end.
Proof.
  intros W B. unfold make_class. fold (parents bases). destruct (repeats (parents bases)) eqn:R.
  - split; auto. intros D. apply repeats_spec in D. congruence.
  - apply repeats_spec in R. fold (orders w bases). pose proof (orders_nodup w bases W B R) as D.
    destruct (merge (total (orders w bases)) (orders w bases)) as [m|] eqn:M.
    + exists m. split; auto. split; auto. eapply merge_sound; eauto.
    + split; auto. intros _ m C. eapply merge_complete; eauto.
Qed.
Lemma make_wf w bases attrs w' : (forall c, c < length w -> wf_at w c) -> (forall b, In b (parents bases) -> b < length w) ->
  make_class w bases attrs = Ok w' -> forall c, c < length w' -> wf_at w' c.
Proof.
  intros W B H c Hc. pose proof (make_spec w bases attrs W B) as S. rewrite H in S. destruct S as (m & -> & D & C1 & C2 & C3).
  rewrite app_length in Hc. cbn [length] in Hc. destruct (Nat.eq_dec c (length w)) as [->|N].
  - unfold wf_at. rewrite mro_new, app_length. cbn [k_mro length].
    assert (Lt : forall x, In x m -> x < length w).
    { intros x Hx. apply C2 in Hx as (l & Hl & Hx). unfold orders in Hl. apply in_app_or in Hl as [Hl|[<-|[]]]; auto.
      apply in_map_iff in Hl as (b & <- & Hb). apply (W b); auto. }
    split; [|split; eauto].
    + constructor; auto. intros X. apply Lt in X. lia.
    + intros x [<-|Hx]; [lia|]. apply Lt in Hx. lia.
  - assert (Hc' : c < length w) by lia. destruct (W c Hc') as (W1 & W2 & W3). unfold wf_at. rewrite mro_old by auto. split; auto. split; auto.
    intros x Hx. rewrite app_length. apply W3 in Hx. lia.
Qed.
Lemma made_wf w : made w -> 0 < length w /\ forall c, c < length w -> wf_at w c.
Proof.
  induction 1 as [|w bases attrs w' M [L W] B H].
  - split; [cbn; lia|]. intros [|c] Hc; [|cbn in Hc; lia]. unfold wf_at. cbn. split; [repeat constructor; auto|]. split; eauto. intros x [<-|[]]. lia.
  - assert (B' : forall b, In b (parents bases) -> b < length w) by (intros b Hb; destruct bases; [destruct Hb as [<-|[]]; auto|auto]).
    split; [|eapply make_wf; eauto]. pose proof (make_spec w bases attrs W B') as S. rewrite H in S. destruct S as (m & -> & _).
    rewrite app_length. cbn. lia.
Qed.

Lemma class_made w bases attrs : made w -> bases <> [] -> NoDup bases -> (forall b, In b bases -> b < length w) ->
  match make_class w bases attrs with
  | Ok w' => made w' /\ length w' = S (length w) /\ (forall c, c < length w -> mro_at w' c = mro_at w c /\ attrs_at w' c = attrs_at w c) /\
      attrs_at w' (length w) = attrs /\ exists m, mro_at w' (length w) = length w :: m /\ common_order m (map (mro_at w) bases ++ [bases])
  | Raise e => e = TypeError /\ forall m, ~ common_order m (map (mro_at w) bases ++ [bases])
  end.
Proof.
  intros M N D B. destruct (made_wf w M) as [L W]. pose proof (make_spec w bases attrs W) as S. unfold orders, parents in S.
  destruct bases as [|b0 bs]; [congruence|]. specialize (S B). destruct (make_class w (b0 :: bs) attrs) as [w'|e] eqn:E.
  - destruct S as (m & -> & _ & C). split; [eapply made_class; eauto|]. split; [rewrite app_length; cbn; lia|].
    split; [intros c Hc; split; [apply mro_old|apply attrs_old]; auto|]. rewrite attrs_new, mro_new. cbn [k_attrs k_mro]. eauto.
  - destruct S as [-> S]. split; auto.
Qed.

(** *** The first base comes first *)
Lemma first_base w bases m b0 bs : made w -> bases = b0 :: bs -> (forall b, In b bases -> b < length w) ->
  common_order m (map (mro_at w) bases ++ [bases]) -> exists t, m = b0 :: t.
Proof.
  intros M -> B (C1 & C2 & C3). destruct (made_wf w M) as [_ W].
  assert (I0 : In b0 m).
  { apply C2. exists (b0 :: bs). split; [apply in_or_app; right; left; auto|left; auto]. }
  assert (F : forall y, In y m -> y = b0 \/ before b0 y m).
  { intros y Hy. apply C2 in Hy as (l & Hl & Hy).
    assert (K : forall x, In x (b0 :: bs) -> x = b0 \/ before b0 x m).
    { intros x [<-|Hx]; auto. right. apply C3 with (l := b0 :: bs); [apply in_or_app; right; left; auto|]. apply bf_here. auto. }
    apply in_app_or in Hl as [Hl|[<-|[]]]; auto. apply in_map_iff in Hl as (x & <- & Hx).
    destruct (W x (B x Hx)) as (_ & (t & E) & _). destruct (Nat.eq_dec y b0) as [->|Ny]; auto. right.
    rewrite E in Hy. assert (Bx : y = x \/ before x y m).
    { destruct Hy as [->|Hy]; auto. right. apply C3 with (l := mro_at w x); [apply in_or_app; left; apply in_map; auto|]. rewrite E. apply bf_here. auto. }
    destruct (K x Hx) as [->|Kx]; destruct Bx as [->|Bx]; auto; try congruence.
    clear -C1 Kx Bx. induction Kx as [l Hl|z l Kx IH]; inv C1.
    - inv Bx; [apply bf_here; auto|]. apply bf_here. apply before_in in H0. tauto.
    - apply bf_later. apply IH; auto. inv Bx; auto. apply before_in in Kx. tauto. }
  destruct m as [|x m]; [destruct I0|]. exists m. f_equal. destruct (Nat.eq_dec x b0) as [|Nx]; auto. exfalso.
  destruct (F x (or_introl eq_refl)) as [E|Hb]; [congruence|]. inv C1. inv Hb; [congruence|]. apply before_in in H0. tauto.
Qed.
Lemma derived_clash w bases m b0 bs x : bases = b0 :: bs -> In x bs -> In b0 (mro_at w x) -> x < length w -> NoDup bases -> made w ->
  ~ common_order m (map (mro_at w) bases ++ [bases]).
Proof.
  intros -> Hx Hb L D M (C1 & C2 & C3). destruct (made_wf w M) as [_ W]. destruct (W x L) as (_ & (t & E) & _).
  assert (N : x <> b0) by (inv D; intros ->; auto).
  assert (B1 : before b0 x m) by (apply C3 with (l := b0 :: bs); [apply in_or_app; right; left; auto|apply bf_here; auto]).
  assert (B2 : before x b0 m).
  { apply C3 with (l := mro_at w x); [apply in_or_app; left; apply in_map; right; auto|]. rewrite E in *. destruct Hb as [->|Hb]; [congruence|].
    apply bf_here. auto. }
  eapply before_asym; eauto.
Qed.
Lemma order_unique (t : list nat) : forall m, NoDup t -> NoDup m -> (forall c, In c m <-> In c t) ->
  (forall x y, before x y t -> before x y m) -> m = t.
Proof.
  induction t as [|x t IH]; intros m Dt Dm I B.
  - destruct m as [|y m]; auto. exfalso. apply (I y). left; auto.
  - inv Dt. destruct m as [|y m]; [exfalso; apply (I x); left; auto|]. inv Dm.
    assert (y = x).
    { destruct (proj1 (I y)) as [E|Hy]; [left; auto|auto|]. exfalso. pose proof (B x y (bf_here x y t Hy)) as K. inv K; auto.
      apply before_in in H0. tauto. }
    subst y. f_equal. apply IH; auto.
    + intros c. split; intros Hc.
      * destruct (proj1 (I c)) as [E|]; [right; auto| |auto]. subst. contradiction.
      * destruct (proj2 (I c)) as [E|]; [right; auto| |auto]. subst. contradiction.
    + intros a b Hb. pose proof (B a b (bf_later a b x t Hb)) as K. inv K; auto. apply before_in in Hb. tauto.
Qed.
Lemma before_app {A} (x y : A) l r : before x y (l ++ r) <-> before x y l \/ before x y r \/ (In x l /\ In y r).
Proof.
  induction l as [|z l IH]; cbn [app].
  - split; [auto|]. intros [H|[H|[[] _]]]; auto. apply before_nil in H. tauto.
  - split.
    + intros H. inv H.
      * apply in_app_or in H1 as [H|H]; [left; apply bf_here; auto|right; right; split; [left; auto|auto]].
      * apply IH in H1 as [H|[H|[H1 H2]]]; [left; apply bf_later; auto|auto|right; right; split; [right; auto|auto]].
    + intros [H|[H|[[->|H1] H2]]].
      * inv H; [apply bf_here; apply in_or_app; auto|apply bf_later; apply IH; auto].
      * apply bf_later. apply IH. auto.
      * apply bf_here. apply in_or_app. auto.
      * apply bf_later. apply IH. auto.
Qed.
Lemma plain_order w bases : bases <> [] -> NoDup bases -> (forall b, In b bases -> b <> 0 /\ mro_at w b = [b; 0]) ->
  forall m, common_order m (map (mro_at w) bases ++ [bases]) <-> m = bases ++ [0].
Proof.
  intros N D P.
  assert (T : NoDup (bases ++ [0])).
  { apply NoDup_rev in D. rewrite <- (rev_involutive (bases ++ [0])). apply NoDup_rev. rewrite rev_app_distr. cbn [rev app].
    constructor; auto. intros X. apply in_rev in X. apply P in X. tauto. }
  assert (C : common_order (bases ++ [0]) (map (mro_at w) bases ++ [bases])).
  { split; [exact T|]. split.
    - intros c. split.
      + intros H. apply in_app_or in H as [H|[<-|[]]].
        * exists bases. split; auto. apply in_or_app. right. left. auto.
        * destruct bases as [|b bs]; [congruence|]. exists (mro_at w b). split; [apply in_or_app; left; left; auto|].
          rewrite (proj2 (P b (or_introl eq_refl))). right. left. auto.
      + intros (l & Hl & Hc). apply in_app_or in Hl as [Hl|[<-|[]]]; [|apply in_or_app; auto]. apply in_map_iff in Hl as (b & <- & Hb).
        rewrite (proj2 (P b Hb)) in Hc. destruct Hc as [<-|[<-|[]]]; apply in_or_app; [left; auto|right; left; auto].
    - intros l x y Hl Hb. apply in_app_or in Hl as [Hl|[<-|[]]]; [|apply before_app; auto]. apply in_map_iff in Hl as (b & <- & Hb').
      rewrite (proj2 (P b Hb')) in Hb. inv Hb.
      + destruct H0 as [<-|[]]. apply before_app. right. right. split; [auto|left; auto].
      + inv H0; [destruct H1|]. apply before_nil in H1. tauto. }
  intros m. split; [|intros ->; exact C]. intros (C1 & C2 & C3). destruct C as (_ & K2 & _). apply order_unique; auto.
  - intros c. rewrite C2, K2. tauto.
  - intros x y H. apply before_app in H as [H|[H|[Hx [<-|[]]]]].
    + apply C3 with (l := bases); auto. apply in_or_app. right. left. auto.
    + inv H; [destruct H1|]. apply before_nil in H1. tauto.
    + apply C3 with (l := mro_at w x); [apply in_or_app; left; apply in_map; auto|]. rewrite (proj2 (P x Hx)). apply bf_here. left. auto.
Qed.

(** ** The builder *)
Lemma append_new_spec l c : append_new l c = if in_dec Nat.eq_dec c l then l else l ++ [c].
Proof.
  unfold append_new. destruct (in_dec Nat.eq_dec c l) as [H|H].
  - replace (existsb (Nat.eqb c) l) with true; auto. symmetry. apply existsb_exists. exists c. rewrite Nat.eqb_refl. auto.
  - destruct (existsb (Nat.eqb c) l) eqn:E; auto. exfalso. apply existsb_exists in E as (x & Hx & E). apply Nat.eqb_eq in E. subst. auto.
Qed.
Lemma first_only_in l c : In c (first_only l) <-> In c l.
Proof.
  induction l as [|x l IH]; cbn [first_only]; [tauto|]. cbn [In]. rewrite remove_in, IH. destruct (Nat.eq_dec x c); intuition congruence.
Qed.
Lemma first_only_nodup l : NoDup (first_only l).
Proof. induction l as [|x l IH]; cbn [first_only]; [constructor|]. constructor; [rewrite remove_in; tauto|apply remove_nodup; auto]. Qed.
Lemma remove_app_nat c (l r : list nat) : remove Nat.eq_dec c (l ++ r) = remove Nat.eq_dec c l ++ remove Nat.eq_dec c r.
Proof. induction l as [|x l IH]; cbn [app remove]; auto. destruct (Nat.eq_dec c x); auto. cbn [app]. rewrite IH. auto. Qed.
Lemma first_only_snoc l c : first_only (l ++ [c]) = if in_dec Nat.eq_dec c l then first_only l else first_only l ++ [c].
Proof.
  induction l as [|x l IH]; cbn [app first_only]; auto. rewrite IH. destruct (in_dec Nat.eq_dec c l) as [H|H].
  - destruct (in_dec Nat.eq_dec c (x :: l)) as [|K]; auto. exfalso. apply K. right. auto.
  - rewrite remove_app_nat. cbn [remove]. destruct (Nat.eq_dec x c) as [->|N].
    + destruct (in_dec Nat.eq_dec c (c :: l)) as [|K]; [rewrite app_nil_r; auto|]. exfalso. apply K. left. auto.
    + destruct (in_dec Nat.eq_dec c (x :: l)) as [[K|K]|]; [congruence|contradiction|auto].
Qed.
Lemma appended l : forall l0, fold_left append_new l (first_only l0) = first_only (l0 ++ l).
Proof.
  induction l as [|c l IH]; intros l0; cbn [fold_left]; [rewrite app_nil_r; auto|].
  replace (l0 ++ c :: l) with ((l0 ++ [c]) ++ l) by (rewrite <- app_assoc; auto). rewrite <- IH. f_equal.
  rewrite append_new_spec, first_only_snoc. destruct (in_dec Nat.eq_dec c (first_only l0)) as [H|H], (in_dec Nat.eq_dec c l0) as [K|K]; auto;
    exfalso; apply first_only_in in H + rewrite first_only_in in H; tauto.
Qed.
Lemma update_app d a b : update_dict d (a ++ b) = update_dict (update_dict d a) b.
Proof. unfold update_dict. apply fold_left_app. Qed.
Lemma run_bases base_app base_req defaults cs : let u := mrun (new_mixins base_app base_req defaults) cs in
  x_app u = first_only (base_app :: app_mixins cs) /\ x_req u = first_only (base_req :: defaults ++ req_mixins cs) /\
  x_conv u = update_dict [] (converters_given cs) /\ x_config u = update_dict [] (config_given cs).
Proof.
  unfold mrun, app_mixins, req_mixins, converters_given, config_given.
  induction cs as [|c cs IH] using rev_ind.
  - cbn [fold_left flat_map app]. rewrite app_nil_r. unfold new_mixins. cbn [x_app x_req x_conv x_config].
    split; [reflexivity|]. split; [exact (appended defaults [base_req])|]. split; reflexivity.
  - rewrite fold_left_app. cbn [fold_left]. rewrite !flat_map_app. cbn [flat_map]. rewrite !app_nil_r, !update_app.
    destruct IH as (I1 & I2 & I3 & I4). destruct c as [l|l|kw|k v]; cbn [mstep x_app x_req x_conv x_config]; rewrite ?I1, ?I2, ?I3, ?I4, ?app_nil_r; auto.
    + rewrite appended. auto.
    + rewrite appended. cbn [app]. rewrite <- app_assoc. auto.
Qed.
Lemma updated_get kw : forall d k, exists o, last_given k kw o /\ dget (update_dict d kw) k = match o with Some v => Some v | None => dget d k end.
Proof.
  induction kw as [|[k' v'] kw IH] using rev_ind; intros d k.
  - exists None. split; auto. apply lg_none. intros v [].
  - rewrite update_app. cbn [update_dict fold_left fst snd]. destruct (list_eq_dec N.eq_dec k k') as [<-|N].
    + exists (Some v'). split; [apply lg_some; intros v []|]. apply dget_dset_eq.
    + destruct (IH d k) as (o & Ho & E). exists o. split.
      * destruct Ho as [l H|l v l' H].
        -- apply lg_none. intros v Hv. apply in_app_or in Hv as [Hv|[[= X _]|[]]]; [eapply H; eauto|congruence].
        -- rewrite <- app_assoc. cbn [app]. apply lg_some. intros w Hw. apply in_app_or in Hw as [Hw|[[= X _]|[]]]; [eapply H; eauto|congruence].
      * rewrite dget_dset_neq by auto. exact E.
Qed.
Lemma last_given_fun k l : forall o, last_given k l o -> forall o', last_given k l o' -> o = o'.
Proof.
  assert (A : forall (l : list (str * nat)) v l', (forall v', ~ In (k, v') (l ++ (k, v) :: l')) -> False).
  { intros l0 v l' H. apply (H v). apply in_or_app. right. left. auto. }
  intros o H o' H'. destruct H as [l H|l v l' H]; inversion H' as [l2 H2|l2 v2 l2' H2 E]; subst; auto; try (exfalso; eauto; fail).
  f_equal. clear A H'. revert l2 E. induction l as [|a l IH]; intros [|b l2] E; cbn [app] in E; injection E as E1 E2; subst; auto.
  - exfalso. apply (H v2). apply in_or_app. right. left. auto.
  - exfalso. apply (H2 v). apply in_or_app. right. left. auto.
  - eapply IH; eauto.
Qed.

Lemma build_spec w defaults base_app base_req dm cs :
  made w -> base_app < length w -> base_req < length w -> (forall c, In c (dm ++ app_mixins cs ++ req_mixins cs) -> c < length w) ->
  let A := first_only (base_app :: app_mixins cs) in
  let R := first_only (base_req :: dm ++ req_mixins cs) in
  match build w defaults (mrun (new_mixins base_app base_req dm) cs) with
  | Ok (w', b) =>
      made w' /\ (forall c, c < length w -> mro_at w' c = mro_at w c /\ attrs_at w' c = attrs_at w c) /\
      t_app b <> t_req b /\ length w <= t_app b < length w' /\ length w <= t_req b < length w' /\
      attrs_at w' (t_app b) = [] /\ attrs_at w' (t_req b) = [] /\
      (exists m, mro_at w' (t_app b) = t_app b :: base_app :: m /\ common_order (base_app :: m) (map (mro_at w) A ++ [A])) /\
      (exists m, mro_at w' (t_req b) = t_req b :: base_req :: m /\ common_order (base_req :: m) (map (mro_at w) R ++ [R]))
  | Raise e => e = TypeError /\ ((forall m, ~ common_order m (map (mro_at w) A ++ [A])) \/ (forall m, ~ common_order m (map (mro_at w) R ++ [R])))
  end.
Proof.
  intros M La Lr L A R. destruct (run_bases base_app base_req dm cs) as (EA & ER & _). fold A in EA. fold R in ER.
  assert (IA : forall c, In c A -> c < length w).
  { intros c Hc. apply (proj1 (first_only_in _ _)) in Hc. destruct Hc as [<-|Hc]; [exact La|]. apply L. apply in_or_app. right. apply in_or_app. left. exact Hc. }
  assert (IR : forall c, In c R -> c < length w).
  { intros c Hc. apply (proj1 (first_only_in _ _)) in Hc. destruct Hc as [<-|Hc]; [exact Lr|]. apply L. apply in_app_or in Hc as [Hc|Hc]; apply in_or_app; auto. right. apply in_or_app. auto. }
  unfold build. rewrite EA, ER.
  assert (NA : A <> []) by discriminate. assert (NR : R <> []) by discriminate.
  pose proof (class_made w A [] M NA (first_only_nodup _) IA) as SA.
  destruct (make_class w A []) as [w1|e]; cbn [bind].
  2: { destruct SA as [-> SA]. split; auto. }
  destruct SA as (M1 & L1 & K1 & T1 & m1 & E1 & C1).
  assert (IR1 : forall c, In c R -> c < length w1) by (intros c Hc; apply IR in Hc; lia).
  pose proof (class_made w1 R [] M1 NR (first_only_nodup _) IR1) as SR.
  assert (Same : map (mro_at w1) R = map (mro_at w) R) by (apply map_ext_in; intros c Hc; apply K1; auto). rewrite Same in SR.
  destruct (make_class w1 R []) as [w2|e]; cbn [bind].
  2: { destruct SR as [-> SR]. split; auto. }
  destruct SR as (M2 & L2 & K2 & T2 & m2 & E2 & C2). cbn [t_app t_req].
  split; auto. split. { intros c Hc. destruct (K1 c Hc) as [<- <-]. apply K2. lia. }
  split; [lia|]. split; [lia|]. split; [lia|]. destruct (K2 (length w)) as [X1 X2]; [lia|]. rewrite X1, X2. split; auto. split; auto.
  destruct (first_base w A m1 base_app (remove Nat.eq_dec base_app (first_only (app_mixins cs))) M eq_refl IA C1) as (t1 & ->).
  destruct (first_base w R m2 base_req (remove Nat.eq_dec base_req (first_only (dm ++ req_mixins cs))) M eq_refl IR C2) as (t2 & ->).
  split; [exists t1|exists t2]; auto.
Qed.
Lemma along_spec w name : forall mro, match attr_along w mro name with
  | Some v => exists m1 c m2, mro = m1 ++ c :: m2 /\ dget (attrs_at w c) name = Some v /\ forall x, In x m1 -> dget (attrs_at w x) name = None
  | None => forall x, In x mro -> dget (attrs_at w x) name = None
  end.
Proof.
  induction mro as [|c mro IH]; cbn [attr_along]; [intros x []|]. destruct (dget (attrs_at w c) name) as [v|] eqn:E.
  - exists [], c, mro. repeat split; auto. intros x [].
  - destruct (attr_along w mro name) as [v|].
    + destruct IH as (m1 & d & m2 & -> & Hv & Hn). exists (c :: m1), d, m2. repeat split; auto. intros x [<-|Hx]; auto.
    + intros x [<-|Hx]; auto.
Qed.
Lemma derived_fails w defaults base_app base_req dm cs x :
  made w -> base_app < length w -> base_req < length w -> (forall c, In c (dm ++ app_mixins cs ++ req_mixins cs) -> c < length w) ->
  (In x (app_mixins cs) /\ x <> base_app /\ In base_app (mro_at w x)) \/ (In x (dm ++ req_mixins cs) /\ x <> base_req /\ In base_req (mro_at w x)) ->
  build w defaults (mrun (new_mixins base_app base_req dm) cs) = Raise TypeError.
Proof.
  intros M La Lr L H. pose proof (build_spec w defaults base_app base_req dm cs M La Lr L) as S. cbv zeta in S.
  destruct (build w defaults _) as [[w' b]|e]; [exfalso|destruct S as [-> _]; auto].
  destruct S as (_ & _ & _ & _ & _ & _ & _ & (ma & _ & Ca) & (mr & _ & Cr)).
  destruct H as [(Hx & N & Hb)|(Hx & N & Hb)].
  - refine (derived_clash w (first_only (base_app :: app_mixins cs)) _ base_app (remove Nat.eq_dec base_app (first_only (app_mixins cs))) x eq_refl _ Hb _ (first_only_nodup _) M Ca).
    + apply remove_in. split; [apply first_only_in; auto|auto].
    + apply L. apply in_or_app. right. apply in_or_app. auto.
  - refine (derived_clash w (first_only (base_req :: dm ++ req_mixins cs)) _ base_req (remove Nat.eq_dec base_req (first_only (dm ++ req_mixins cs))) x eq_refl _ Hb _ (first_only_nodup _) M Cr).
    + apply remove_in. split; [apply first_only_in; auto|auto].
    + apply L. apply in_app_or in Hx as [Hx|Hx]; apply in_or_app; auto. right. apply in_or_app. auto.
Qed.
Lemma plain_build w defaults base_app base_req dm cs :
  made w -> (forall c, In c (base_app :: base_req :: dm ++ app_mixins cs ++ req_mixins cs) -> c <> 0 /\ c < length w /\ mro_at w c = [c; 0]) ->
  exists w' b, build w defaults (mrun (new_mixins base_app base_req dm) cs) = Ok (w', b) /\
    mro_at w' (t_app b) = t_app b :: first_only (base_app :: app_mixins cs) ++ [0] /\
    mro_at w' (t_req b) = t_req b :: first_only (base_req :: dm ++ req_mixins cs) ++ [0].
Proof.
  intros M P.
  assert (La : base_app < length w) by (apply P; left; auto). assert (Lr : base_req < length w) by (apply P; right; left; auto).
  assert (L : forall c, In c (dm ++ app_mixins cs ++ req_mixins cs) -> c < length w) by (intros c Hc; apply P; right; right; auto).
  assert (PA : forall c, In c (first_only (base_app :: app_mixins cs)) -> c <> 0 /\ mro_at w c = [c; 0]).
  { intros c Hc. apply (proj1 (first_only_in _ _)) in Hc. destruct (P c) as (? & ? & ?); auto. destruct Hc as [<-|Hc]; [left; auto|]. right. right.
    apply in_or_app. right. apply in_or_app. auto. }
  assert (PR : forall c, In c (first_only (base_req :: dm ++ req_mixins cs)) -> c <> 0 /\ mro_at w c = [c; 0]).
  { intros c Hc. apply (proj1 (first_only_in _ _)) in Hc. destruct (P c) as (? & ? & ?); auto. destruct Hc as [<-|Hc]; [right; left; auto|]. right. right.
    apply in_app_or in Hc as [Hc|Hc]; apply in_or_app; auto. right. apply in_or_app. auto. }
  pose proof (build_spec w defaults base_app base_req dm cs M La Lr L) as S. cbv zeta in S.
  assert (NA : first_only (base_app :: app_mixins cs) <> []) by discriminate.
  assert (NR : first_only (base_req :: dm ++ req_mixins cs) <> []) by discriminate.
  pose proof (plain_order w _ NA (first_only_nodup _) PA) as OA. pose proof (plain_order w _ NR (first_only_nodup _) PR) as OR.
  destruct (build w defaults _) as [[w' b]|e].
  - destruct S as (_ & _ & _ & _ & _ & _ & _ & (ma & Ea & Ca) & (mr & Er & Cr)). exists w', b. split; auto.
    apply OA in Ca. apply OR in Cr. rewrite Ea, Er, Ca, Cr. auto.
  - exfalso. destruct S as [_ [S|S]]; eapply S; [apply OA|apply OR]; reflexivity.
Qed.
Lemma build_dicts w defaults base_app base_req dm cs w' b k oc og :
  build w defaults (mrun (new_mixins base_app base_req dm) cs) = Ok (w', b) ->
  last_given k (converters_given cs) oc -> last_given k (config_given cs) og ->
  dget (t_conv b) k = match oc with Some v => Some v | None => dget defaults k end /\ dget (t_config b) k = og.
Proof.
  intros H Hc Hg. unfold build in H. destruct (make_class w _ _) as [w1|]; [|discriminate]. cbn [bind] in H.
  destruct (make_class w1 _ _) as [w2|]; [|discriminate]. cbn [bind] in H. inv H. cbn [t_conv t_config].
  destruct (run_bases base_app base_req dm cs) as (_ & _ & -> & ->). split.
  - destruct (updated_get (converters_given cs) [] k) as (o & Ho & E). rewrite (last_given_fun _ _ _ Hc _ Ho).
    destruct (updated_get (update_dict [] (converters_given cs)) defaults k) as (o2 & Ho2 & E2). rewrite E2.
    assert (X : o2 = o); [|subst; auto].
    assert (ND : NoDup (map fst (update_dict [] (converters_given cs)))).
    { generalize (converters_given cs). intros l. induction l as [|x l IH] using rev_ind; [constructor|]. rewrite update_app. cbn. apply dset_NoDup. auto. }
    destruct Ho2 as [l Hn|l v l' Hn].
    + destruct o as [v|]; auto. exfalso. cbn in E. apply (Hn v). apply dget_In. auto.
    + destruct o as [v'|].
      * cbn in E. assert (Y : dget (l ++ (k, v) :: l') k = Some v); [|congruence]. apply In_dget; auto. apply in_or_app. right. left. auto.
      * cbn in E. exfalso. assert (Y : dget (l ++ (k, v) :: l') k = Some v); [|congruence]. apply In_dget; auto. apply in_or_app. right. left. auto.
  - destruct (updated_get (config_given cs) [] k) as (o & Ho & ->). rewrite (last_given_fun _ _ _ Hg _ Ho). destruct o; auto.
Qed.
Lemma class_rule w bases attrs w' : made w -> bases <> [] -> (forall b, In b bases -> b < length w) -> make_class w bases attrs = Ok w' ->
  forall p c q, mro_at w' (length w) = length w :: p ++ c :: q -> comes_next (map (mro_at w) bases ++ [bases]) p c.
Proof.
  intros M N B H p c q E. destruct (made_wf w M) as [_ W]. unfold make_class in H. destruct bases as [|b0 bs]; [congruence|].
  destruct (repeats (b0 :: bs)) eqn:R; [discriminate|]. apply repeats_spec in R. cbv zeta in H.
  destruct (merge _ _) as [m|] eqn:Mg; [|discriminate]. injection H as <-. rewrite mro_new in E. cbn [k_mro] in E. injection E as ->.
  eapply merge_rule; [|exact Mg|reflexivity]. exact (orders_nodup w (b0 :: bs) W B R).
Qed.
Lemma build_rule w defaults base_app base_req dm cs w' b :
  made w -> base_app < length w -> base_req < length w -> (forall c, In c (dm ++ app_mixins cs ++ req_mixins cs) -> c < length w) ->
  build w defaults (mrun (new_mixins base_app base_req dm) cs) = Ok (w', b) ->
  let A := first_only (base_app :: app_mixins cs) in
  let R := first_only (base_req :: dm ++ req_mixins cs) in
  (forall p c q, mro_at w' (t_app b) = t_app b :: p ++ c :: q -> comes_next (map (mro_at w) A ++ [A]) p c) /\
  (forall p c q, mro_at w' (t_req b) = t_req b :: p ++ c :: q -> comes_next (map (mro_at w) R ++ [R]) p c).
Proof.
  intros M La Lr L H A R. destruct (run_bases base_app base_req dm cs) as (EA & ER & _). fold A in EA. fold R in ER.
  assert (IA : forall c, In c A -> c < length w).
  { intros c Hc. apply (proj1 (first_only_in _ _)) in Hc. destruct Hc as [<-|Hc]; [exact La|]. apply L. apply in_or_app. right. apply in_or_app. left. exact Hc. }
  assert (IR : forall c, In c R -> c < length w).
  { intros c Hc. apply (proj1 (first_only_in _ _)) in Hc. destruct Hc as [<-|Hc]; [exact Lr|]. apply L. apply in_app_or in Hc as [Hc|Hc]; apply in_or_app; auto. right. apply in_or_app. auto. }
  unfold build in H. rewrite EA, ER in H.
  assert (NA : A <> []) by discriminate. assert (NR : R <> []) by discriminate.
  pose proof (class_made w A [] M NA (first_only_nodup _) IA) as SA.
  destruct (make_class w A []) as [w1|e] eqn:E1; cbn [bind] in H; [|discriminate].
  destruct SA as (M1 & L1 & K1 & _).
  assert (IR1 : forall c, In c R -> c < length w1) by (intros c Hc; apply IR in Hc; lia).
  pose proof (class_made w1 R [] M1 NR (first_only_nodup _) IR1) as SR.
  assert (Same : map (mro_at w1) R = map (mro_at w) R) by (apply map_ext_in; intros c Hc; apply K1; auto).
  destruct (make_class w1 R []) as [w2|e] eqn:E2; cbn [bind] in H; [|discriminate]. injection H as <- <-. cbn [t_app t_req].
  destruct SR as (_ & _ & K2 & _). split; intros p c q E.
  - destruct (K2 (length w)) as [X _]; [lia|]. rewrite X in E. eapply class_rule; eauto.
  - rewrite <- Same. eapply class_rule; eauto.
Qed.
