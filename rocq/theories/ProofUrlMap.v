(** Lemmas about factories, maps and adapters. *)
From Coq Require Import Arith List NArith ZArith Bool Lia ZifyBool ZifyN ZifyNat Permutation Sorted.
From Verif Require Import PyStr PyStrFacts Regex RegexFacts Utf8 Utf8Facts ModelUrls SpecUrls ProofUrls ModelRoute SpecRoute ProofRoute ModelUrlMap SpecUrlMap.
Import ListNotations.
Open Scope N_scope.
Ltac inv H := inversion H; subst; clear H.

(** ** Sorting *)
Section Sort.
  Context {A : Type} (ltb : A -> A -> bool) (id : A -> nat).
  Hypothesis lt_irrefl : forall x, ltb x x = false.
  Hypothesis lt_trans : forall x y z, ltb x y = true -> ltb y z = true -> ltb x z = true.
  Hypothesis lt_cotrans : forall x y z, ltb x z = true -> ltb x y = true \/ ltb y z = true.
  (** in order: the key first, then the number *)
  Definition ord (x y : A) : Prop := ltb x y = true \/ (ltb y x = false /\ (id x < id y)%nat).
  (** equal keys are in the order of their numbers *)
  Definition stable (x y : A) : Prop := ltb x y = false -> ltb y x = false -> (id x < id y)%nat.
  Lemma ord_trans x y z : ord x y -> ord y z -> ord x z.
  Proof.
    intros [H1|[H1 H1']] [H2|[H2 H2']].
    - left. eauto.
    - destruct (lt_cotrans _ z _ H1) as [H|H]; [left; auto|congruence].
    - destruct (lt_cotrans _ x _ H2) as [H|H]; [congruence|left; auto].
    - destruct (ltb x z) eqn:E; [left; auto|]. right. split; [|lia]. destruct (ltb z x) eqn:E2; auto.
      destruct (lt_cotrans _ y _ E2); congruence.
  Qed.
  Lemma insert_perm x l : Permutation (insert_by ltb x l) (x :: l).
  Proof.
    induction l as [|y l IH]; cbn; auto. destruct (ltb x y); auto. rewrite IH. constructor.
  Qed.
  Lemma sort_perm l : Permutation (sort_by ltb l) l.
  Proof.
    unfold sort_by. assert (G : forall acc, Permutation (fold_left (fun acc x => insert_by ltb x acc) l acc) (l ++ acc)).
    { induction l as [|x l IH]; intros acc; cbn; auto. rewrite IH, insert_perm. rewrite Permutation_middle. auto. }
    rewrite G, app_nil_r. auto.
  Qed.
  Lemma insert_sorted x l : StronglySorted ord l -> (forall y, In y l -> stable y x) -> StronglySorted ord (insert_by ltb x l).
  Proof.
    induction 1 as [|y l S IH F]; intros Hx; cbn; [repeat constructor|].
    destruct (ltb x y) eqn:E.
    - constructor; [constructor; auto|]. constructor; [left; auto|]. rewrite Forall_forall in *. intros z Hz.
      eapply ord_trans; [left; eauto|auto].
    - constructor; [apply IH; intros z Hz; apply Hx; right; auto|]. rewrite Forall_forall in *. intros z Hz.
      apply (Permutation_in _ (insert_perm x l)) in Hz as [<-|Hz]; [|auto].
      destruct (ltb y x) eqn:E2; [left; auto|]. right. split; auto. apply Hx; auto. left; auto.
  Qed.
  Lemma sort_sorted l : ForallOrdPairs stable l -> StronglySorted ord (sort_by ltb l).
  Proof.
    intros H. unfold sort_by.
    assert (G : forall acc, StronglySorted ord acc -> (forall y x, In y acc -> In x l -> stable y x) ->
              StronglySorted ord (fold_left (fun acc x => insert_by ltb x acc) l acc)).
    { induction H as [|x l F H IH]; intros acc S Hs; cbn; auto. apply IH.
      - apply insert_sorted; auto. intros y Hy. apply Hs; auto. left; auto.
      - intros y z Hy Hz. apply (Permutation_in _ (insert_perm x acc)) in Hy as [<-|Hy].
        + rewrite Forall_forall in F. auto.
        + apply Hs; auto. right; auto. }
    apply G; [constructor|intros y x []].
  Qed.
  Lemma ord_stable x y : ord x y -> stable x y.
  Proof. unfold ord, stable. intros [H|[_ H]]; [congruence|auto]. Qed.
  Lemma sorted_stable l : StronglySorted ord l -> ForallOrdPairs stable l.
  Proof.
    induction 1 as [|x l S IH F]; constructor; auto. eapply Forall_impl; [|exact F]. intros y. apply ord_stable.
  Qed.
End Sort.

(** ** The two orders *)
Lemma pair_ltb_spec a b : pair_ltb a b = true <-> (fst a < fst b)%Z \/ (fst a = fst b /\ (snd a < snd b)%Z).
Proof. unfold pair_ltb. lia. Qed.
Lemma pair_eqb_spec a b : pair_eqb a b = true <-> a = b.
Proof. destruct a, b. unfold pair_eqb. cbn. split; [intros; f_equal; lia|intros H; inv H; lia]. Qed.
Lemma weights_ltb_spec a b : weights_ltb a b = true <-> lex a b.
Proof.
  revert b. induction a as [|[x1 x2] a IH]; intros [|[y1 y2] b]; cbn [weights_ltb].
  - split; [discriminate|intros H; inv H].
  - split; [constructor|auto].
  - split; [discriminate|intros H; inv H].
  - rewrite orb_true_iff, andb_true_iff, pair_ltb_spec, pair_eqb_spec, IH. cbn [fst snd]. split.
    + intros [[H|[-> H]]|[H1 H2]]; [constructor; auto|apply lex_second; auto|inv H1; apply lex_rest; auto].
    + intros H. inv H; auto.
Qed.
Lemma lex_irrefl a : ~ lex a a.
Proof. induction a as [|[x y] a IH]; intros H; inv H; auto; lia. Qed.
Lemma lex_total a b : lex a b \/ a = b \/ lex b a.
Proof.
  revert b. induction a as [|[x1 x2] a IH]; intros [|[y1 y2] b].
  - auto.
  - left. constructor.
  - right. right. constructor.
  - destruct (Z.lt_trichotomy x1 y1) as [H|[->|H]]; [left; constructor; auto| |right; right; constructor; auto].
    destruct (Z.lt_trichotomy x2 y2) as [H|[->|H]]; [left; apply lex_second; auto| |right; right; apply lex_second; auto].
    destruct (IH b) as [H|[->|H]]; [left; apply lex_rest; auto|auto|right; right; apply lex_rest; auto].
Qed.
Lemma lex_trans a b c : lex a b -> lex b c -> lex a c.
Proof.
  intros H. revert c. induction H as [y b|x1 x2 y1 y2 a b H|x x2 y2 a b H|[x x2] a b H IH]; intros c Hc; inv Hc;
    solve [apply lex_nil | apply lex_rest; auto | apply lex_second; lia | apply lex_first; lia].
Qed.
Definition key_lt (x y : bool * Z * list (Z * Z)) : Prop :=
  let '(p, n, w) := x in let '(p', n', w') := y in
  (p = false /\ p' = true) \/ (p = p' /\ ((n < n')%Z \/ (n = n' /\ lex w w'))).
Lemma match_ltb_key x y : match_ltb x y = true <-> key_lt (match_key (b_route x)) (match_key (b_route y)).
Proof.
  unfold match_ltb, key_lt. destruct (match_key (b_route x)) as [[p n] w], (match_key (b_route y)) as [[p' n'] w'].
  rewrite orb_true_iff, !andb_true_iff, negb_true_iff, orb_true_iff, andb_true_iff, Bool.eqb_true_iff, weights_ltb_spec, Z.ltb_lt, Z.eqb_eq. tauto.
Qed.
Lemma key_irrefl x : ~ key_lt x x.
Proof. destruct x as [[p n] w]. cbn. intros [[H1 H2]|[_ [H|[_ H]]]]; [congruence|lia|]. eapply lex_irrefl; eauto. Qed.
Lemma key_trans x y z : key_lt x y -> key_lt y z -> key_lt x z.
Proof.
  destruct x as [[p n] w], y as [[p' n'] w'], z as [[p'' n''] w'']. cbn.
  intros [[-> ->]|[-> H1]] [[E1 ->]|[-> H2]]; auto; try discriminate. right. split; auto.
  destruct H1 as [H1|[-> H1]], H2 as [H2|[-> H2]]; [left; lia|left; lia|left; lia|right; split; auto; eapply lex_trans; eauto].
Qed.
Lemma key_total x y : key_lt x y \/ x = y \/ key_lt y x.
Proof.
  destruct x as [[p n] w], y as [[p' n'] w']. cbn.
  destruct p, p'; auto 6; destruct (Z.lt_trichotomy n n') as [H|[->|H]]; auto 8; destruct (lex_total w w') as [H|[->|H]]; auto 10.
Qed.
Lemma match_irrefl x : match_ltb x x = false.
Proof. destruct (match_ltb x x) eqn:E; auto. apply match_ltb_key in E. exfalso. eapply key_irrefl; eauto. Qed.
Lemma match_trans x y z : match_ltb x y = true -> match_ltb y z = true -> match_ltb x z = true.
Proof. rewrite !match_ltb_key. apply key_trans. Qed.
Lemma match_cotrans x y z : match_ltb x z = true -> match_ltb x y = true \/ match_ltb y z = true.
Proof.
  rewrite !match_ltb_key. intros H. destruct (key_total (match_key (b_route x)) (match_key (b_route y))) as [E|[E|E]]; auto.
  - rewrite <- E. auto.
  - right. eapply key_trans; eauto.
Qed.
Definition bkey_lt (x y : Z * Z * Z) : Prop :=
  let '(p, n, w) := x in let '(p', n', w') := y in
  (p < p')%Z \/ (p = p' /\ ((n < n')%Z \/ (n = n' /\ (w < w')%Z))).
Lemma build_ltb_key x y : build_ltb x y = true <-> bkey_lt (build_key (b_route x)) (build_key (b_route y)).
Proof.
  unfold build_ltb, bkey_lt. destruct (build_key (b_route x)) as [[p n] w], (build_key (b_route y)) as [[p' n'] w']. lia.
Qed.
Lemma build_irrefl x : build_ltb x x = false.
Proof. unfold build_ltb. destruct (build_key (b_route x)) as [[p n] w]. lia. Qed.
Lemma build_cotrans x y z : build_ltb x z = true -> build_ltb x y = true \/ build_ltb y z = true.
Proof.
  rewrite !build_ltb_key. unfold bkey_lt. destruct (build_key (b_route x)) as [[p n] w], (build_key (b_route y)) as [[p' n'] w'],
    (build_key (b_route z)) as [[p'' n''] w'']. lia.
Qed.
Lemma build_trans x y z : build_ltb x y = true -> build_ltb y z = true -> build_ltb x z = true.
Proof.
  rewrite !build_ltb_key. unfold bkey_lt. destruct (build_key (b_route x)) as [[p n] w], (build_key (b_route y)) as [[p' n'] w'],
    (build_key (b_route z)) as [[p'' n''] w'']. lia.
Qed.
(** in the words of the specification *)
Lemma nilb (l : list str) : negb (length l =? 0)%nat = false <-> l = [].
Proof. destruct l; cbn; split; congruence. Qed.
Lemma takes_in r k : takes r k <-> In k (arguments r).
Proof.
  unfold arguments, takes, var_names, route_vars, piece_vars. rewrite nodup_In, in_app_iff, !in_map_iff. split.
  - intros [[c H]|[v H]].
    + right. exists (k, c). split; auto. apply in_flat_map. exists (PVar k c). split; auto. left; auto.
    + left. exists (k, v). auto.
  - intros [[[k' v] [<- H]]|[[k' c] [<- H]]]; [right; eauto|left].
    apply in_flat_map in H as [[s|n c'] [H1 H2]]; [destruct H2|]. destruct H2 as [H2|[]]. inv H2. eauto.
Qed.
Lemma takes_none_iff r : takes_none r <-> arguments r = [].
Proof.
  unfold takes_none. split.
  - intros H. destruct (arguments r) as [|k l] eqn:E; auto. exfalso. apply (H k), takes_in. rewrite E. left; auto.
  - intros H k Hk. apply takes_in in Hk. rewrite H in Hk. auto.
Qed.
Lemma takes_many_iff r n : takes_many r n <-> n = length (arguments r).
Proof.
  assert (ND : NoDup (arguments r)) by apply NoDup_nodup. split.
  - intros (l & H1 & H2 & <-). apply Nat.le_antisymm; apply NoDup_incl_length; auto; intros k Hk.
    + apply takes_in, H2, Hk.
    + apply H2, takes_in, Hk.
  - intros ->. exists (arguments r). repeat split; auto; apply takes_in.
Qed.
Definition parts_of (s : str) : list str := filter (fun x => negb (is_nil x)) (split_on 47 s).
Lemma parts_of_slash s : parts_of (47 :: s) = parts_of s.
Proof. unfold parts_of. cbn. destruct (split_on 47 s); reflexivity. Qed.
Lemma split_on_free x : ~ In 47 x -> split_on 47 x = [x].
Proof.
  induction x as [|c x IH]; intros H; cbn; auto. rewrite IH by (intros G; apply H; right; auto).
  destruct (c =? 47) eqn:E; auto. exfalso. apply H. left. lia.
Qed.
Lemma split_on_next x s : ~ In 47 x -> split_on 47 (x ++ 47 :: s) = x :: split_on 47 s.
Proof.
  induction x as [|c x IH]; intros H; cbn [app split_on].
  - destruct (split_on 47 s); reflexivity.
  - rewrite IH by (intros G; apply H; right; auto). destruct (c =? 47) eqn:E; auto. exfalso. apply H. left. lia.
Qed.
Lemma parts_iff s l : parts s l <-> l = parts_of s.
Proof.
  split.
  - induction 1 as [|s l H IH|x N F|x s l N F H IH].
    + reflexivity.
    + rewrite parts_of_slash. auto.
    + unfold parts_of. rewrite split_on_free by auto. cbn. destruct x; [congruence|auto].
    + unfold parts_of. rewrite split_on_next by auto. cbn. destruct x; [congruence|]. cbn. f_equal. auto.
  - intros ->. induction s as [s IH] using (induction_ltof1 _ (@length N)); unfold ltof in IH.
    destruct s as [|c s]; [constructor|]. destruct (N.eq_dec c 47) as [->|Ec].
    + rewrite parts_of_slash. constructor. apply IH. cbn. lia.
    + assert (D : (exists x t, c :: s = x ++ 47 :: t /\ ~ In 47 x) \/ ~ In 47 (c :: s)).
      { clear. induction (c :: s) as [|d u IHu]; auto. destruct (N.eq_dec d 47) as [->|E].
        - left. exists [], u. auto.
        - destruct IHu as [(x & t & -> & H)|H]; [left; exists (d :: x), t; split; auto|right]; intros [G|G]; congruence. }
      destruct D as [(x & t & E & F)|F].
      * destruct x as [|d x]; [cbn in E; congruence|]. rewrite E. unfold parts_of. rewrite split_on_next by auto. cbn.
        apply (pa_next (d :: x) t (parts_of t)); auto; [congruence|]. apply IH. rewrite E. cbn. rewrite app_length. cbn. lia.
      * unfold parts_of. rewrite split_on_free by auto. cbn. apply pa_last; auto. congruence.
Qed.
Lemma ranks_iff l w : ranks l w <-> w = flat_map piece_weights l.
Proof.
  split.
  - induction 1 as [|s ps l w P H IH|n c l w H IH]; cbn; auto; [|congruence]. apply parts_iff in P. subst. reflexivity.
  - intros ->. induction l as [|[s|n c] l IH]; cbn [flat_map]; [constructor| |].
    + apply (ra_static s (parts_of s)); auto. apply parts_iff. auto.
    + apply ra_var. auto.
Qed.
Lemma ranked_iff r w : ranked r w <-> w = weights r.
Proof. apply ranks_iff. Qed.
Lemma before_iff r r' : before r r' <->
  (arguments r = [] /\ arguments r' <> []) \/
  ((arguments r = [] <-> arguments r' = []) /\
   (lt (length (weights r')) (length (weights r)) \/ (length (weights r) = length (weights r') /\ lex (weights r) (weights r')))).
Proof.
  pose proof (takes_none_iff r) as N1. pose proof (takes_none_iff r') as N2. split.
  - intros [H1 H2|w w' Hw Hw' H1 H2|w w' Hw Hw' H1 H2 H3]; try (apply ranked_iff in Hw, Hw'; subst); tauto.
  - intros [H|[H1 [H2|[H2 H3]]]].
    + apply be_args; tauto.
    + apply (be_parts r r' (weights r) (weights r')); try apply ranked_iff; auto; tauto.
    + apply (be_weights r r' (weights r) (weights r')); try apply ranked_iff; auto; tauto.
Qed.
Lemma same_iff r r' : same_priority r r' <-> (arguments r = [] <-> arguments r' = []) /\ weights r = weights r'.
Proof.
  unfold same_priority. rewrite (takes_none_iff r), (takes_none_iff r'). split; intros [H1 H2]; split; auto.
  - destruct H2 as (w & Hw & Hw'). apply ranked_iff in Hw, Hw'. congruence.
  - exists (weights r). rewrite !ranked_iff. auto.
Qed.
Lemma before_spec x y : match_ltb x y = true <-> before (b_route x) (b_route y).
Proof.
  rewrite match_ltb_key, before_iff. unfold match_key, key_lt. set (r := b_route x). set (r' := b_route y).
  pose proof (nilb (arguments r)) as N1. pose proof (nilb (arguments r')) as N2.
  assert (B : negb (length (arguments r) =? 0)%nat = negb (length (arguments r') =? 0)%nat <-> (arguments r = [] <-> arguments r' = [])).
  { rewrite <- N1, <- N2. destruct (negb (length (arguments r) =? 0)%nat), (negb (length (arguments r') =? 0)%nat); intuition congruence. }
  split.
  - intros [[H1 H2]|[H1 [H2|[H2 H3]]]].
    + left. split; [apply N1; auto|]. intros E. apply N2 in E. congruence.
    + right. split; [apply B; auto|left; lia].
    + right. split; [apply B; auto|right; split; [lia|auto]].
  - intros [[H1 H2]|[H1 [H2|[H2 H3]]]].
    + left. split; [apply N1; auto|]. destruct (negb (length (arguments r') =? 0)%nat) eqn:E; auto. exfalso. apply H2, N2, eq_refl.
    + right. split; [apply B; auto|left; lia].
    + right. split; [apply B; auto|right; split; [lia|auto]].
Qed.
Lemma same_spec x y : match_ltb x y = false -> match_ltb y x = false -> same_priority (b_route x) (b_route y).
Proof.
  intros H1 H2. destruct (key_total (match_key (b_route x)) (match_key (b_route y))) as [E|[E|E]];
    try (apply match_ltb_key in E; congruence).
  unfold match_key in E. apply same_iff. assert (E1 := f_equal fst E). assert (E2 := f_equal snd E). cbn [fst snd] in E1, E2.
  assert (E3 := f_equal fst E1). cbn [fst] in E3. split; auto.
  pose proof (nilb (arguments (b_route x))) as N1. pose proof (nilb (arguments (b_route y))) as N2. rewrite <- N1, <- N2, E3. tauto.
Qed.
Lemma same_key r r' : same_priority r r' -> match_key r = match_key r'.
Proof.
  intros H. apply same_iff in H as [H1 H2]. unfold match_key. rewrite H2. f_equal. f_equal.
  pose proof (nilb (arguments r)) as N1. pose proof (nilb (arguments r')) as N2.
  destruct (negb (length (arguments r) =? 0)%nat), (negb (length (arguments r') =? 0)%nat); intuition congruence.
Qed.
Lemma build_before_spec x y : build_ltb x y = true <-> build_before (b_route x) (b_route y).
Proof.
  rewrite build_ltb_key. unfold build_key, bkey_lt. set (r := b_route x). set (r' := b_route y). split.
  - intros [H|[H1 [H2|[H2 H3]]]].
    + apply bb_alias; destruct (r_alias r), (r_alias r'); auto; lia.
    + apply (bb_args r r' (length (arguments r)) (length (arguments r'))); try apply takes_many_iff; auto;
        [destruct (r_alias r), (r_alias r'); auto; lia|lia].
    + apply (bb_defaults r r' (length (arguments r))); try apply takes_many_iff; auto;
        [lia|destruct (r_alias r), (r_alias r'); auto; lia|lia].
  - intros [H1 H2|n n' M M' H1 H2|n M M' H1 H3]; try (apply takes_many_iff in M, M'; subst); rewrite H1; [rewrite H2; lia|lia|lia].
Qed.
Lemma same_build_spec x y : build_ltb x y = false -> build_ltb y x = false -> same_build_priority (b_route x) (b_route y).
Proof.
  unfold build_ltb, build_key, same_build_priority. intros H1 H2.
  assert (E : length (arguments (b_route x)) = length (arguments (b_route y))) by (destruct (r_alias (b_route x)), (r_alias (b_route y)); lia).
  split; [|split].
  - destruct (r_alias (b_route x)), (r_alias (b_route y)); auto; lia.
  - exists (length (arguments (b_route x))). rewrite !takes_many_iff. auto.
  - destruct (r_alias (b_route x)), (r_alias (b_route y)); lia.
Qed.
Lemma value_eqb_eq a b : value_eqb a b = true <-> a = b.
Proof.
  destruct a, b; cbn; try (split; [discriminate|congruence]);
    rewrite ?eqs_eq, ?Z.eqb_eq, ?N.eqb_eq; split; congruence.
Qed.
Lemma suitable_iff r values : suitable_for r values = true <-> suits r values.
Proof.
  unfold suitable_for, suits. rewrite andb_true_iff, !forallb_forall. split.
  - intros [H1 H2]. split.
    + intros k Hk. apply takes_in, H1, orb_true_iff in Hk as [Hk|Hk]; unfold dhas in Hk.
      * left. destruct (dget (r_defaults r) k) as [d|] eqn:E; [|discriminate]. exists d. apply dget_In; auto.
      * right. destruct (dget values k); [eauto|discriminate].
    + intros k d v Hd Hv. specialize (H2 _ Hd). cbn in H2. rewrite Hv in H2. symmetry. apply value_eqb_eq. auto.
  - intros [H1 H2]. split.
    + intros k Hk. apply takes_in, H1 in Hk as [[d Hd]|[v Hv]]; apply orb_true_iff; unfold dhas.
      * left. destruct (dget (r_defaults r) k) eqn:E; auto. exfalso. apply dget_none in E. apply E. apply (in_map fst) in Hd. auto.
      * right. rewrite Hv. auto.
    + intros [k d] Hd. cbn. destruct (dget values k) as [v|] eqn:E; auto. apply value_eqb_eq. symmetry. eapply H2; eauto.
Qed.
Lemma suitable_false r values : suitable_for r values = false <-> ~ suits r values.
Proof. rewrite <- suitable_iff. destruct (suitable_for r values); split; congruence. Qed.

(** ** Maps *)
Definition with_endpoint (k : str) (l : list broute) : list broute := filter (fun b => eqs (r_endpoint (b_route b)) k) l.
Record map_inv (m : url_map) : Prop := {
  mi_ids : forall b, In b (m_routes m) -> (b_id b < m_next m)%nat;
  mi_nodup : NoDup (map b_id (m_routes m));
  mi_stable : ForallOrdPairs (stable match_ltb b_id) (m_routes m);
  mi_sorted : m_remap m = false -> StronglySorted (ord match_ltb b_id) (m_routes m);
  mi_perm : forall k, Permutation (endpoint_routes m k) (with_endpoint k (m_routes m));
  mi_bstable : forall k, ForallOrdPairs (stable build_ltb b_id) (endpoint_routes m k);
  mi_bsorted : m_remap m = false -> forall k, StronglySorted (ord build_ltb b_id) (endpoint_routes m k) }.
Lemma fop_snoc {A} (R : A -> A -> Prop) l x : ForallOrdPairs R l -> (forall y, In y l -> R y x) -> ForallOrdPairs R (l ++ [x]).
Proof.
  induction 1 as [|y l F H IH]; intros Hx; cbn.
  - constructor; constructor.
  - constructor; [|apply IH; intros z Hz; apply Hx; right; auto]. apply Forall_app. split; auto. constructor; [apply Hx; left; auto|constructor].
Qed.
Lemma dget_dset {V} (d : dict V) k v k' : dget (dset d k v) k' = if eqs k' k then Some v else dget d k'.
Proof.
  induction d as [|[k0 v0] d IH]; cbn.
  - destruct (eqs k' k); auto.
  - destruct (eqs k k0) eqn:E; cbn.
    + apply eqs_eq in E as <-. destruct (eqs k' k); auto.
    + rewrite IH. destruct (eqs k' k0) eqn:E2; auto. apply eqs_eq in E2 as ->. rewrite eqs_sym in E. rewrite E. auto.
Qed.
Lemma nodup_snoc {A} (l : list A) x : NoDup l -> (forall y, In y l -> In y [x] -> False) -> NoDup (l ++ [x]).
Proof.
  intros N H. induction N as [|y l Hy N IH]; cbn; [repeat constructor; auto|]. constructor.
  - rewrite in_app_iff. intros [Hi|Hi]; [auto|]. apply (H y); [left; auto|auto].
  - apply IH. intros z Hz. apply H. right; auto.
Qed.
Lemma inv_empty g : map_inv (empty_map g).
Proof.
  constructor; cbn; intros; try constructor; try tauto; try discriminate.
Qed.
Lemma with_endpoint_app k a b : with_endpoint k (a ++ b) = with_endpoint k a ++ with_endpoint k b.
Proof. apply filter_app. Qed.
(** What adding one route does; the order of the flag is taken apart *)
Definition touched (m : url_map) : url_map := UrlMap (m_config m) (m_routes m) (m_endpoints m) true (m_next m).
Lemma add_route_inv mk m s m' : map_inv (touched m) -> add_route mk m s = Ok m' -> map_inv (touched m').
Proof.
  intros I H. unfold add_route in H. destruct (compile_route mk (m_config m) s) as [r|]; cbn [bind] in H; [|discriminate]. inv H.
  set (b := BRoute (m_next m) r (s_redirect s)).
  assert (New : forall x, In x (m_routes m) -> (b_id x < b_id b)%nat) by (intros x Hx; apply (mi_ids _ I); auto).
  assert (Ep : forall k, endpoint_routes (touched (UrlMap (m_config m) (m_routes m ++ [b])
     (dset (m_endpoints m) (r_endpoint r) (match dget (m_endpoints m) (r_endpoint r) with Some l => l | None => [] end ++ [b])) (m_remap m) (S (m_next m)))) k =
     if eqs k (r_endpoint r) then endpoint_routes (touched m) k ++ [b] else endpoint_routes (touched m) k).
  { intros k. unfold endpoint_routes. cbn [touched m_endpoints]. rewrite dget_dset. destruct (eqs k (r_endpoint r)) eqn:E; auto.
    apply eqs_eq in E as ->. auto. }
  assert (In_ep : forall k x, In x (endpoint_routes (touched m) k) -> In x (m_routes m)).
  { intros k x Hx. apply (Permutation_in _ (mi_perm _ I k)) in Hx. apply filter_In in Hx. apply Hx. }
  constructor; cbn [touched m_routes m_next m_remap] in *.
  - intros x Hx. apply in_app_iff in Hx as [Hx|[<-|[]]]; [apply New in Hx; cbn in *; lia|cbn; lia].
  - rewrite map_app. apply nodup_snoc; [apply (mi_nodup _ I)|]. intros x Hx Hi.
    cbn in Hi. destruct Hi as [<-|[]]. apply in_map_iff in Hx as (y & Ey & Hy). apply New in Hy. cbn in Hy. lia.
  - apply fop_snoc; [apply (mi_stable _ I)|]. intros y Hy _ _. auto.
  - discriminate.
  - intros k. rewrite Ep, with_endpoint_app. unfold with_endpoint at 2. cbn [filter b b_route]. rewrite (eqs_sym (r_endpoint r) k).
    pose proof (mi_perm _ I k) as P. destruct (eqs k (r_endpoint r)).
    + apply Permutation_app; [exact P|reflexivity].
    + rewrite app_nil_r. exact P.
  - intros k. rewrite Ep. pose proof (mi_bstable _ I k) as B. destruct (eqs k (r_endpoint r)); [|exact B].
    apply fop_snoc; [exact B|]. intros y Hy _ _. eauto.
  - discriminate.
Qed.
Lemma inv_touched m : map_inv m -> map_inv (touched m).
Proof. intros [I1 I2 I3 I4 I5 I6 I7]. constructor; auto; discriminate. Qed.
Lemma touched_touched m : touched (touched m) = touched m.
Proof. reflexivity. Qed.
Lemma add_list_inv mk l : forall m m' e, map_inv (touched m) -> add_list mk m l = (m', e) -> map_inv (touched m').
Proof.
  induction l as [|s l IH]; intros m m' e I H; cbn in H; [inv H; auto|].
  destruct (add_route mk m s) as [m1|] eqn:E; [|inv H; auto]. eapply IH; [|exact H]. eapply add_route_inv; eauto.
Qed.
Lemma add_factories_inv mk l : forall m m', map_inv (touched m) -> add_factories mk m l = (m', None) -> map_inv m'.
Proof.
  induction l as [|f l IH]; intros m m' I H; cbn in H; [inv H; exact I|].
  destruct (get_routes f) as [specs e]. destruct (add_list mk m specs) as [m1 [e1|]] eqn:E; [discriminate|].
  destruct e as [e|]; [discriminate|]. eapply IH; [|exact H]. eapply add_list_inv; eauto.
Qed.
Lemma dget_map {V W} (f : V -> W) (d : dict V) k : dget (map (fun kv => (fst kv, f (snd kv))) d) k = option_map f (dget d k).
Proof. induction d as [|[k' v] d IH]; cbn; auto. destruct (eqs k k'); auto. Qed.
Lemma endpoint_update m k : m_remap m = true -> endpoint_routes (update m) k = sort_by build_ltb (endpoint_routes m k).
Proof.
  intros H. unfold update. rewrite H. unfold endpoint_routes. cbn [m_endpoints]. rewrite dget_map. destruct (dget (m_endpoints m) k); auto.
Qed.
Lemma update_inv m : map_inv m -> map_inv (update m) /\ m_remap (update m) = false /\
  Permutation (m_routes (update m)) (m_routes m).
Proof.
  intros I. destruct (m_remap m) eqn:R.
  2:{ assert (update m = m) as -> by (unfold update; rewrite R; auto). auto. }
  assert (P : Permutation (m_routes (update m)) (m_routes m)) by (unfold update; rewrite R; apply sort_perm).
  assert (Rf : m_remap (update m) = false) by (unfold update; rewrite R; auto).
  assert (S : StronglySorted (ord match_ltb b_id) (m_routes (update m))).
  { unfold update. rewrite R. cbn [m_routes]. apply sort_sorted; [apply match_irrefl|apply match_trans|apply match_cotrans|apply (mi_stable _ I)]. }
  assert (B : forall k, StronglySorted (ord build_ltb b_id) (endpoint_routes (update m) k)).
  { intros k. rewrite endpoint_update by auto. apply sort_sorted; [apply build_irrefl|apply build_trans|apply build_cotrans|apply (mi_bstable _ I)]. }
  split; [|auto]. constructor.
  - intros b Hb. replace (m_next (update m)) with (m_next m) by (unfold update; rewrite R; auto).
    apply (mi_ids _ I). apply (Permutation_in _ P). auto.
  - eapply Permutation_NoDup; [|apply (mi_nodup _ I)]. apply Permutation_map. symmetry. auto.
  - eapply sorted_stable; eauto.
  - auto.
  - intros k. rewrite endpoint_update by auto. rewrite sort_perm, (mi_perm _ I k). 
    unfold with_endpoint. clear -P. induction P; cbn; auto.
    + destruct (eqs _ k); auto.
    + destruct (eqs _ k), (eqs _ k); auto; constructor.
    + etransitivity; eauto.
  - intros k. eapply sorted_stable; eauto.
  - auto.
Qed.
Lemma made_inv mk g m : made mk g m -> map_inv m.
Proof.
  induction 1 as [|m fs m' M IH H|m M IH].
  - apply inv_empty.
  - eapply add_factories_inv; [|exact H]. apply inv_touched. auto.
  - apply update_inv. auto.
Qed.

(** ** C60 *)
Lemma sorted_pairs {A} (R : A -> A -> Prop) l1 x l2 y : StronglySorted R (l1 ++ x :: l2) -> In y l2 -> R x y.
Proof.
  induction l1 as [|z l1 IH]; cbn; intros S Hy; inv S; auto. rewrite Forall_forall in *. auto.
Qed.
Lemma chosen_smallest mk g m rd path b : made mk g m -> chosen rd path (m_routes (update m)) b ->
  In b (m_routes m) /\ answers rd path b /\
  forall b', In b' (m_routes m) -> answers rd path b' -> b' = b \/ before (b_route b) (b_route b') \/
    (same_priority (b_route b) (b_route b') /\ (b_id b < b_id b')%nat).
Proof.
  intros M C. apply made_inv in M. destruct (update_inv m M) as (I & R & P). pose proof (mi_sorted _ I R) as S.
  remember (m_routes (update m)) as l eqn:El. destruct C as [l1 b l2 H1 H2].
  split; [apply (Permutation_in _ P), in_or_app; right; left; auto|]. split; [auto|]. intros b' Hi Ha.
  apply (Permutation_in _ (Permutation_sym P)) in Hi. apply in_app_iff in Hi as [Hi|[Hi|Hi]]; [exfalso; eapply H1; eauto|auto|].
  right. pose proof (sorted_pairs _ _ _ _ _ S Hi) as [O|[O1 O2]].
  - left. apply before_spec. auto.
  - destruct (match_ltb b b') eqn:E; [left; apply before_spec; auto|]. right. split; [apply same_spec; auto|auto].
Qed.
Lemma answers_dec rd path b : answers rd path b \/ ~ answers rd path b.
Proof. unfold answers. destruct (route_match rd (b_route b) path) as [[| | |]|]; try (left; discriminate). right. auto. Qed.
Lemma chosen_exists rd path l : (exists b, In b l /\ answers rd path b) -> exists b, chosen rd path l b.
Proof.
  induction l as [|x l IH]; intros (b & Hi & Ha); [destruct Hi|]. destruct (answers_dec rd path x) as [Hx|Hx].
  - exists x. apply (ch_intro rd path [] x l); auto.
  - destruct Hi as [->|Hi]; [tauto|]. destruct IH as (c & C); [eauto|]. exists c. destruct C as [l1 c l2 H1 H2].
    apply (ch_intro rd path (x :: l1) c l2); auto. intros z [<-|Hz]; auto.
Qed.
Lemma before_irrefl_same r r' : before r r' -> same_priority r r' -> False.
Proof.
  intros B S. apply same_key in S. set (x := BRoute 0 r NoRedirect). set (y := BRoute 0 r' NoRedirect).
  change (before (b_route x) (b_route y)) in B. apply before_spec, match_ltb_key in B. cbn [x y b_route] in B. rewrite S in B.
  eapply key_irrefl; eauto.
Qed.
Lemma before_asym r r' : before r r' -> before r' r -> False.
Proof.
  intros B C. set (x := BRoute 0 r NoRedirect). set (y := BRoute 0 r' NoRedirect).
  change (before (b_route x) (b_route y)) in B. change (before (b_route y) (b_route x)) in C.
  apply before_spec, match_ltb_key in B. apply before_spec, match_ltb_key in C. eapply key_irrefl, key_trans; eauto.
Qed.
Lemma order_independent mk g m1 m2 rd path b1 b2 : made mk g m1 -> made mk g m2 ->
  Permutation (map b_route (m_routes m1)) (map b_route (m_routes m2)) ->
  (forall r r', In r (map b_route (m_routes m1)) -> In r' (map b_route (m_routes m1)) -> same_priority r r' -> r = r') ->
  chosen rd path (m_routes (update m1)) b1 -> chosen rd path (m_routes (update m2)) b2 -> b_route b1 = b_route b2.
Proof.
  intros M1 M2 P D C1 C2.
  destruct (chosen_smallest _ _ _ _ _ _ M1 C1) as (I1 & A1 & L1). destruct (chosen_smallest _ _ _ _ _ _ M2 C2) as (I2 & A2 & L2).
  assert (X1 : In (b_route b1) (map b_route (m_routes m2))) by (apply (Permutation_in _ P), in_map; auto).
  assert (X2 : In (b_route b2) (map b_route (m_routes m1))) by (apply (Permutation_in _ (Permutation_sym P)), in_map; auto).
  apply in_map_iff in X1 as (c1 & E1 & J1). apply in_map_iff in X2 as (c2 & E2 & J2).
  assert (Ac1 : answers rd path c1) by (unfold answers in *; rewrite E1; auto).
  assert (Ac2 : answers rd path c2) by (unfold answers in *; rewrite E2; auto).
  assert (G : same_priority (b_route b1) (b_route b2) -> b_route b1 = b_route b2).
  { intros S. apply D; [apply in_map; auto| |auto]. rewrite <- E2. apply in_map. auto. }
  assert (sym : forall r r', same_priority r r' -> same_priority r' r) by (intros r r'; rewrite !same_iff; intros [H1 H2]; split; [tauto|auto]).
  destruct (L1 c2 J2 Ac2) as [->|[B|[S _]]]; [auto| |apply G; rewrite <- E2; auto].
  destruct (L2 c1 J1 Ac1) as [->|[B'|[S _]]]; [auto| |apply G, sym; rewrite <- E1; auto].
  rewrite E2 in B. rewrite E1 in B'. exfalso. eapply before_asym; eauto.
Qed.

(** ** Matching *)
Section Adapter.
  Variable ip_ok : str -> bool.
  Variable nfkc_ok : str -> bool.
  Notation match_routes := (match_routes ip_ok nfkc_ok).
  Notation matched := (matched ip_ok nfkc_ok).
  Notation match_path := (match_path ip_ok nfkc_ok).
  Notation match_updated := (match_updated ip_ok nfkc_ok).
  Notation alias_redirect := (alias_redirect ip_ok nfkc_ok).
  Notation build_updated := (build_updated ip_ok nfkc_ok).
  Notation build := (build ip_ok nfkc_ok).
  Notation urljoin := (urljoin ip_ok nfkc_ok).
  Definition rdefaults (a : adapter) : bool := g_redirect_defaults (m_config (a_map a)).
  Definition respond (a : adapter) (b : broute) (p q : str) : res outcome :=
    do rv <- route_match (rdefaults a) (b_route b) (full_path a p);
    match rv with
    | MNone => Ok NotFound
    | MSlash => do u <- urlquote (lit "/:|+") p; Ok (Redirect (make_redirect_url a (u ++ [47]) q None))
    | MAlias values => do u <- alias_redirect a (full_path a p) (r_endpoint (b_route b)) values q; Ok (Redirect u)
    | MValues values => matched a b values q
    end.
  Lemma chosen_cons rd path x l b : ~ answers rd path x -> chosen rd path l b -> chosen rd path (x :: l) b.
  Proof.
    intros Hx C. destruct C as [l1 b l2 H1 H2]. apply (ch_intro rd path (x :: l1) b l2); auto. intros z [<-|Hz]; auto.
  Qed.
  Lemma match_routes_cases a l p q :
    (match_routes a l p q = Ok NotFound /\ forall b, In b l -> ~ answers (rdefaults a) (full_path a p) b) \/
    exists b, chosen (rdefaults a) (full_path a p) l b /\ match_routes a l p q = respond a b p q.
  Proof.
    induction l as [|b l IH]; cbn [ModelUrlMap.match_routes].
    - left. split; [auto|intros b []].
    - destruct (answers_dec (rdefaults a) (full_path a p) b) as [A|A].
      + right. exists b. split; [apply (ch_intro _ _ [] b l); auto|]. unfold respond. fold (rdefaults a).
        unfold answers in A. destruct (route_match (rdefaults a) (b_route b) (full_path a p)) as [[| | |]|]; auto. congruence.
      + assert (route_match (rdefaults a) (b_route b) (full_path a p) = Ok MNone) as E.
        { unfold answers in A. destruct (route_match (rdefaults a) (b_route b) (full_path a p)) as [[| | |]|]; auto; exfalso; apply A; discriminate. }
        fold (rdefaults a). rewrite E. cbn [bind]. destruct IH as [[H1 H2]|(c & H1 & H2)].
        * left. split; [auto|]. intros x [<-|Hx]; auto.
        * right. exists c. split; [apply chosen_cons; auto|auto].
  Qed.
  Lemma matched_not a b values q : matched a b values q <> Ok NotFound.
  Proof.
    unfold ModelUrlMap.matched. destruct (if g_redirect_defaults (m_config (a_map a)) then default_redirect a (endpoint_routes (a_map a) (r_endpoint (b_route b))) b values q else Ok None) as [[u|]|]; cbn [bind]; try discriminate.
    destruct (b_redirect b); try discriminate.
    - destruct (fill_redirect _ _ _ _) as [t|]; cbn [bind]; [|discriminate]. destruct (urljoin _ _); cbn [bind]; discriminate.
    - destruct (f values) as [t|]; cbn [bind]; [|discriminate]. destruct (urljoin _ _); cbn [bind]; discriminate.
  Qed.
  Lemma respond_not a b p q : answers (rdefaults a) (full_path a p) b -> respond a b p q <> Ok NotFound.
  Proof.
    unfold respond, answers. destruct (route_match _ _ _) as [[| |v|v]|]; cbn [bind]; try discriminate; intros H.
    - congruence.
    - destruct (urlquote _ _); cbn [bind]; discriminate.
    - destruct (alias_redirect _ _ _ _ _); cbn [bind]; discriminate.
    - apply matched_not.
  Qed.
  Lemma matched_found a b values q b' values' : matched a b values q = Ok (Found b' values') ->
    b' = b /\ values' = values /\ b_redirect b = NoRedirect.
  Proof.
    unfold ModelUrlMap.matched. destruct (if g_redirect_defaults (m_config (a_map a)) then default_redirect a (endpoint_routes (a_map a) (r_endpoint (b_route b))) b values q else Ok None) as [[u|]|]; cbn [bind]; try discriminate.
    destruct (b_redirect b); try discriminate.
    - intros H. inv H. auto.
    - destruct (fill_redirect _ _ _ _) as [t|]; cbn [bind]; [|discriminate]. destruct (urljoin _ _); cbn [bind]; discriminate.
    - destruct (f values) as [t|]; cbn [bind]; [|discriminate]. destruct (urljoin _ _); cbn [bind]; discriminate.
  Qed.
  Lemma update_config m : m_config (update m) = m_config m.
  Proof. unfold update. destruct (m_remap m); auto. Qed.
  Lemma update_adapter_path a p : full_path (update_adapter a) p = full_path a p.
  Proof. unfold full_path, host_matching, update_adapter. cbn [a_map a_server a_subdomain]. rewrite update_config. auto. Qed.
  Lemma update_adapter_rd a : rdefaults (update_adapter a) = rdefaults a.
  Proof. unfold rdefaults, update_adapter. cbn [a_map]. rewrite update_config. auto. Qed.

  Lemma not_found mk g a p q : made mk g (a_map a) ->
    snd (match_path a p q) = Ok NotFound <->
    forall b, In b (m_routes (a_map a)) -> route_match (rdefaults a) (b_route b) (full_path a p) = Ok MNone.
  Proof.
    intros M. apply made_inv in M. destruct (update_inv _ M) as (_ & _ & P).
    unfold ModelUrlMap.match_path, ModelUrlMap.match_updated. cbn [snd]. set (a' := update_adapter a).
    rewrite <- (update_adapter_path a p), <- (update_adapter_rd a). fold a'.
    assert (L : forall b, In b (m_routes (a_map a')) <-> In b (m_routes (a_map a))).
    { intros b. unfold a', update_adapter. cbn [a_map]. split; apply Permutation_in; [auto|symmetry; auto]. }
    assert (N : forall b, ~ answers (rdefaults a') (full_path a' p) b <-> route_match (rdefaults a') (b_route b) (full_path a' p) = Ok MNone).
    { intros b. unfold answers. destruct (route_match _ _ _) as [[| | |]|]; split; intros H; try congruence; try tauto; exfalso; apply H; discriminate. }
    destruct (match_routes_cases a' (m_routes (a_map a')) p q) as [[H1 H2]|(b & C & E)].
    - rewrite H1. split; [|auto]. intros _ b Hb. apply N. apply H2. apply L. auto.
    - destruct C as [l1 b l2 C1 C2]. rewrite E. split.
      + intros H. exfalso. revert H. apply respond_not. auto.
      + intros H. exfalso. revert C2. apply N. apply H. apply L. apply in_or_app. right. left. auto.
  Qed.
  Lemma found a p q b values : snd (match_path a p q) = Ok (Found b values) ->
    chosen (rdefaults a) (full_path a p) (m_routes (update (a_map a))) b /\
    route_match (rdefaults a) (b_route b) (full_path a p) = Ok (MValues values) /\ b_redirect b = NoRedirect.
  Proof.
    unfold ModelUrlMap.match_path, ModelUrlMap.match_updated. cbn [snd]. set (a' := update_adapter a).
    rewrite <- (update_adapter_path a p), <- (update_adapter_rd a). fold a'.
    change (m_routes (update (a_map a))) with (m_routes (a_map a')).
    destruct (match_routes_cases a' (m_routes (a_map a')) p q) as [[H1 H2]|(c & C & E)]; [congruence|].
    rewrite E. unfold respond. intros H. destruct (route_match (rdefaults a') (b_route c) (full_path a' p)) as [[| |v|v]|] eqn:Er; cbn [bind] in H; try discriminate.
    - destruct (urlquote _ _); cbn [bind] in H; discriminate.
    - destruct (alias_redirect _ _ _ _ _); cbn [bind] in H; discriminate.
    - apply matched_found in H as (-> & -> & Hr). auto.
  Qed.
  Lemma chosen_in rd path l b : chosen rd path l b -> In b l /\ answers rd path b.
  Proof. intros [l1 b' l2 _ A]. split; auto. apply in_or_app. right; left; auto. Qed.

  (** ** Building *)
  Lemma first_build_cases l values au :
    (first_build l values au = Raise BuildError /\ forall b, In b l -> refused values au b) \/
    exists l1 b l2, l = l1 ++ b :: l2 /\ (forall x, In x l1 -> refused values au x) /\
      suits (b_route b) values /\
      ((exists r, route_build (b_route b) values au = Ok (Some r) /\ first_build l values au = Ok r) \/
       (exists e, route_build (b_route b) values au = Raise e /\ first_build l values au = Raise e)).
  Proof.
    induction l as [|b l IH]; cbn [first_build].
    - left. split; [auto|intros b []].
    - assert (Skip : refused values au b -> first_build (b :: l) values au = first_build l values au ->
        (first_build (b :: l) values au = Raise BuildError /\ forall x, In x (b :: l) -> refused values au x) \/
        exists l1 x l2, b :: l = l1 ++ x :: l2 /\ (forall y, In y l1 -> refused values au y) /\
          suits (b_route x) values /\
          ((exists r, route_build (b_route x) values au = Ok (Some r) /\ first_build (b :: l) values au = Ok r) \/
           (exists e, route_build (b_route x) values au = Raise e /\ first_build (b :: l) values au = Raise e))).
      { intros Hr ->. destruct IH as [[H1 H2]|(l1 & x & l2 & -> & H1 & H2 & H3)].
        - left. split; [auto|]. intros x [<-|Hx]; auto.
        - right. exists (b :: l1), x, l2. split; [auto|]. split; [intros y [<-|Hy]; auto|]. auto. }
      cbn [first_build] in Skip. unfold refused in *. destruct (suitable_for (b_route b) values) eqn:Es; [apply suitable_iff in Es|apply suitable_false in Es; apply Skip; auto].
      destruct (route_build (b_route b) values au) as [[r|]|e] eqn:Er; cbn [bind] in *; [|apply Skip; auto|].
      + right. exists [], b, l. split; [auto|]. split; [intros x []|]. split; [auto|]. left. eauto.
      + right. exists [], b, l. split; [auto|]. split; [intros x []|]. split; [auto|]. right. eauto.
  Qed.
End Adapter.

(** ** Where the routes of a map come from *)
Lemma add_list_routes mk l : forall m m', add_list mk m l = (m', None) ->
  m_config m' = m_config m /\ exists new, m_routes m' = m_routes m ++ new /\ Forall2 (compiled mk (m_config m)) l new.
Proof.
  induction l as [|s l IH]; intros m m' H; cbn in H; [inv H; split; [auto|]; exists []; rewrite app_nil_r; auto|].
  destruct (add_route mk m s) as [m1|] eqn:E; [|discriminate]. unfold add_route in E.
  destruct (compile_route mk (m_config m) s) as [r|] eqn:Ec; cbn [bind] in E; [|discriminate]. inv E.
  apply IH in H as (Hc & new & Hn & F). cbn [m_config m_routes] in *. split; [auto|].
  exists (BRoute (m_next m) r (s_redirect s) :: new). rewrite Hn, <- app_assoc. split; [auto|]. constructor; [split; auto|auto].
Qed.
Lemma add_factories_routes mk l : forall m m', add_factories mk m l = (m', None) ->
  m_config m' = m_config m /\
  exists specs new, yields l specs /\ m_routes m' = m_routes m ++ new /\ Forall2 (compiled mk (m_config m)) specs new.
Proof.
  induction l as [|f l IH]; intros m m' H; cbn in H.
  - inv H. split; [auto|]. exists [], []. cbn. rewrite app_nil_r. repeat constructor.
  - destruct (get_routes f) as [specs e] eqn:Eg. destruct (add_list mk m specs) as [m1 [e1|]] eqn:E; [discriminate|].
    destruct e as [e|]; [discriminate|]. apply add_list_routes in E as (Hc1 & new1 & Hn1 & F1). apply IH in H as (Hc2 & sp & new2 & Y & Hn2 & F2).
    split; [congruence|]. exists (specs ++ sp), (new1 ++ new2). split; [constructor; auto|].
    split; [rewrite Hn2, Hn1, app_assoc; auto|]. apply Forall2_app; auto. rewrite <- Hc1. auto.
Qed.

(** ** C63 *)
Lemma all_eq f : get_routes f = match f with
  | FRoute s => ([s], None)
  | FSubdomain x l => gen_map (fun s => do s' <- empty_route s; Ok (set_subdomain x s')) (fold_right (fun f g => gen_app (get_routes f) g) ([], None) l)
  | FSubmount p l => gen_map (fun s => do s' <- empty_route s; Ok (set_string (rstrip_by is_slash p ++ s_string s') s')) (fold_right (fun f g => gen_app (get_routes f) g) ([], None) l)
  | FEndpointPrefix p l => gen_map (fun s => do s' <- empty_route s; Ok (set_endpoint (p ++ s_endpoint s') s')) (fold_right (fun f g => gen_app (get_routes f) g) ([], None) l)
  | FTemplate fmt l => gen_map (fill_template fmt) (fold_right (fun f g => gen_app (get_routes f) g) ([], None) l)
  end.
Proof. destruct f; reflexivity. Qed.
Lemma gen_all_yields l specs : fold_right (fun f g => gen_app (get_routes f) g) ([], None) l = (specs, None) <-> yields l specs.
Proof.
  revert specs. induction l as [|f l IH]; intros specs; cbn [fold_right].
  - split; [intros H; inv H; constructor|intros Y; inv Y; auto].
  - destruct (get_routes f) as [s1 [e|]] eqn:E; cbn [gen_app].
    + split; [discriminate|]. intros Y. inv Y. congruence.
    + destruct (fold_right _ _ l) as [s2 e2] eqn:E2. split.
      * intros H. inv H. constructor; [auto|]. apply IH. auto.
      * intros Y. inversion Y as [|f' l' t1 t2 H1 H2]; subst. apply IH in H2. inv H2. congruence.
Qed.
Lemma gen_map_ok f l r : gen_map_list f l None = (r, None) <-> Forall2 (fun s s' => f s = Ok s') l r.
Proof.
  revert r. induction l as [|s l IH]; intros r; cbn.
  - split; [intros H; inv H; constructor|intros F; inv F; auto].
  - destruct (f s) as [s'|e] eqn:E.
    + destruct (gen_map_list f l None) as [r1 e1] eqn:E1. split.
      * intros H. inv H. constructor; [auto|]. apply IH. auto.
      * intros F. inversion F as [|x y xs ys H1 H2]; subst. apply IH in H2. inv H2. congruence.
    + split; [discriminate|]. intros F. inv F. congruence.
Qed.
Lemma gen_map_exn f l x e r : gen_map_list f l (Some x) = (r, e) -> e <> None.
Proof.
  revert r e. induction l as [|s l IH]; intros r e H; cbn in H; [inv H; discriminate|].
  destruct (f s); [|inv H; discriminate]. destruct (gen_map_list f l (Some x)) as [r1 e1] eqn:E. inv H. eapply IH; eauto.
Qed.
Lemma gen_map_yields f l r : gen_map f (fold_right (fun f g => gen_app (get_routes f) g) ([], None) l) = (r, None) <->
  exists specs, yields l specs /\ Forall2 (fun s s' => f s = Ok s') specs r.
Proof.
  unfold gen_map. destruct (fold_right _ _ l) as [specs e] eqn:E. cbn [fst snd]. split.
  - destruct e as [e|]; [intros H; apply gen_map_exn in H; congruence|]. intros H. exists specs. split; [apply gen_all_yields; auto|apply gen_map_ok; auto].
  - intros (sp & Y & F). apply gen_all_yields in Y. rewrite Y in E. inv E. apply gen_map_ok. auto.
Qed.
Lemma ends_slash s : ends [47] s = true <-> exists u, s = u ++ [47].
Proof.
  unfold ends. cbn [rev app]. split.
  - destruct (rev s) as [|c r] eqn:E; cbn [starts]; [discriminate|]. intros H. exists (rev r).
    assert (c = 47) as -> by (apply andb_true_iff in H as [H _]; apply N.eqb_eq in H; auto). rewrite <- (rev_involutive s), E. auto.
  - intros (u & ->). rewrite rev_unit. reflexivity.
Qed.
Lemma new_route_ok string d sub bo e st rt al h s : new_route string d sub bo e st rt al h = Ok s <->
  (exists r, string = 47 :: r) /\ s = Spec string (negb (ends [47] string)) d sub bo e st rt al h.
Proof.
  unfold new_route. destruct string as [|c r]; cbn [starts].
  - split; [discriminate|]. intros [[r E] _]. discriminate.
  - destruct (47 =? c) eqn:E; cbn [andb].
    + apply N.eqb_eq in E as <-. split; [intros H; inv H; eauto|]. intros [_ ->]. auto.
    + split; [discriminate|]. intros [[r' E'] _]. inv E'. discriminate.
Qed.
Lemma leaf_bool s : leaf_ok s <-> s_leaf s = negb (ends [47] (s_string s)).
Proof.
  unfold leaf_ok. rewrite <- ends_slash. destruct (ends [47] (s_string s)), (s_leaf s); cbn; intuition congruence.
Qed.
Definition releaf (s : spec) : spec :=
  Spec (s_string s) (negb (ends [47] (s_string s))) (s_defaults s) (s_subdomain s) (s_build_only s) (s_endpoint s) (s_strict s) (s_redirect s) (s_alias s) (s_host s).
Lemma empty_route_ok s t : empty_route s = Ok t <-> (exists u, s_string s = 47 :: u) /\ t = releaf s.
Proof. unfold empty_route. apply new_route_ok. Qed.
Lemma empty_then (f : spec -> spec) s t : (do s' <- empty_route s; Ok (f s')) = Ok t <-> (exists u, s_string s = 47 :: u) /\ t = f (releaf s).
Proof.
  destruct (empty_route s) as [s'|e] eqn:E; cbn [bind].
  - apply empty_route_ok in E as [Hs ->]. split; [intros H; inv H; auto|intros [_ ->]; auto].
  - split; [discriminate|]. intros [Hs _]. assert (X : empty_route s = Ok (releaf s)) by (apply empty_route_ok; auto). congruence.
Qed.
Lemma ends_app u v : v <> [] -> ends [47] (u ++ v) = ends [47] v.
Proof.
  intros Hv. unfold ends. rewrite rev_app_distr. cbn [rev app]. destruct (rev v) as [|c r] eqn:E; [|reflexivity].
  exfalso. apply Hv. rewrite <- (rev_involutive v), E. auto.
Qed.
Lemma forall2_impl {A B} (P Q : A -> B -> Prop) : (forall a b, P a b -> Q a b) -> forall l r, Forall2 P l r -> Forall2 Q l r.
Proof. intros H l r F. induction F; constructor; auto. Qed.
Lemma subdomain_routes x l r : get_routes (FSubdomain x l) = (r, None) <-> exists specs, yields l specs /\
  Forall2 (fun s s' => (exists u, s_string s = 47 :: u) /\ same_but_subdomain s s' /\ s_subdomain s' = Some x /\ leaf_ok s') specs r.
Proof.
  rewrite all_eq, gen_map_yields. split; intros (specs & Y & F); exists specs; (split; [auto|]); revert F; apply forall2_impl;
    intros s s'; rewrite (empty_then (set_subdomain x)).
  - intros [Hs ->]. split; [auto|]. split; [repeat split|]. split; [auto|]. apply leaf_bool. reflexivity.
  - intros (Hs & (H1 & H2 & H3 & H4 & H5 & H6 & H7 & H8) & Hx & L). split; [auto|]. apply leaf_bool in L. destruct s, s'; cbn in *. subst. reflexivity.
Qed.
Lemma submount_routes p l r : get_routes (FSubmount p l) = (r, None) <-> exists specs, yields l specs /\
  Forall2 (fun s s' => (exists u, s_string s = 47 :: u) /\ same_but_string s s' /\ s_string s' = rstrip_by is_slash p ++ s_string s /\ leaf_ok s') specs r.
Proof.
  rewrite all_eq, gen_map_yields. split; intros (specs & Y & F); exists specs; (split; [auto|]); revert F; apply forall2_impl;
    intros s s'; rewrite (empty_then (fun s' => set_string (rstrip_by is_slash p ++ s_string s') s')).
  - intros [Hs ->]. split; [auto|]. split; [repeat split|]. split; [auto|]. apply leaf_bool. cbn [s_leaf s_string set_string releaf]. rewrite ends_app; [auto|]. destruct Hs as [u ->]. discriminate.
  - intros (Hs & (H1 & H2 & H3 & H4 & H5 & H6 & H7 & H8) & Hx & L). split; [auto|]. apply leaf_bool in L. rewrite Hx, ends_app in L by (destruct Hs as [u ->]; discriminate).
    destruct s, s'; cbn in *. subst. reflexivity.
Qed.
Lemma prefix_routes p l r : get_routes (FEndpointPrefix p l) = (r, None) <-> exists specs, yields l specs /\
  Forall2 (fun s s' => (exists u, s_string s = 47 :: u) /\ same_but_endpoint s s' /\ s_endpoint s' = p ++ s_endpoint s /\ leaf_ok s') specs r.
Proof.
  rewrite all_eq, gen_map_yields. split; intros (specs & Y & F); exists specs; (split; [auto|]); revert F; apply forall2_impl;
    intros s s'; rewrite (empty_then (fun s' => set_endpoint (p ++ s_endpoint s') s')).
  - intros [Hs ->]. split; [auto|]. split; [repeat split|]. split; [auto|]. apply leaf_bool. reflexivity.
  - intros (Hs & (H1 & H2 & H3 & H4 & H5 & H6 & H7 & H8) & Hx & L). split; [auto|]. apply leaf_bool in L. destruct s, s'; cbn in *. subst. reflexivity.
Qed.
Lemma formatted_spec fmt d d' : format_defaults fmt d = Ok d' <-> formatted fmt d d'.
Proof.
  revert d'. induction d as [|[k v] d IH]; intros d'; cbn [format_defaults].
  - split; [intros H; inv H; constructor|intros F; inv F; auto].
  - assert (O : (forall s, v <> VStr s) -> (do r <- format_defaults fmt d; Ok ((k, v) :: r)) = Ok d' <-> formatted fmt ((k, v) :: d) d').
    { intros Hv. destruct (format_defaults fmt d) as [r|e] eqn:E; cbn [bind].
      - split; [intros H; inv H; apply fo_other; [auto|]; apply IH; auto|]. intros F. inversion F as [|? ? ? ? ? Hs| ? ? ? ? Hn F']; subst; [exfalso; eapply Hv; eauto|]. apply IH in F'. inv F'. auto.
      - split; [discriminate|]. intros F. inversion F as [|? ? ? ? ? Hs| ? ? ? ? Hn F']; subst; [exfalso; eapply Hv; eauto|]. apply IH in F'. discriminate. }
    destruct v; try (apply O; intros ?; discriminate). destruct (fmt s) as [s'|] eqn:Es; cbn [bind].
    + destruct (format_defaults fmt d) as [r|e] eqn:E; cbn [bind].
      * split; [intros H; inv H; apply fo_str; [auto|]; apply IH; auto|]. intros F. inversion F as [|? ? ? ? ? Hs F'| ? ? ? ? Hn F']; subst; [|exfalso; eapply Hn; eauto]. apply IH in F'. inv F'. rewrite Es in Hs. inv Hs. auto.
      * split; [discriminate|]. intros F. inversion F as [|? ? ? ? ? Hs F'| ? ? ? ? Hn F']; subst; [|exfalso; eapply Hn; eauto]. apply IH in F'. discriminate.
    + split; [discriminate|]. intros F. inversion F as [|? ? ? ? ? Hs F'| ? ? ? ? Hn F']; subst; [congruence|exfalso; eapply Hn; eauto].
Qed.
Lemma template_routes fmt l r : get_routes (FTemplate fmt l) = (r, None) <-> exists specs, yields l specs /\ Forall2 (template_of fmt) specs r.
Proof.
  rewrite all_eq, gen_map_yields. split; intros (specs & Y & F); exists specs; (split; [auto|]); revert F; apply forall2_impl;
    intros s s'; unfold fill_template, template_of.
  - destruct (format_defaults fmt (s_defaults s)) as [d|] eqn:Ed; cbn [bind]; [|discriminate]. apply formatted_spec in Ed.
    destruct (s_subdomain s) as [x|]; [destruct (fmt x) as [x'|] eqn:Ex|]; cbn [bind]; try discriminate;
    (destruct (fmt (s_endpoint s)) as [e|]; cbn [bind]; [|discriminate]); (destruct (fmt (s_string s)) as [st|]; cbn [bind]; [|discriminate]);
    intros H; apply new_route_ok in H as [Hs ->]; cbn; (split; [eauto|]); (split; [eauto|]); (split; [eauto|]); (split; [eauto|]); (split; [eauto|]);
    repeat (split; [reflexivity|]); (split; [apply leaf_bool; reflexivity|]); auto.
  - intros (Hst & He & Hsub & Hd & Hs & Hb & Hstr & L & Hr & Ha & Hh). apply formatted_spec in Hd. rewrite Hd. cbn [bind].
    apply leaf_bool in L. destruct (s_subdomain s) as [x|].
    + destruct Hsub as (x' & Hx & Hs'). rewrite Hx. cbn [bind]. rewrite He, Hst. cbn [bind]. apply new_route_ok. split; [auto|].
      destruct s'; cbn in *. subst. reflexivity.
    + cbn [bind]. rewrite He, Hst. cbn [bind]. apply new_route_ok. split; [auto|]. destruct s'; cbn in *. subst. reflexivity.
Qed.

(** ** Addresses *)
Lemma slash_char c : is_slash c = true <-> c = 47.
Proof. unfold is_slash. apply N.eqb_eq. Qed.
Lemma slashes_forall s : slashes s <-> forallb is_slash s = true.
Proof. unfold slashes. rewrite forallb_forall. split; intros H c Hc; specialize (H c Hc); apply slash_char; auto. Qed.
Lemma relative_lstrip p : relative p (lstrip_slash p).
Proof.
  unfold lstrip_slash. destruct (lstrip_by_spec is_slash p) as (s & E & H1 & H2). exists s. split; [auto|]. split; [apply slashes_forall; auto|].
  intros u Hu. specialize (H2 47 u Hu). discriminate.
Qed.
Lemma relative_unique p rel : relative p rel -> lstrip_slash p = rel.
Proof.
  intros (s & -> & H1 & H2). unfold lstrip_slash. rewrite lstrip_by_app by (apply slashes_forall; auto). apply lstrip_by_id.
  intros c r ->. destruct (is_slash c) eqn:E; auto. apply slash_char in E as ->. exfalso. eapply H2; eauto.
Qed.
Lemma strip_root script root : root_of script root ->
  root = 47 :: (if is_nil (strip_by is_slash script) then [] else strip_by is_slash script ++ [47]).
Proof.
  intros [s H|s1 name s2 H1 H2 N1 N2 N3].
  - apply slashes_forall in H. assert (strip_by is_slash s = []) as ->; [|auto]. unfold strip_by. rewrite <- (app_nil_r s), lstrip_by_app by auto. auto.
  - apply slashes_forall in H1. apply slashes_forall in H2.
    assert (strip_by is_slash (s1 ++ name ++ s2) = name) as ->.
    { unfold strip_by. rewrite lstrip_by_app by auto. rewrite lstrip_by_id.
      - rewrite rstrip_by_app by auto. apply rstrip_by_id. intros c r ->. destruct (is_slash c) eqn:E; auto. apply slash_char in E as ->. exfalso. eapply N3; eauto.
      - intros c r E. destruct name as [|d name]; [congruence|]. inv E. destruct (is_slash c) eqn:E; auto. apply slash_char in E as ->. exfalso. eapply N2; eauto. }
    destruct name; [congruence|auto].
Qed.
Lemma root_head script root : root_of script root -> forall x, strip_by is_slash script = x -> forall u, x <> 47 :: u.
Proof.
  intros R x E u Hu. subst x. unfold strip_by in Hu. destruct (rstrip_by_spec is_slash (lstrip_by is_slash script)) as (w & Ew & _ & _).
  rewrite Hu in Ew. cbn [app] in Ew. destruct (lstrip_by_spec is_slash script) as (_ & _ & _ & H). specialize (H _ _ Ew). discriminate.
Qed.
Lemma strip_end s u : strip_by is_slash s <> u ++ [47].
Proof.
  intros H. unfold strip_by in H. destruct (rstrip_by_spec is_slash (lstrip_by is_slash s)) as (_ & _ & _ & R). specialize (R _ _ H). discriminate.
Qed.
Lemma starts_slash s : starts [47] s = true <-> exists u, s = 47 :: u.
Proof.
  destruct s as [|c s]; cbn [starts]; [split; [discriminate|intros (u & H); discriminate]|]. rewrite andb_true_r, N.eqb_eq. split.
  - intros <-. eauto.
  - intros (u & H). inv H. auto.
Qed.
Lemma join_root script root x : root_of script root -> (forall u, x <> 47 :: u) ->
  exists y, posix_join (strip_by is_slash script) x = y /\ (forall u, y <> 47 :: u) /\ root ++ x = 47 :: y /\ (y = [] -> root = [47] /\ x = []).
Proof.
  intros R Hx. eexists. split; [reflexivity|]. pose proof (strip_root _ _ R) as E. pose proof (root_head _ _ R _ eq_refl) as H.
  pose proof (strip_end script) as H2. set (m := strip_by is_slash script) in *. unfold posix_join.
  destruct (starts [47] x) eqn:Ex; [apply starts_slash in Ex as (u & Ex); exfalso; eapply Hx; eauto|].
  destruct m as [|c m0] eqn:Em; cbn [is_nil orb] in *.
  - subst root. cbn. auto.
  - destruct (ends [47] (c :: m0)) eqn:Ee; [apply ends_slash in Ee as (u & Ee); exfalso; eapply H2; eauto|].
    subst root. split; [intros u Hu; inv Hu; eapply H; eauto|]. split; [cbn; rewrite <- app_assoc; auto|discriminate].
Qed.
Lemma unparse_host scheme host path q : scheme <> [] -> host <> [] ->
  urlunparse (Parsed scheme host path [] q []) =
  scheme ++ lit "://" ++ host ++ (if is_nil path then [] else if starts [47] path then path else 47 :: path) ++ query_suffix q.
Proof.
  intros Hs Hh. unfold urlunparse, urlunsplit. cbn [p_params p_path p_scheme p_netloc p_query p_fragment is_nil u_path u_netloc u_scheme u_query u_fragment].
  destruct host as [|h host]; [congruence|]. destruct scheme as [|s scheme]; [congruence|]. cbn [is_nil negb orb].
  assert (prefix_if q [63] = query_suffix q) as -> by (destruct q; reflexivity). change (prefix_if [] [35]) with (@nil N). rewrite app_nil_r.
  rewrite <- app_assoc. cbn [app]. change (lit "://") with [58; 47; 47]. cbn [app]. rewrite <- app_assoc.
  destruct path as [|c path]; cbn [is_nil negb andb]; [reflexivity|]. destruct (starts [47] (c :: path)); cbn [negb]; auto.
Qed.
Lemma get_host_some a d : target_host a d (get_host a (Some d)).
Proof.
  unfold get_host, host_matching. destruct (g_host_matching (m_config (a_map a))) eqn:E; [constructor; auto|]. destruct d; [constructor; auto|].
  apply th_sub; [auto|discriminate].
Qed.
Lemma target_unique a d h : target_host a d h -> h = get_host a (Some d).
Proof. intros [d' E|E|d' E H]; unfold get_host, host_matching; rewrite E; auto. destruct d'; [congruence|]; auto. Qed.
Lemma get_host_none a : own_host a (get_host a None).
Proof.
  unfold get_host, host_matching. destruct (g_host_matching (m_config (a_map a))) eqn:E; [apply own_matching; auto|].
  destruct (a_subdomain a) as [[|c s]|] eqn:Es; [eapply own_sub; eauto; constructor; auto|eapply own_sub; eauto; apply th_sub; [auto|discriminate]|apply own_none; auto].
Qed.
Lemma own_unique a h : own_host a h -> h = get_host a None.
Proof.
  intros [E|E1 E2|d h' E1 E2 T]; unfold get_host, host_matching; rewrite ?E, ?E1, ?E2; auto. apply target_unique in T.
  unfold get_host, host_matching in T. rewrite E1 in T. auto.
Qed.
Lemma redirect_url a p q d root rel : a_scheme a <> [] -> get_host a d <> [] -> root_of (a_script a) root -> relative p rel ->
  make_redirect_url a p q d = a_scheme a ++ lit "://" ++ get_host a d ++ (if is_nil rel && (length root <=? 1)%nat then [] else root ++ rel) ++ query_suffix q.
Proof.
  intros Hs Hh R P. unfold make_redirect_url. rewrite (relative_unique _ _ P). rewrite unparse_host by auto.
  destruct P as (_ & _ & _ & Hrel). destruct (join_root _ _ _ R Hrel) as (y & -> & Hy & E & N). f_equal. f_equal. f_equal. f_equal.
  destruct y as [|c y]; cbn [is_nil].
  - destruct (N eq_refl) as [-> ->]. reflexivity.
  - destruct (starts [47] (c :: y)) eqn:Ey; [apply starts_slash in Ey as (u & Ey); exfalso; eapply Hy; eauto|].
    rewrite E. destruct (is_nil rel && (length root <=? 1)%nat) eqn:B; [|auto]. apply andb_true_iff in B as [B1 B2].
    destruct rel; [|discriminate]. apply Nat.leb_le in B2. rewrite app_nil_r in E. rewrite E in B2. cbn in B2. lia.
Qed.
Lemma quote_cons safe c s q : urlquote safe (c :: s) = Ok q -> exists q', urlquote safe s = Ok q' /\ q = quote_bytes safe (utf8_char c) ++ q'.
Proof.
  unfold urlquote, utf8_encode. cbn [forallb flat_map]. destruct (scalar c); cbn [andb]; [|discriminate]. destruct (forallb scalar s); cbn [bind]; [|discriminate].
  intros H. inv H. eexists. split; [reflexivity|]. unfold quote_bytes. rewrite flat_map_app. auto.
Qed.
Lemma quote_head safe c q : c <> 47 -> exists d t, quote_bytes safe (utf8_char c) ++ q = d :: t /\ d <> 47.
Proof.
  intros Hc. assert (exists x l, utf8_char c = x :: l /\ x <> 47) as (x & l & -> & Hx).
  { unfold utf8_char. destruct (c <? 128); [eauto|]. destruct (c <? 2048); [|destruct (c <? 65536)]; do 2 eexists; (split; [reflexivity|lia]). }
  unfold quote_bytes. cbn [flat_map]. unfold quote_byte at 1. destruct (quote_safe safe x); cbn [app].
  - do 2 eexists. split; [reflexivity|auto].
  - unfold pct. do 2 eexists. split; [reflexivity|discriminate].
Qed.
Lemma quote_slash safe : mem 47 safe = true -> quote_bytes safe (utf8_char 47) = [47].
Proof. intros H. cbn. unfold quote_byte, quote_safe. rewrite H. rewrite ?orb_true_r. cbn. reflexivity. Qed.
Lemma quote_relative p u : urlquote (lit "/:|+") p = Ok u ->
  exists r, urlquote (lit "/:|+") (lstrip_slash p) = Ok r /\ relative u r.
Proof.
  revert u. induction p as [|c p IH]; intros u H.
  - exists u. split; [auto|]. unfold urlquote, utf8_encode in H. cbn in H. inv H. exists []. split; [auto|]. split; [intros c []|discriminate].
  - destruct (quote_cons _ _ _ _ H) as (q' & Hq & ->). unfold lstrip_slash. cbn [lstrip_by]. destruct (is_slash c) eqn:E.
    + apply slash_char in E as ->. destruct (IH _ Hq) as (r & Hr & s & -> & S & N). exists r. split; [auto|].
      rewrite quote_slash by reflexivity. exists (47 :: s). split; [auto|]. split; [intros x [<-|Hx]; auto|auto].
    + exists (quote_bytes (lit "/:|+") (utf8_char c) ++ q'). split; [auto|]. exists []. split; [auto|]. split; [intros x []|].
      assert (c <> 47) by (intros ->; discriminate). destruct (quote_head (lit "/:|+") c q') as (d & t & -> & Hd); [auto|]. intros v Hv. inv Hv. auto.
Qed.
Lemma relative_snoc p rel : relative p rel -> rel <> [] -> relative (p ++ [47]) (rel ++ [47]).
Proof.
  intros (s & -> & S & N) Hr. exists s. rewrite app_assoc. split; [auto|]. split; [auto|]. destruct rel as [|c rel]; [congruence|].
  intros u Hu. inv Hu. eapply N; eauto.
Qed.
Lemma full_path_slash a p : lstrip_slash p <> [] -> full_path a (p ++ [47]) = full_path a p ++ [47].
Proof.
  intros H. unfold full_path. rewrite (relative_unique (p ++ [47]) (lstrip_slash p ++ [47])).
  - rewrite <- !app_assoc. auto.
  - apply relative_snoc; [apply relative_lstrip|auto].
Qed.
Lemma slash_path rd r a p : plain_route r -> (forall u, full_path a p <> u ++ [10]) ->
  route_match rd r (full_path a p) = Ok MSlash -> lstrip_slash p <> [].
Proof.
  intros P Hn H E. destruct (slash_redirect _ _ _ P Hn H) as (ts & I1 & I2 & _).
  inversion I2 as [x H1 H2 RT|s x H1 H2 H3 RT]; subst.
  inversion I1 as [x' H1' H2' RT'|s' x' H1' H2' H3' RT']; subst.
  - destruct H1; congruence.
  - apply (H3' _ RT' (firstn (length (full_path a p) - 1) (full_path a p))). unfold full_path. rewrite E, app_nil_r.
    rewrite app_length. cbn [length]. change (lit "|/") with ([124] ++ [47]). rewrite app_assoc, firstn_app.
    replace (_ + _ - 1 - _)%nat with 0%nat by (rewrite !app_length; cbn; lia). rewrite firstn_all2 by (rewrite !app_length; cbn; lia).
    cbn [firstn]. rewrite app_nil_r. auto.
Qed.

Section Adapter2.
  Variable ip_ok : str -> bool.
  Variable nfkc_ok : str -> bool.
  Notation match_path := (match_path ip_ok nfkc_ok).
  Lemma update_get_host a d : get_host (update_adapter a) d = get_host a d.
  Proof. unfold get_host, host_matching, update_adapter. cbn [a_map a_server a_subdomain]. rewrite update_config. auto. Qed.
  Lemma update_redirect_url a p q d : make_redirect_url (update_adapter a) p q d = make_redirect_url a p q d.
  Proof. unfold make_redirect_url. rewrite update_get_host. auto. Qed.
  Lemma chosen_unique rd path l x y : chosen rd path l x -> chosen rd path l y -> y = x.
  Proof.
    intros C. destruct C as [l1 x l2 H1 H2]. intros C. remember (l1 ++ x :: l2) as l eqn:El. destruct C as [l3 y l4 H3 H4]. revert l3 El H1 H3. induction l1 as [|z l1 IH]; intros l3 El H1 H3.
    - destruct l3 as [|w l3]; inv El; [auto|]. exfalso. eapply H3; [left; reflexivity|auto].
    - destruct l3 as [|w l3]; inv El; [exfalso; eapply H1; [left; reflexivity|auto]|]. apply (IH l3); auto; intros; [apply H1|apply H3]; right; auto.
  Qed.
  Lemma match_chosen a p q b : chosen (rdefaults a) (full_path a p) (m_routes (update (a_map a))) b ->
    snd (match_path a p q) = respond ip_ok nfkc_ok (update_adapter a) b p q.
  Proof.
    intros C. unfold ModelUrlMap.match_path, ModelUrlMap.match_updated. cbn [snd].
    rewrite <- (update_adapter_path a p), <- (update_adapter_rd a) in C. change (m_routes (update (a_map a))) with (m_routes (a_map (update_adapter a))) in C.
    destruct (match_routes_cases ip_ok nfkc_ok (update_adapter a) (m_routes (a_map (update_adapter a))) p q) as [[_ N]|(c & C' & ->)].
    - apply chosen_in in C as [C1 C2]. exfalso. eapply N; eauto.
    - f_equal. eapply chosen_unique; eauto.
  Qed.
  Lemma slash_redirect_url a p q b host root rel :
    chosen (rdefaults a) (full_path a p) (m_routes (update (a_map a))) b ->
    route_match (rdefaults a) (b_route b) (full_path a p) = Ok MSlash ->
    plain_route (b_route b) -> (forall u, full_path a p <> u ++ [10]) -> unicode_text p ->
    a_scheme a <> [] -> own_host a host -> host <> [] -> root_of (a_script a) root -> relative p rel ->
    exists path, snd (match_path a p q) = Ok (Redirect (a_scheme a ++ lit "://" ++ host ++ root ++ path ++ [47] ++ query_suffix q)) /\
      decodes path rel /\ ~ In 63 path /\ ~ In 35 path /\ full_path a (p ++ [47]) = full_path a p ++ [47].
  Proof.
    intros C M P Hn U Hs Ho Hh R Hr. rewrite (match_chosen a p q b C). unfold respond. rewrite update_adapter_rd, update_adapter_path, M. cbn [bind].
    apply own_unique in Ho. subst host. pose proof (slash_path _ _ _ _ P Hn M) as Hne. pose proof (relative_unique _ _ Hr) as El. rewrite El in Hne.
    destruct (urlquote_ok (lit "/:|+") p U) as (u & Hu). rewrite Hu. cbn [bind]. destruct (quote_relative _ _ Hu) as (path & Hp & Rp). rewrite El in Hp.
    exists path. assert (Np : path <> []).
    { intros ->. destruct rel as [|c rel]; [congruence|]. destruct (quote_cons _ _ _ _ Hp) as (q' & _ & E).
      assert (Hc : c <> 47) by (destruct Hr as (_ & _ & _ & N); intros ->; eapply N; eauto).
      destruct (quote_head (lit "/:|+") c q' Hc) as (d & t & E' & _). rewrite E' in E. discriminate. }
    split; [|split; [|split; [|split]]].
    - do 2 f_equal. rewrite update_redirect_url. rewrite (redirect_url a (u ++ [47]) q None root (path ++ [47])); auto using relative_snoc.
      assert (is_nil (path ++ [47]) = false) as -> by (destruct path; auto). cbn [andb]. rewrite <- !app_assoc. auto.
    - eapply urlquote_roundtrip; [|eauto]. vm_compute. intuition congruence.
    - eapply urlquote_not_in; [eauto|cbn; auto|lia|vm_compute; intuition congruence].
    - eapply urlquote_not_in; [eauto|cbn; auto|lia|vm_compute; intuition congruence].
    - apply full_path_slash. congruence.
  Qed.

  (** *** C62 *)
  Lemma if_slash (x : str) : after_host (if is_nil x then [] else if starts [47] x then x else 47 :: x).
  Proof.
    destruct x as [|c x]; cbn [is_nil]; [left; auto|]. destruct (starts [47] (c :: x)) eqn:E; [apply starts_slash in E as (u & ->)|]; right; eauto.
  Qed.
  Lemma after_app x q : after_host x -> after_host (x ++ query_suffix q).
  Proof.
    intros [->|(u & [->| ->])]; [destruct q as [|c q]; [left; auto|right; exists (c :: q); auto]|right; exists (u ++ query_suffix q); auto|right; exists (u ++ query_suffix q); auto].
  Qed.
  Lemma redirect_after a p q d : a_scheme a <> [] -> get_host a d <> [] ->
    exists rest, make_redirect_url a p q d = a_scheme a ++ lit "://" ++ get_host a d ++ rest /\ after_host rest.
  Proof. intros H1 H2. unfold make_redirect_url. rewrite unparse_host by auto. eexists. split; [reflexivity|]. apply after_app, if_slash. Qed.
  Lemma own_or_built a e b values au d path : In b (m_routes (a_map a)) -> r_endpoint (b_route b) = e ->
    route_build (b_route b) values au = Ok (Some (d, path)) -> allowed_host a e (get_host a (Some d)).
  Proof. intros. eapply ah_built; eauto. apply get_host_some. Qed.
  Lemma default_after a e l b values q u : (forall x, In x l -> In x (m_routes (a_map a)) /\ r_endpoint (b_route x) = e) ->
    a_scheme a <> [] -> default_redirect a l b values q = Ok (Some u) ->
    exists host, allowed_host a e host /\ (host <> [] -> exists rest, u = a_scheme a ++ lit "://" ++ host ++ rest /\ after_host rest).
  Proof.
    intros Hl Hs. induction l as [|r l IH]; cbn [default_redirect]; [discriminate|]. destruct (b_id r =? b_id b)%nat; [discriminate|].
    destruct (provides_defaults_for (b_route r) (b_route b) && suitable_for (b_route r) values); [|apply IH; intros; apply Hl; right; auto].
    destruct (route_build _ _ _) as [[[d path]|]|] eqn:E; cbn [bind]; try discriminate. intros H. inv H.
    destruct (Hl r (or_introl eq_refl)) as [H1 H2]. exists (get_host a (Some d)). split; [eapply own_or_built; eauto|].
    intros Hh. apply redirect_after; auto.
  Qed.
  Lemma build_external a e values au u : (forall x, In x (endpoint_routes (a_map a) e) -> In x (m_routes (a_map a)) /\ r_endpoint (b_route x) = e) ->
    a_scheme a <> [] -> build_updated ip_ok nfkc_ok a e values true au = Ok u ->
    exists host, allowed_host a e host /\ (host <> [] -> exists rest, u = a_scheme a ++ lit "://" ++ host ++ rest /\ after_host rest).
  Proof.
    intros Hl Hs. unfold build_updated. destruct (first_build_cases (endpoint_routes (a_map a) e) values au) as [[E _]|(l1 & b & l2 & El & _ & _ & [([d path] & Eb & E)|(x & _ & E)])];
      rewrite E; cbn [bind]; try discriminate. cbn [negb andb]. intros H. inv H.
    destruct (Hl b) as [H1 H2]; [rewrite El; apply in_or_app; right; left; auto|]. exists (get_host a (Some d)). split; [eapply own_or_built; eauto|].
    intros Hh. rewrite unparse_host by auto. eexists. split; [reflexivity|]. apply after_app, if_slash.
  Qed.
  Lemma endpoint_in mk g m e x : made mk g m -> In x (endpoint_routes (update m) e) -> In x (m_routes (update m)) /\ r_endpoint (b_route x) = e.
  Proof.
    intros M H. apply made_inv in M. destruct (update_inv _ M) as (I & _ & _). apply (Permutation_in _ (mi_perm _ I e)) in H.
    unfold with_endpoint in H. apply filter_In in H as [H1 H2]. split; [auto|]. apply eqs_eq in H2. auto.
  Qed.
  Lemma target_update a d h : target_host (update_adapter a) d h -> target_host a d h.
  Proof. intros T. apply target_unique in T. rewrite update_get_host in T. subst. apply get_host_some. Qed.
  Lemma allowed_update mk g a e h : made mk g (a_map a) -> allowed_host (update_adapter a) e h -> allowed_host a e h.
  Proof.
    intros M [h' Ho|b values au d path h' H1 H2 H3 H4].
    - apply ah_own. apply own_unique in Ho. rewrite update_get_host in Ho. subst. apply get_host_none.
    - eapply ah_built; eauto; [|apply target_update; auto]. apply made_inv in M. destruct (update_inv _ M) as (_ & _ & P). apply (Permutation_in _ P). auto.
  Qed.
  Lemma redirect_host mk g a p q u : made mk g (a_map a) -> a_scheme a <> [] ->
    snd (match_path a p q) = Ok (Redirect u) ->
    exists b, chosen (rdefaults a) (full_path a p) (m_routes (update (a_map a))) b /\
      (b_redirect b = NoRedirect ->
       exists host, allowed_host a (r_endpoint (b_route b)) host /\
         (host <> [] -> exists rest, u = a_scheme a ++ lit "://" ++ host ++ rest /\ after_host rest)).
  Proof.
    intros Mm Hs H. pose proof H as H0. unfold ModelUrlMap.match_path, ModelUrlMap.match_updated in H. cbn [snd] in H.
    destruct (match_routes_cases ip_ok nfkc_ok (update_adapter a) (m_routes (a_map (update_adapter a))) p q) as [[E _]|(b & C & E)]; rewrite E in H; [discriminate|].
    exists b. split; [rewrite <- (update_adapter_path a p), <- (update_adapter_rd a); auto|]. intros Hn. unfold respond in H.
    assert (L : forall x, In x (endpoint_routes (a_map (update_adapter a)) (r_endpoint (b_route b))) ->
       In x (m_routes (a_map (update_adapter a))) /\ r_endpoint (b_route x) = r_endpoint (b_route b)) by (intros x; apply (endpoint_in mk g); auto).
    assert (G : (exists host, allowed_host (update_adapter a) (r_endpoint (b_route b)) host /\ (host <> [] -> exists rest, u = a_scheme (update_adapter a) ++ lit "://" ++ host ++ rest /\ after_host rest)) ->
       exists host, allowed_host a (r_endpoint (b_route b)) host /\ (host <> [] -> exists rest, u = a_scheme a ++ lit "://" ++ host ++ rest /\ after_host rest)).
    { intros (h & A & R). exists h. split; [eapply allowed_update; eauto|auto]. }
    apply G. clear G. destruct (route_match _ _ _) as [[| |v|v]|]; cbn [bind] in H; try discriminate.
    - destruct (urlquote _ _) as [x|]; cbn [bind] in H; [|discriminate]. inv H. exists (get_host (update_adapter a) None). split; [apply ah_own, get_host_none|].
      intros Hh. apply redirect_after; auto.
    - destruct (alias_redirect _ _ _ _ _ _ _) as [x|] eqn:Ea; cbn [bind] in H; [|discriminate]. inv H. unfold alias_redirect in Ea.
      destruct (build_updated _ _ _ _ _ _ _) as [y|] eqn:Eb; cbn [bind] in Ea; [|discriminate].
      apply build_external in Eb as (h & A & R); auto. exists h. split; [auto|]. intros Hh. destruct (R Hh) as (rest & -> & Hr).
      destruct (eqs _ _); [discriminate|]. inv Ea. destruct q as [|c q]; cbn [is_nil]; [eauto|]. exists (rest ++ query_suffix (c :: q)).
      split; [|apply after_app; auto].
      change (lit "://") with [58; 47; 47]. cbn [app query_suffix a_scheme update_adapter]. rewrite <- !app_assoc. cbn [app]. rewrite <- !app_assoc. reflexivity.
    - unfold matched in H. rewrite Hn in H.
      destruct (g_redirect_defaults _); cbn [bind] in H; [|discriminate].
      destruct (default_redirect _ _ _ _ _) as [[x|]|] eqn:Ed; cbn [bind] in H; try discriminate. inv H. eapply default_after in Ed; eauto.
  Qed.

  (** *** C65 *)
  Lemma given_drop values : given values (drop_none values).
  Proof. induction values as [|[k [v|]] l IH]; cbn; constructor; auto. Qed.
  Lemma given_unique values l : given values l -> l = drop_none values.
  Proof. induction 1; cbn; auto. f_equal. auto. Qed.
End Adapter2.

(** ** Statements in the vocabulary of the specification *)
Lemma asked_path a p path : asked a p path -> full_path a p = path.
Proof.
  intros [rel Hh Hs R|d rel Hh Hd R]; unfold full_path, host_matching; rewrite Hh, (relative_unique _ _ R).
  - destruct (a_server a); [congruence|]. auto.
  - cbn [andb]. rewrite Hd. auto.
Qed.
Lemma chosen_best mk g m rd path b : made mk g m -> chosen rd path (m_routes (update m)) b -> best rd path (m_routes m) b.
Proof. intros M C. destruct (chosen_smallest _ _ _ _ _ _ M C) as (H1 & H2 & H3). constructor; auto. Qed.
Lemma best_unique rd path l b b' : best rd path l b -> best rd path l b' -> b = b'.
Proof.
  intros [H1 H2 H3] [K1 K2 K3]. destruct (H3 _ K1 K2) as [E|[B|[S I]]]; [auto| |];
    (destruct (K3 _ H1 H2) as [E'|[B'|[S' I']]]; [auto| |]); exfalso.
  - eapply before_asym; eauto.
  - eapply before_irrefl_same; [exact B|]. destruct S' as [X Y]. split; [tauto|destruct Y as (w & Y1 & Y2); eauto].
  - eapply before_irrefl_same; [exact B'|]. destruct S as [X Y]. split; [tauto|destruct Y as (w & Y1 & Y2); eauto].
  - lia.
Qed.
Lemma best_chosen mk g m rd path b : made mk g m -> best rd path (m_routes m) b -> chosen rd path (m_routes (update m)) b.
Proof.
  intros M B. assert (exists c, chosen rd path (m_routes (update m)) c) as (c & C).
  { apply chosen_exists. exists b. split; [|apply best_answers in B; auto]. pose proof (made_inv _ _ _ M) as I. destruct (update_inv _ I) as (_ & _ & P).
    apply (Permutation_in _ (Permutation_sym P)). apply (best_in _ _ _ _ B). }
  rewrite (best_unique _ _ _ _ _ B (chosen_best _ _ _ _ _ _ M C)). auto.
Qed.
Lemma orders_agree mk g m1 m2 rd path b1 b2 : made mk g m1 -> made mk g m2 ->
  Permutation (map b_route (m_routes m1)) (map b_route (m_routes m2)) ->
  (forall r r', In r (map b_route (m_routes m1)) -> In r' (map b_route (m_routes m1)) -> same_priority r r' -> r = r') ->
  best rd path (m_routes m1) b1 -> best rd path (m_routes m2) b2 -> b_route b1 = b_route b2.
Proof.
  intros M1 M2 P D B1 B2. pose proof (best_chosen _ _ _ _ _ _ M1 B1) as C1. pose proof (best_chosen _ _ _ _ _ _ M2 B2) as C2.
  exact (order_independent mk g m1 m2 rd path b1 b2 M1 M2 P D C1 C2).
Qed.

Section Adapter3.
  Variable ip_ok : str -> bool.
  Variable nfkc_ok : str -> bool.
  Notation match_path := (match_path ip_ok nfkc_ok).
  Lemma outcome_best mk g a p q path : made mk g (a_map a) -> asked a p path ->
    (snd (match_path a p q) = Ok NotFound /\ forall b, In b (m_routes (a_map a)) -> ~ answers (rdefaults a) path b) \/
    exists b, best (rdefaults a) path (m_routes (a_map a)) b /\ snd (match_path a p q) <> Ok NotFound /\
      (forall b' values, snd (match_path a p q) = Ok (Found b' values) ->
         b' = b /\ route_match (rdefaults a) (b_route b) path = Ok (MValues values)).
  Proof.
    intros M A. apply asked_path in A. subst path.
    assert (P : Permutation (m_routes (update (a_map a))) (m_routes (a_map a))) by (pose proof (made_inv _ _ _ M) as I; destruct (update_inv _ I) as (_ & _ & P); auto).
    unfold ModelUrlMap.match_path, ModelUrlMap.match_updated. cbn [snd].
    destruct (match_routes_cases ip_ok nfkc_ok (update_adapter a) (m_routes (a_map (update_adapter a))) p q) as [[H1 H2]|(c & C & E)];
      rewrite update_adapter_rd, update_adapter_path in *.
    - left. split; [auto|]. intros b Hb. apply H2. apply (Permutation_in _ (Permutation_sym P)). auto.
    - right. exists c. split; [eapply chosen_best; eauto|]. split.
      + rewrite E. apply respond_not. rewrite update_adapter_rd, update_adapter_path. apply (chosen_in _ _ _ _ C).
      + intros b' values H. pose proof (found ip_ok nfkc_ok a p q b' values H) as (C' & Hm & _). assert (b' = c) as -> by (eapply chosen_unique; eauto). auto.
  Qed.
  Lemma build_cases mk g a e vals values external au : made mk g (a_map a) -> given vals values ->
    exists l, Permutation l (with_endpoint e (m_routes (a_map a))) /\
      StronglySorted (fun x y => build_before (b_route x) (b_route y) \/ (same_build_priority (b_route x) (b_route y) /\ (b_id x < b_id y)%nat)) l /\
      ((snd (build ip_ok nfkc_ok a e vals external au) = Raise BuildError /\ forall b, In b l -> refused values au b) \/
       exists l1 b l2, l = l1 ++ b :: l2 /\ (forall x, In x l1 -> refused values au x) /\ suits (b_route b) values /\
         ((exists d path, route_build (b_route b) values au = Ok (Some (d, path)) /\
             ((a_scheme a <> [] -> ends [47] (a_script a) = true -> get_host a (Some d) <> [] -> (g_host_matching (m_config (a_map a)) = false -> a_subdomain a <> None) ->
               addressed ip_ok nfkc_ok a external d path (snd (build ip_ok nfkc_ok a e vals external au))))) \/
          (exists x, route_build (b_route b) values au = Raise x /\ snd (build ip_ok nfkc_ok a e vals external au) = Raise x))).
  Proof.
    intros M G. apply given_unique in G. subst values. pose proof (made_inv _ _ _ M) as I. destruct (update_inv _ I) as (I' & R & P).
    exists (endpoint_routes (update (a_map a)) e). split.
    { etransitivity; [apply (mi_perm _ I')|]. unfold with_endpoint. clear - P. induction P; cbn; auto.
      - destruct (eqs _ _); auto.
      - destruct (eqs (r_endpoint (b_route x)) e), (eqs (r_endpoint (b_route y)) e); auto. constructor.
      - etransitivity; eauto. }
    split.
    { pose proof (mi_bsorted _ I' R e) as S. clear - S. induction S as [|x l S IH F]; constructor; auto. eapply Forall_impl; [|exact F].
      intros y [O|[O1 O2]]; [left; apply build_before_spec; auto|]. destruct (build_ltb x y) eqn:E; [left; apply build_before_spec; auto|]. right. split; [apply same_build_spec; auto|auto]. }
    unfold ModelUrlMap.build, ModelUrlMap.build_updated. cbn [snd].
    change (endpoint_routes (a_map (update_adapter a)) e) with (endpoint_routes (update (a_map a)) e).
    destruct (first_build_cases (endpoint_routes (update (a_map a)) e) (drop_none vals) au) as [[E H]|(l1 & b & l2 & El & H1 & H2 & H3)]; [left|right].
    - rewrite E. cbn [bind]. auto.
    - exists l1, b, l2. split; [auto|]. split; [auto|]. split; [auto|]. destruct H3 as [([d path] & Eb & E)|(x & Eb & E)]; [left|right; exists x; rewrite E; auto].
      exists d, path. split; [auto|]. intros Hs He Hh Hsub. rewrite E. cbn [bind].
      rewrite update_get_host. unfold host_matching. cbn [a_map update_adapter a_server a_script a_subdomain a_scheme]. rewrite update_config.
      assert (Own : (g_host_matching (m_config (a_map a)) && eqs (get_host a (Some d)) (a_server a)
        || negb (g_host_matching (m_config (a_map a))) && match a_subdomain a with Some s => eqs d s | None => false end) = true <-> own_host a (get_host a (Some d))).
      { unfold get_host, host_matching. destruct (g_host_matching (m_config (a_map a))) eqn:Em; cbn [andb negb orb].
        - rewrite orb_false_r, eqs_eq. split; [intros ->; apply own_matching; auto|]. intros O. apply own_unique in O. unfold get_host, host_matching in O. rewrite Em in O. auto.
        - specialize (Hsub eq_refl). destruct (a_subdomain a) as [s|] eqn:Ea; [|congruence]. rewrite eqs_eq. split.
          + intros ->. eapply own_sub; eauto. pose proof (get_host_some a s) as T. unfold get_host, host_matching in T. rewrite Em in T. auto.
          + intros O. apply own_unique in O. unfold get_host, host_matching in O. rewrite Em, Ea in O.
            destruct d as [|x d], s as [|y s]; auto.
            * apply (f_equal (@length N)) in O. rewrite app_length in O. cbn in O. lia.
            * apply (f_equal (@length N)) in O. rewrite app_length in O. cbn in O. lia.
            * apply app_inv_tail in O. auto. }
      match goal with |- addressed _ _ _ _ _ _ (if negb external && ?c then _ else _) => destruct (negb external && c) eqn:Eo end.
      + apply andb_true_iff in Eo as [Ee Eo]. apply negb_true_iff in Ee. apply Own in Eo. eapply ad_relative; eauto using get_host_some, relative_lstrip.
      + apply ends_slash in He as (root & He). eapply ad_external with (root := root); eauto using get_host_some, relative_lstrip.
        * apply andb_false_iff in Eo as [Eo|Eo]; [left; destruct external; auto; discriminate|right]. intros O. apply Own in O. congruence.
        * rewrite unparse_host by auto. f_equal. f_equal. f_equal. cbn [query_suffix]. rewrite app_nil_r. unfold posix_join.
          destruct (starts [47] (lstrip_slash path)) eqn:Es; [apply starts_slash in Es as (v & Es); destruct (relative_lstrip path) as (_ & _ & _ & X); exfalso; eapply X; eauto|].
          assert (ends [47] (a_script a) = true) as -> by (apply ends_slash; eauto). rewrite orb_true_r.
          assert (Hne : a_script a <> []) by (rewrite He; destruct root; discriminate). rewrite He. rewrite <- !app_assoc.
          assert (is_nil (root ++ [47] ++ lstrip_slash path) = false) as -> by (destruct root; auto).
          destruct root as [|c root]; cbn [app starts]; [reflexivity|]. destruct (47 =? c); reflexivity.
  Qed.
End Adapter3.
