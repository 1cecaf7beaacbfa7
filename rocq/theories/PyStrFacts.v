(** Lemmas about the Python builtins of [PyStr]. *)
From Coq Require Import List NArith ZArith Bool Lia ZifyBool ZifyN.
From Verif Require Import PyStr.
Import ListNotations.
Open Scope N_scope.

Ltac inv H := inversion H; subst; clear H.

Lemma eqs_refl a : eqs a a = true.
Proof. induction a; simpl; auto. rewrite N.eqb_refl; auto. Qed.

Lemma eqs_eq a b : eqs a b = true <-> a = b.
Proof.
  split.
  - revert b; induction a; destruct b; simpl; intros; try discriminate; auto.
    apply andb_true_iff in H as [H1 H2]. apply N.eqb_eq in H1. f_equal; auto.
  - intros ->; apply eqs_refl.
Qed.

Lemma eqs_neq a b : eqs a b = false <-> a <> b.
Proof.
  split; intros H.
  - intros ->. rewrite eqs_refl in H; discriminate.
  - destruct (eqs a b) eqn:E; auto. apply eqs_eq in E. contradiction.
Qed.

Lemma eqs_sym a b : eqs a b = eqs b a.
Proof.
  destruct (eqs a b) eqn:E.
  - apply eqs_eq in E; subst. symmetry; apply eqs_refl.
  - symmetry. apply eqs_neq. apply eqs_neq in E. congruence.
Qed.

Lemma mem_In c s : mem c s = true <-> In c s.
Proof.
  unfold mem. rewrite existsb_exists. split.
  - intros (x & H & E). apply N.eqb_eq in E. subst; auto.
  - intros H. exists c. split; auto. apply N.eqb_refl.
Qed.

Lemma mem_not_In c s : mem c s = false <-> ~ In c s.
Proof. rewrite <- mem_In. destruct (mem c s); split; congruence. Qed.

Lemma starts_app p s : starts p (p ++ s) = true.
Proof. induction p; simpl; auto. rewrite N.eqb_refl; auto. Qed.

Lemma starts_spec p s : starts p s = true <-> exists r, s = p ++ r.
Proof.
  split.
  - revert s; induction p; simpl; intros s H.
    + eauto.
    + destruct s; try discriminate. apply andb_true_iff in H as [H1 H2].
      apply N.eqb_eq in H1; subst. destruct (IHp _ H2) as [r ->]. exists r; auto.
  - intros [r ->]. apply starts_app.
Qed.

Lemma ends_spec p s : ends p s = true <-> exists r, s = r ++ p.
Proof.
  unfold ends. rewrite starts_spec. split; intros [r H].
  - exists (rev r). rewrite <- (rev_involutive s), H, rev_app_distr, rev_involutive. auto.
  - exists (rev r). subst. rewrite rev_app_distr. auto.
Qed.

Lemma contains_spec p s : contains p s = true <-> exists a b, s = a ++ p ++ b.
Proof.
  split.
  - induction s; simpl; intros H.
    + rewrite orb_false_r in H. apply starts_spec in H as [r ->]. exists [], r; auto.
    + apply orb_true_iff in H as [H|H].
      * apply starts_spec in H as [r H]. exists [], r. auto.
      * destruct (IHs H) as (x & y & ->). exists (a :: x), y. auto.
  - intros (a & b & ->). induction a; simpl.
    + destruct (p ++ b) eqn:E; simpl; rewrite <- E, starts_app; auto.
    + rewrite IHa. apply orb_true_r.
Qed.

(** ** Stripping *)
Lemma lstrip_by_id f s : (forall c r, s = c :: r -> f c = false) -> lstrip_by f s = s.
Proof. destruct s; simpl; auto. intros H. rewrite (H n s); auto. Qed.

Lemma lstrip_by_app f a s : forallb f a = true -> lstrip_by f (a ++ s) = lstrip_by f s.
Proof.
  induction a; simpl; intros; auto. apply andb_true_iff in H as [H1 H2]. rewrite H1; auto.
Qed.

Lemma lstrip_by_spec f s :
  exists a, s = a ++ lstrip_by f s /\ forallb f a = true /\
            (forall c r, lstrip_by f s = c :: r -> f c = false).
Proof.
  induction s; simpl.
  - exists []. repeat split; auto. discriminate.
  - destruct (f a) eqn:E.
    + destruct IHs as (x & H1 & H2 & H3). exists (a :: x). simpl. rewrite E, H2.
      repeat split; auto. f_equal; auto.
    + exists []. repeat split; auto. intros c r H; inv H; auto.
Qed.

Lemma lstrip_by_idem f s : lstrip_by f (lstrip_by f s) = lstrip_by f s.
Proof.
  apply lstrip_by_id. destruct (lstrip_by_spec f s) as (a & _ & _ & H). exact H.
Qed.

Lemma rstrip_by_id f s : (forall c r, s = r ++ [c] -> f c = false) -> rstrip_by f s = s.
Proof.
  intros H. unfold rstrip_by. rewrite lstrip_by_id. apply rev_involutive.
  intros c r E. apply (H c (rev r)). rewrite <- (rev_involutive s), E. auto.
Qed.

Lemma rstrip_by_app f a s : forallb f a = true -> rstrip_by f (s ++ a) = rstrip_by f s.
Proof.
  intros H. unfold rstrip_by. rewrite rev_app_distr, lstrip_by_app; auto.
  rewrite forallb_forall in *. intros x Hx. apply H. apply in_rev; auto.
Qed.

Lemma rstrip_by_spec f s :
  exists a, s = rstrip_by f s ++ a /\ forallb f a = true /\
            (forall c r, rstrip_by f s = r ++ [c] -> f c = false).
Proof.
  destruct (lstrip_by_spec f (rev s)) as (a & H1 & H2 & H3).
  exists (rev a). unfold rstrip_by. repeat split.
  - rewrite <- rev_app_distr, <- H1, rev_involutive; auto.
  - rewrite forallb_forall in *. intros x Hx. apply H2. apply in_rev; auto.
  - intros c r E. apply (H3 c (rev r)).
    rewrite <- (rev_involutive (lstrip_by f (rev s))), E, rev_app_distr. auto.
Qed.

Lemma strip_by_id f s :
  (forall c r, s = c :: r -> f c = false) -> (forall c r, s = r ++ [c] -> f c = false) ->
  strip_by f s = s.
Proof.
  intros. unfold strip_by. rewrite (lstrip_by_id f s), rstrip_by_id; auto.
Qed.

Lemma strip_by_none f s : forallb (fun c => negb (f c)) s = true -> strip_by f s = s.
Proof.
  intros H. rewrite forallb_forall in H. apply strip_by_id; intros c r ->.
  - specialize (H c (or_introl eq_refl)). destruct (f c); auto; discriminate.
  - assert (In c (r ++ [c])) by (apply in_or_app; right; left; auto).
    specialize (H c H0). destruct (f c); auto; discriminate.
Qed.

(** ** Splitting *)
Lemma split_on_nonnil c s : split_on c s <> [].
Proof.
  destruct s; simpl; try discriminate. destruct (n =? c); try discriminate.
  destruct (split_on c s); discriminate.
Qed.

Lemma split_on_none c s : ~ In c s -> split_on c s = [s].
Proof.
  induction s; simpl; intros; auto.
  destruct (a =? c) eqn:E.
  - apply N.eqb_eq in E. subst. exfalso; auto.
  - rewrite IHs; auto.
Qed.

Lemma split_on_app c a s : ~ In c a -> split_on c (a ++ c :: s) = a :: split_on c s.
Proof.
  induction a; simpl; intros.
  - rewrite N.eqb_refl. auto.
  - destruct (a =? c) eqn:E.
    + apply N.eqb_eq in E. subst. exfalso; auto.
    + rewrite IHa; auto.
Qed.

Lemma split_on_parts c s : Forall (fun p => ~ In c p) (split_on c s).
Proof.
  induction s; simpl.
  - repeat constructor. auto.
  - destruct (a =? c) eqn:E.
    + constructor; auto.
    + destruct (split_on c s) eqn:E2.
      * exfalso. eapply split_on_nonnil; eauto.
      * inv IHs. constructor; auto. simpl. intros [->|]; auto. rewrite N.eqb_refl in E. discriminate.
Qed.

Lemma join_split c s : join [c] (split_on c s) = s.
Proof.
  induction s; simpl; auto. destruct (a =? c) eqn:E.
  - apply N.eqb_eq in E. subst. destruct (split_on c s) eqn:E2.
    + exfalso. eapply split_on_nonnil; eauto.
    + change (c :: join [c] (l :: l0) = c :: s). rewrite IHs. auto.
  - destruct (split_on c s) eqn:E2.
    + exfalso. eapply split_on_nonnil; eauto.
    + destruct l0; simpl in *; rewrite <- IHs; auto.
Qed.

Lemma split1_none c s : split1 c s = None <-> ~ In c s.
Proof.
  induction s; simpl.
  - split; auto.
  - destruct (a =? c) eqn:E.
    + apply N.eqb_eq in E. split; try discriminate. intros H. exfalso; apply H; auto.
    + destruct (split1 c s) as [[x y]|]; split; try discriminate.
      * intros H. exfalso. assert (Some (x, y) = None) by (apply IHs; intros Hi; apply H; auto). discriminate.
      * intros _ [->|H]; [rewrite N.eqb_refl in E; discriminate | apply IHs; auto].
      * auto.
Qed.

Lemma split1_some c s a b : split1 c s = Some (a, b) <-> s = a ++ c :: b /\ ~ In c a.
Proof.
  revert a b; induction s; simpl; intros.
  - split; try discriminate. intros [H _]. destruct a; discriminate.
  - destruct (a =? c) eqn:E.
    + apply N.eqb_eq in E. subst a. split.
      * intros H; inv H. auto.
      * intros [H Hn]. destruct a0; simpl in *; inv H; auto. exfalso; auto.
    + apply N.eqb_neq in E. destruct (split1 c s) as [[x y]|] eqn:E2.
      * split.
        -- intros H; inv H. destruct (proj1 (IHs x b) eq_refl) as [-> Hn]. split; auto.
           simpl. intros [|]; auto.
        -- intros [H Hn]. destruct a0; simpl in *; inv H; try congruence.
           assert (Some (x, y) = Some (a0, b)) by (apply IHs; split; auto). congruence.
      * split; try discriminate. intros [H Hn]. destruct a0; simpl in *; inv H; try congruence.
        assert (None = Some (a0, b)) by (apply IHs; split; auto). discriminate.
Qed.

Lemma split1_app c a b : ~ In c a -> split1 c (a ++ c :: b) = Some (a, b).
Proof. intros. apply split1_some. auto. Qed.

(** ** Replace *)
Lemma replace_aux_app_skip old new k a s :
  length a = k -> replace_aux old new k (a ++ s) = replace_aux old new 0 s.
Proof.
  revert k; induction a; intros k H; simpl in H; subst; auto. simpl. apply IHa. auto.
Qed.

Lemma replace_hit old new s :
  old <> [] -> replace old new (old ++ s) = new ++ replace old new s.
Proof.
  intros H. unfold replace. destruct old as [|c old]; try contradiction.
  assert (E : starts (c :: old) ((c :: old) ++ s) = true) by apply starts_app.
  cbn [app replace_aux] in *. rewrite E. f_equal.
  apply replace_aux_app_skip. simpl. lia.
Qed.

Lemma replace_miss old new c s :
  starts old (c :: s) = false -> replace old new (c :: s) = c :: replace old new s.
Proof. intros H. unfold replace. simpl replace_aux at 1. rewrite H. auto. Qed.

(** ** Lower case *)
Lemma lower_c_idem c : lower_c (lower_c c) = lower_c c.
Proof.
  unfold lower_c, is_ascii_upper, between.
  destruct ((65 <=? c) && (c <=? 90)) eqn:E1.
  - replace ((65 <=? c + 32) && (c + 32 <=? 90)) with false by lia.
    replace ((192 <=? c + 32) && (c + 32 <=? 222)) with false by lia. auto.
  - destruct ((192 <=? c) && (c <=? 222) && negb (c =? 215)) eqn:E2.
    + replace ((65 <=? c + 32) && (c + 32 <=? 90)) with false by lia.
      replace ((192 <=? c + 32) && (c + 32 <=? 222)) with false by lia. auto.
    + rewrite E1, E2. auto.
Qed.

Lemma lower_idem s : lower (lower s) = lower s.
Proof. unfold lower. rewrite map_map. apply map_ext. apply lower_c_idem. Qed.

Lemma lower_app a b : lower (a ++ b) = lower a ++ lower b.
Proof. apply map_app. Qed.

(** ** Decimal numbers *)
Lemma digits_val_app a b : digits_val (a ++ b) = digits_val a * 10 ^ N.of_nat (length b) + digits_val b.
Proof.
  unfold digits_val. rewrite fold_left_app. generalize (fold_left (fun a c => 10 * a + (c - 48)) a 0).
  clear a. intros n. revert n. induction b as [|c b IH]; cbn [fold_left length]; intros.
  - cbn. lia.
  - rewrite IH, (IH (10 * 0 + (c - 48))).
    replace (N.of_nat (S (length b))) with (N.succ (N.of_nat (length b))) by lia.
    rewrite N.pow_succ_r'. lia.
Qed.

Lemma digits_aux_spec fuel : forall n acc,
  n < 2 ^ N.of_nat fuel ->
  fuel <> O ->
  exists d, digits_aux fuel n acc = d ++ acc /\ d <> [] /\
            forallb is_ascii_digit d = true /\ digits_val d = n /\
            (forall r, d = 48 :: r -> r = []).
Proof.
  induction fuel; intros n acc H Hf; [congruence|].
  cbn [digits_aux].
  assert (Hd : is_ascii_digit (48 + n mod 10) = true).
  { unfold is_ascii_digit, between. pose proof (N.mod_lt n 10). lia. }
  destruct (n / 10 =? 0) eqn:E.
  - exists [48 + n mod 10]. apply N.eqb_eq in E.
    assert (n < 10) by (apply N.div_small_iff in E; lia).
    cbn [app forallb]. rewrite Hd. repeat split; auto; try discriminate.
    + unfold digits_val; cbn [fold_left]. rewrite N.mod_small by lia. lia.
    + intros r Hr. inv Hr. auto.
  - apply N.eqb_neq in E.
    assert (Hdiv : n / 10 < 2 ^ N.of_nat fuel).
    { replace (N.of_nat (S fuel)) with (N.succ (N.of_nat fuel)) in H by lia.
      rewrite N.pow_succ_r' in H. apply N.div_lt_upper_bound; lia. }
    assert (Hf2 : fuel <> O).
    { intros ->. simpl in Hdiv. lia. }
    destruct (IHfuel (n / 10) ((48 + n mod 10) :: acc) Hdiv Hf2) as (d & H1 & H2 & H3 & H4 & H5).
    exists (d ++ [48 + n mod 10]). rewrite H1, <- app_assoc. split; auto. split.
    { destruct d; discriminate. } split; [|split].
    + rewrite forallb_app, H3. cbn [forallb]. rewrite Hd. auto.
    + rewrite digits_val_app, H4. unfold digits_val; cbn [fold_left length].
      change (10 ^ N.of_nat 1) with 10.
      pose proof (N.div_mod' n 10). lia.
    + intros r Hr. destruct d as [|x d]; [congruence|]. inv Hr.
      rewrite (H5 d eq_refl) in H4. unfold digits_val in H4; simpl in H4. lia.
Qed.

Lemma size_nat_gt n : n < 2 ^ N.of_nat (S (N.size_nat n)).
Proof.
  replace (N.of_nat (S (N.size_nat n))) with (N.succ (N.size n)).
  - rewrite N.pow_succ_r'. pose proof (N.size_gt n). lia.
  - destruct n as [|p]; simpl N.size_nat; simpl N.size; [reflexivity|].
    assert (forall q, N.of_nat (Pos.size_nat q) = Npos (Pos.size q)) as Hq.
    { induction q; simpl Pos.size_nat; simpl Pos.size; lia. }
    rewrite Nnat.Nat2N.inj_succ, Hq. auto.
Qed.

Lemma dec_spec n :
  exists d, dec n = d /\ d <> [] /\ forallb is_ascii_digit d = true /\ digits_val d = n /\
            (forall r, d = 48 :: r -> r = []).
Proof.
  unfold dec. destruct (digits_aux_spec (S (N.size_nat n)) n [] (size_nat_gt n)) as (d & H1 & H2).
  - discriminate.
  - exists d. rewrite H1, app_nil_r. auto.
Qed.

Lemma dec_digits n : forallb is_ascii_digit (dec n) = true.
Proof. destruct (dec_spec n) as (d & -> & _ & H & _). auto. Qed.
Lemma dec_nonnil n : dec n <> [].
Proof. destruct (dec_spec n) as (d & -> & H & _). auto. Qed.
Lemma dec_val n : digits_val (dec n) = n.
Proof. destruct (dec_spec n) as (d & -> & _ & _ & H & _). auto. Qed.
Lemma dec_nozero n r : dec n = 48 :: r -> r = [].
Proof. destruct (dec_spec n) as (d & -> & _ & _ & _ & H). apply H. Qed.

Lemma dec_inj a b : dec a = dec b -> a = b.
Proof. intros H. rewrite <- (dec_val a), <- (dec_val b), H. auto. Qed.

Lemma is_ascii_digit_not_space c : is_ascii_digit c = true -> is_space c = false.
Proof. unfold is_ascii_digit, is_space, between. lia. Qed.

Lemma int_digits_digits s : s <> [] -> forallb is_ascii_digit s = true -> int_digits s = Some s.
Proof.
  induction s as [|c s IH]; intros Hn H; [congruence|].
  cbn [forallb] in H. apply andb_true_iff in H as [Hc Hs]. cbn [int_digits]. rewrite Hc.
  destruct s as [|d s]; auto.
  assert (Hd : is_ascii_digit d = true) by (cbn [forallb] in Hs; apply andb_true_iff in Hs; tauto).
  replace (d =? 95) with false by (unfold is_ascii_digit, between in Hd; lia).
  rewrite IH; auto. discriminate.
Qed.

Lemma strip_digits s : forallb is_ascii_digit s = true -> strip s = s.
Proof.
  intros H. apply strip_by_none. rewrite forallb_forall in *. intros c Hc.
  rewrite is_ascii_digit_not_space; auto.
Qed.

Lemma py_int_digits s :
  s <> [] -> forallb is_ascii_digit s = true -> py_int s = Some (Z.of_N (digits_val s)).
Proof.
  intros Hn H. unfold py_int. rewrite (strip_digits s H).
  destruct s as [|c r]; [congruence|].
  assert (Hc : is_ascii_digit c = true) by (cbn [forallb] in H; apply andb_true_iff in H; tauto).
  unfold is_ascii_digit, between in Hc.
  replace (c =? 45) with false by lia. replace (c =? 43) with false by lia.
  rewrite int_digits_digits; auto.
Qed.

Lemma py_int_dec n : py_int (dec n) = Some (Z.of_N n).
Proof. rewrite py_int_digits; [rewrite dec_val; auto | apply dec_nonnil | apply dec_digits]. Qed.

Lemma py_int_neg s :
  s <> [] -> forallb is_ascii_digit s = true -> py_int (45 :: s) = Some (- Z.of_N (digits_val s))%Z.
Proof.
  intros Hn H. unfold py_int.
  replace (strip (45 :: s)) with (45 :: s).
  - rewrite N.eqb_refl, int_digits_digits; auto.
  - symmetry. apply strip_by_none. cbn [forallb]. rewrite andb_true_iff. split; auto.
    rewrite forallb_forall in *. intros c Hc. rewrite is_ascii_digit_not_space; auto.
Qed.

Lemma py_int_zdec z : py_int (zdec z) = Some z.
Proof.
  destruct z; unfold zdec.
  - rewrite py_int_dec. auto.
  - rewrite py_int_dec. auto.
  - rewrite py_int_neg, dec_val; auto using dec_nonnil, dec_digits.
Qed.

(** ** Dicts *)
Section Dict.
  Context {V : Type}.
  Implicit Types d : dict V.

  Lemma dget_dset_eq d k v : dget (dset d k v) k = Some v.
  Proof.
    induction d as [|[k' v'] d IH]; simpl.
    - rewrite eqs_refl; auto.
    - destruct (eqs k k') eqn:E; simpl; rewrite E; auto.
  Qed.
  Lemma dget_dset_neq d k k2 v : k <> k2 -> dget (dset d k v) k2 = dget d k2.
  Proof.
    intros Hn. induction d as [|[k' v'] d IH]; simpl.
    - replace (eqs k2 k) with false; auto. symmetry; apply eqs_neq; congruence.
    - destruct (eqs k k') eqn:E; simpl.
      + apply eqs_eq in E; subst. replace (eqs k2 k') with false; auto.
        symmetry; apply eqs_neq; congruence.
      + destruct (eqs k2 k'); auto.
  Qed.
  Lemma dget_In d k v : dget d k = Some v -> In (k, v) d.
  Proof.
    induction d as [|[k' v'] d IH]; simpl; intros; try discriminate.
    destruct (eqs k k') eqn:E; auto. apply eqs_eq in E. inv H. auto.
  Qed.
  Lemma dget_none d k : dget d k = None <-> ~ In k (map fst d).
  Proof.
    induction d as [|[k' v'] d IH]; simpl; [tauto|].
    destruct (eqs k k') eqn:E.
    - apply eqs_eq in E; subst. split; try discriminate. intros H; exfalso; auto.
    - apply eqs_neq in E. rewrite IH. split; intros H; [intros [|]; congruence || tauto | tauto].
  Qed.
  Lemma In_dget d k v : NoDup (map fst d) -> In (k, v) d -> dget d k = Some v.
  Proof.
    induction d as [|[k' v'] d IH]; simpl; intros Hn H; [contradiction|].
    inv Hn. destruct H as [H|H].
    - inv H. rewrite eqs_refl; auto.
    - destruct (eqs k k') eqn:E; auto. apply eqs_eq in E; subst.
      exfalso. apply H2. apply in_map_iff. exists (k', v); auto.
  Qed.
  Lemma dget_ddel_eq d k : dget (ddel d k) k = None.
  Proof.
    apply dget_none. intros H. apply in_map_iff in H as ([k' v] & E & H). simpl in E. subst.
    apply filter_In in H as [_ H]. simpl in H. rewrite eqs_refl in H. discriminate.
  Qed.
  Lemma dget_ddel_neq d k k2 : k <> k2 -> dget (ddel d k) k2 = dget d k2.
  Proof.
    intros Hn. induction d as [|[k' v'] d IH]; simpl; auto.
    destruct (eqs k k') eqn:E; simpl.
    - apply eqs_eq in E; subst. replace (eqs k2 k') with false; auto.
      symmetry; apply eqs_neq; congruence.
    - destruct (eqs k2 k'); auto.
  Qed.
  Lemma dset_keys d k v :
    map fst (dset d k v) = if dhas d k then map fst d else map fst d ++ [k].
  Proof.
    unfold dhas. induction d as [|[k' v'] d IH]; simpl; auto.
    destruct (eqs k k') eqn:E; simpl; auto. rewrite IH. destruct (dget d k); auto.
  Qed.
  Lemma dset_NoDup d k v : NoDup (map fst d) -> NoDup (map fst (dset d k v)).
  Proof.
    rewrite dset_keys. unfold dhas. destruct (dget d k) eqn:E; auto.
    intros H. apply dget_none in E.
    apply NoDup_rev in H. rewrite <- (rev_involutive (map fst d ++ [k])).
    apply NoDup_rev. rewrite rev_app_distr. simpl. constructor; auto.
    rewrite <- in_rev. auto.
  Qed.
  Lemma dset_notin d k v : dget d k = None -> dset d k v = d ++ [(k, v)].
  Proof.
    induction d as [|[k' v'] d IH]; simpl; auto. destruct (eqs k k'); try discriminate.
    intros H. rewrite IH; auto.
  Qed.
  Lemma ddel_NoDup d k : NoDup (map fst d) -> NoDup (map fst (ddel d k)).
  Proof.
    induction d as [|[k' v'] d IH]; simpl; auto. intros H. inv H.
    destruct (negb (eqs k k')); simpl; auto. constructor; auto.
    intros Hi. apply H2. apply in_map_iff in Hi as (x & <- & Hx). apply filter_In in Hx as [Hx _].
    apply in_map. auto.
  Qed.
End Dict.

(** ** Misc *)
Lemma forallb_impl {A} (f g : A -> bool) l :
  (forall x, f x = true -> g x = true) -> forallb f l = true -> forallb g l = true.
Proof. intros H. rewrite !forallb_forall. auto. Qed.

Lemma total_len_concat {A} (l : list (list A)) : total_len l = length (concat l).
Proof. induction l; simpl; auto. rewrite app_length, IHl. auto. Qed.
