(** * Proofs: dates *)
From Coq Require Import Arith List NArith ZArith Bool Lia ZifyBool ZifyN ZifyNat Znumtheory.
From Verif Require Import PyStr PyStrFacts SpecHeaders ModelHeaders ProofHeaders ProofResponse ModelUtils ProofUtils ModelDate SpecDate.
Import ListNotations.
Open Scope Z_scope.
Ltac inv H := inversion H; subst; clear H.

(** ** The calendar *)
Ltac Zdm := Z.div_mod_to_equations; lia.

Lemma leap_spec y : is_leap y = true <-> leap_year y.
Proof.
  unfold is_leap, leap_year.
  assert (D : forall k, 0 < k -> (y mod k =? 0) = true <-> (k | y)).
  { intros k Hk. rewrite Z.eqb_eq. apply Z.mod_divide. lia. }
  rewrite andb_true_iff, orb_true_iff, negb_true_iff, <- not_true_iff_false, !D by lia. reflexivity.
Qed.
Lemma length_spec y m l : month_length y m l <-> 1 <= m <= 12 /\ l = days_in_month y m.
Proof.
  unfold days_in_month. split.
  - intros [y' m' I|y' m' I|y' L|y' L].
    + cbn [In] in I. repeat destruct I as [<-|I]; try destruct I; cbn; lia.
    + cbn [In] in I. repeat destruct I as [<-|I]; try destruct I; cbn; lia.
    + apply leap_spec in L. rewrite L. cbn. lia.
    + rewrite <- leap_spec in L. destruct (is_leap y'); [congruence|]. cbn. lia.
  - intros [Hm ->]. destruct (m =? 2) eqn:E2.
    + apply Z.eqb_eq in E2. subst m. destruct (is_leap y) eqn:El.
      * apply ml_29, leap_spec, El.
      * apply ml_28. rewrite <- leap_spec. congruence.
    + destruct ((m =? 4) || (m =? 6) || (m =? 9) || (m =? 11)) eqn:E4.
      * apply ml_30. cbn [In]. lia.
      * apply ml_31. cbn [In]. lia.
Qed.
Lemma month_cases m : 1 <= m <= 12 -> m = 1 \/ m = 2 \/ m = 3 \/ m = 4 \/ m = 5 \/ m = 6 \/ m = 7 \/ m = 8 \/
  m = 9 \/ m = 10 \/ m = 11 \/ m = 12.
Proof. lia. Qed.
Ltac before_value := repeat match goal with |- context [days_before_month ?l ?m] =>
  let v := eval vm_compute in (days_before_month l m) in change (days_before_month l m) with v end.
Ltac months H := apply month_cases in H; repeat (destruct H as [-> | H]); try subst.

Lemma before_next y m : 1 <= m < 12 ->
  days_before_month (is_leap y) (m + 1) = days_before_month (is_leap y) m + days_in_month y m.
Proof.
  intros H. assert (H' : 1 <= m <= 12) by lia. unfold days_in_month, days_before_month.
  months H'; destruct (is_leap y); vm_compute; try reflexivity; lia.
Qed.
Lemma year_next y : days_before_year (y + 1) = days_before_year y + (if is_leap y then 366 else 365).
Proof.
  unfold days_before_year. cbv zeta. unfold is_leap.
  destruct (y mod 4 =? 0) eqn:E4; destruct (y mod 100 =? 0) eqn:E1; destruct (y mod 400 =? 0) eqn:E0; cbn [andb orb negb]; Zdm.
Qed.
Lemma before_december (l : bool) : days_before_month l 12 = 334 + (if l then 1 else 0).
Proof. destruct l; reflexivity. Qed.

Definition good_ymd (y m d : Z) : Prop := 1 <= m <= 12 /\ 1 <= d <= days_in_month y m.

Lemma nth_day_ord y m d n : nth_day y m d n -> 1 <= y /\ 0 <= n /\ good_ymd y m d /\ ymd_to_ord y m d = n + 1.
Proof.
  unfold good_ymd, ymd_to_ord. induction 1.
  - cbn. lia.
  - apply length_spec in H0 as [Hm ->]. lia.
  - apply length_spec in H0 as [Hm ->]. destruct IHnth_day as (Hy & Hn & Hg & E).
    rewrite before_next by lia. split; [lia|]. split; [lia|]. split; [|lia]. split; [lia|].
    split; [lia|]. unfold days_in_month. destruct (m + 1 =? 2); [destruct (is_leap y); lia|]. destruct (_ || _ || _ || _); lia.
  - destruct IHnth_day as (Hy & Hn & Hg & E). rewrite before_december in E. rewrite year_next.
    split; [lia|]. split; [lia|]. split; [cbn; lia|].
    change (days_before_month (is_leap (y + 1)) 1) with 0. destruct (is_leap y); lia.
Qed.

(** *** From the number to the date *)
Lemma month_back y m d : 1 <= m <= 12 -> 1 <= d <= days_in_month y m ->
  let n := days_before_month (is_leap y) m + d - 1 in
  (if n <? days_before_month (is_leap y) ((n + 50) / 32)
   then (y, (n + 50) / 32 - 1,
         n - (days_before_month (is_leap y) ((n + 50) / 32) - days_in_month y ((n + 50) / 32 - 1)) + 1)
   else (y, (n + 50) / 32, n - days_before_month (is_leap y) ((n + 50) / 32) + 1)) = (y, m, d).
Proof.
  intros Hm Hd n.
  assert (Q : (n + 50) / 32 = m \/ (n + 50) / 32 = m + 1 /\ m < 12).
  { subst n. unfold days_in_month in Hd. revert Hd.
    months Hm; destruct (is_leap y); cbn [Z.eqb Pos.eqb orb];
      match goal with |- context [days_before_month ?l ?m] => let v := eval vm_compute in (days_before_month l m) in
        change (days_before_month l m) with v end; intros Hd; Zdm. }
  destruct Q as [-> | [-> Hm']].
  - replace (n <? days_before_month (is_leap y) m) with false by (subst n; lia). f_equal. subst n. lia.
  - rewrite before_next by lia. replace (m + 1 - 1) with m by lia.
    replace (n <? days_before_month (is_leap y) m + days_in_month y m) with true by (subst n; lia).
    f_equal. subst n. lia.
Qed.
Lemma ord_back y m d : good_ymd y m d -> ord_to_ymd (ymd_to_ord y m d) = (y, m, d).
Proof.
  intros [Hm Hd].
  set (r := days_before_month (is_leap y) m + d - 1).
  assert (Hr : 0 <= r < 365 + (if is_leap y then 1 else 0)).
  { subst r. unfold days_in_month in Hd. revert Hd. months Hm; destruct (is_leap y); before_value; cbn [Z.eqb Pos.eqb orb]; lia. }
  assert (exists a b c e, y = 400 * a + 100 * b + 4 * c + e + 1 /\ 0 <= b <= 3 /\ 0 <= c <= 24 /\ 0 <= e <= 3)
    as (a & b & c & e & Ey & Hb & Hc & He).
  { clear. exists ((y - 1) / 400), ((y - 1) mod 400 / 100), ((y - 1) mod 400 mod 100 / 4), ((y - 1) mod 400 mod 100 mod 4). Zdm. }
  assert (Eb : days_before_year y = 146097 * a + 36524 * b + 1461 * c + 365 * e).
  { unfold days_before_year. cbv zeta. subst y. clear -Hb Hc He. 
    replace (400 * a + 100 * b + 4 * c + e + 1 - 1) with (400 * a + 100 * b + 4 * c + e) by lia.
    replace ((400 * a + 100 * b + 4 * c + e) / 4) with (100 * a + 25 * b + c) by (apply Z.div_unique with e; lia).
    replace ((400 * a + 100 * b + 4 * c + e) / 100) with (4 * a + b) by (apply Z.div_unique with (4 * c + e); lia).
    replace ((400 * a + 100 * b + 4 * c + e) / 400) with a by (apply Z.div_unique with (100 * b + 4 * c + e); lia).
    lia. }
  assert (El : is_leap y = (e =? 3) && (negb (c =? 24) || (b =? 3))).
  { apply eq_true_iff_eq. rewrite leap_spec. unfold leap_year.
    rewrite andb_true_iff, orb_true_iff, negb_true_iff, !Z.eqb_eq, Z.eqb_neq. subst y.
    split.
    - intros [[k Hk] H]. assert (e = 3) by lia. split; [assumption|]. subst e.
      destruct H as [H|[q Hq]].
      + left. intros ->. apply H. exists (4 * a + b + 1). lia.
      + right. lia.
    - intros [-> H]. split; [exists (100 * a + 25 * b + c + 1); lia|].
      destruct H as [H| ->].
      + left. intros [q Hq]. lia.
      + destruct (Z.eq_dec c 24) as [->|N]; [right; exists (a + 1); lia | left; intros [q Hq]; lia]. }
  unfold ord_to_ymd. cbv zeta.
  replace (ymd_to_ord y m d - 1) with (146097 * a + (36524 * b + 1461 * c + 365 * e + r))
    by (unfold ymd_to_ord; rewrite Eb; subst r; lia).
  set (n0 := 36524 * b + 1461 * c + 365 * e + r).
  assert (H0 : 0 <= n0 < 146097) by (subst n0; destruct (is_leap y); lia).
  replace ((146097 * a + n0) / 146097) with a by (apply Z.div_unique with n0; lia).
  replace ((146097 * a + n0) mod 146097) with n0 by (apply Z.mod_unique with a; lia).
  destruct (Z.eq_dec r 365) as [R|R].
  - (* the last day of a leap year *)
    assert (L : is_leap y = true) by (destruct (is_leap y); [reflexivity|lia]).
    rewrite L in El. symmetry in El. apply andb_true_iff in El as [E3 El]. apply Z.eqb_eq in E3.
    assert (m = 12 /\ d = 31) as [-> ->].
    { subst r. rewrite L in R. unfold days_in_month in Hd. rewrite L in Hd. clear -Hm Hd R. revert Hd R. months Hm; before_value; cbn [Z.eqb Pos.eqb orb]; lia. }
    destruct (Z.eq_dec c 24) as [C|C].
    + assert (b = 3) by (clear -El C; lia).
      replace (n0 / 36524) with 4 by (apply Z.div_unique with 0; subst n0; lia).
      replace (n0 mod 36524) with 0 by (apply Z.mod_unique with 4; subst n0; lia).
      change (0 mod 1461 / 365) with 0. change (0 / 1461) with 0. cbn [Z.eqb orb Pos.eqb]. f_equal. f_equal. lia.
    + replace (n0 / 36524) with b by (apply Z.div_unique with (1461 * c + 365 * e + r); subst n0; lia).
      replace (n0 mod 36524) with (1461 * c + 365 * e + r) by (apply Z.mod_unique with b; subst n0; lia).
      replace ((1461 * c + 365 * e + r) / 1461) with c by (apply Z.div_unique with (365 * e + r); lia).
      replace ((1461 * c + 365 * e + r) mod 1461) with (365 * e + r) by (apply Z.mod_unique with c; lia).
      replace ((365 * e + r) / 365) with 4 by (apply Z.div_unique with 0; lia).
      cbn [Z.eqb Pos.eqb orb]. f_equal. f_equal. lia.
  - assert (R' : r < 365) by (destruct (is_leap y); lia).
    replace (n0 / 36524) with b by (apply Z.div_unique with (1461 * c + 365 * e + r); subst n0; lia).
    replace (n0 mod 36524) with (1461 * c + 365 * e + r) by (apply Z.mod_unique with b; subst n0; lia).
    replace ((1461 * c + 365 * e + r) / 1461) with c by (apply Z.div_unique with (365 * e + r); lia).
    replace ((1461 * c + 365 * e + r) mod 1461) with (365 * e + r) by (apply Z.mod_unique with c; lia).
    replace ((365 * e + r) / 365) with e by (apply Z.div_unique with r; lia).
    replace ((365 * e + r) mod 365) with r by (apply Z.mod_unique with e; lia).
    replace (e =? 4) with false by lia. replace (b =? 4) with false by lia. cbn [orb].
    rewrite <- El. replace (a * 400 + 1 + b * 100 + c * 4 + e) with y by lia.
    subst r. apply month_back; assumption.
Qed.

Lemma ord_inj y m d y' m' d' : good_ymd y m d -> good_ymd y' m' d' ->
  ymd_to_ord y m d = ymd_to_ord y' m' d' -> (y, m, d) = (y', m', d').
Proof. intros H H' E. rewrite <- (ord_back y m d H), <- (ord_back y' m' d' H'), E. reflexivity. Qed.

Lemma nth_day_exists n : 0 <= n -> exists y m d, nth_day y m d n.
Proof.
  intros Hn. pattern n. apply natlike_ind; [|clear|exact Hn].
  - exists 1, 1, 1. constructor.
  - intros n Hn (y & m & d & H). unfold Z.succ. pose proof (nth_day_ord _ _ _ _ H) as (Hy & _ & [Hm Hd] & _).
    assert (L : month_length y m (days_in_month y m)) by (apply length_spec; auto).
    destruct (Z.eq_dec d (days_in_month y m)) as [E|E].
    + destruct (Z.eq_dec m 12) as [->|E12].
      * exists (y + 1), 1, 1. apply nd_year. rewrite E in H. exact H.
      * exists y, (m + 1), 1. eapply nd_month; [exact H|rewrite E; exact L|lia].
    + exists y, m, (d + 1). eapply nd_day; [exact H|exact L|lia].
Qed.
Lemma nth_day_iff y m d n : nth_day y m d n <-> 1 <= y /\ good_ymd y m d /\ ymd_to_ord y m d = n + 1.
Proof.
  split.
  - intros H. apply nth_day_ord in H. tauto.
  - intros (Hy & G & E).
    assert (Hn : 0 <= n).
    { unfold ymd_to_ord in E. destruct G as [Hm Hd].
      assert (0 <= days_before_month (is_leap y) m)
        by (clear -Hm; months Hm; destruct (is_leap y); before_value; lia).
      assert (0 <= days_before_year y) by (clear -Hy; unfold days_before_year; Zdm). lia. }
    destruct (nth_day_exists n Hn) as (y' & m' & d' & H'). pose proof (nth_day_ord _ _ _ _ H') as (_ & _ & G' & E').
    assert (X : (y, m, d) = (y', m', d')) by (apply ord_inj; auto; lia).
    injection X as -> -> ->. exact H'.
Qed.
Lemma ord_to_ymd_pos k : 1 <= k -> let '(y, m, d) := ord_to_ymd k in nth_day y m d (k - 1).
Proof.
  intros Hk. destruct (nth_day_exists (k - 1)) as (y & m & d & H); [lia|].
  pose proof (nth_day_ord _ _ _ _ H) as (_ & _ & G & E). assert (Ek : ord_to_ymd k = (y, m, d)).
  { replace k with (ymd_to_ord y m d) by lia. apply ord_back. exact G. }
  rewrite Ek. exact H.
Qed.
Lemma ord_to_ymd_neg k : k <= 0 -> fst (fst (ord_to_ymd k)) <= 0.
Proof.
  intros Hk. unfold ord_to_ymd. cbv zeta.
  set (a := (k - 1) / 146097). set (n := (k - 1) mod 146097).
  assert (Ha : a <= -1 /\ 0 <= n < 146097) by (subst a n; clear -Hk; Zdm).
  clearbody a n. destruct Ha as [Ha Hn].
  set (b := n / 36524). set (n' := n mod 36524).
  assert (Hb : 0 <= b <= 4 /\ 0 <= n' < 36524 /\ (b = 4 -> n' = 0)) by (subst b n'; clear -Hn; Zdm).
  clearbody b n'. destruct Hb as (Hb & Hn' & H4).
  set (c := n' / 1461). set (n2 := n' mod 1461).
  assert (Hc : 0 <= c <= 24 /\ 0 <= n2 < 1461 /\ (n' = 0 -> c = 0 /\ n2 = 0)) by (subst c n2; clear -Hn'; Zdm).
  clearbody c n2. destruct Hc as (Hc & Hn2 & H0).
  set (e := n2 / 365). set (n3 := n2 mod 365).
  assert (He : 0 <= e <= 4 /\ (n2 = 0 -> e = 0)) by (subst e; clear -Hn2; Zdm).
  clearbody e n3. destruct He as (He & He0).
  destruct ((e =? 4) || (b =? 4)) eqn:E; cbn [fst]; [lia|]. destruct (n3 <? _); cbn [fst]; lia.
Qed.

(** ** Dates and instants *)
Lemma valid_spec d : valid_date d = true <-> real_date d.
Proof.
  unfold valid_date, real_date. rewrite !andb_true_iff, !Z.leb_le. split.
  - intros H. repeat split; try lia. exists (days_in_month (dt_year d) (dt_month d)). rewrite length_spec. lia.
  - intros (Hy & (l & L & Hd) & Ht). apply length_spec in L as [Hm ->]. lia.
Qed.
Lemma real_good d : real_date d -> good_ymd (dt_year d) (dt_month d) (dt_day d).
Proof. intros (Hy & (l & L & Hd) & Ht). apply length_spec in L as [Hm ->]. split; lia. Qed.
Lemma real_instant d s : real_date d -> (instant d s <-> seconds d = s + 86400).
Proof.
  intros R. pose proof (real_good d R) as G. destruct R as (Hy & _). unfold instant, seconds. split.
  - intros (n & H & ->). apply nth_day_iff in H as (_ & _ & ->). lia.
  - intros E. exists (ymd_to_ord (dt_year d) (dt_month d) (dt_day d) - 1). split; [|lia].
    apply nth_day_iff. split; [lia|]. split; [exact G|lia].
Qed.
Lemma of_seconds_back d : good_ymd (dt_year d) (dt_month d) (dt_day d) ->
  0 <= dt_hour d < 24 -> 0 <= dt_minute d < 60 -> 0 <= dt_second d < 60 -> of_seconds (seconds d) = d.
Proof.
  intros G Hh Hm Hs. unfold of_seconds, seconds. destruct d as [y m d h mi s]; cbn [dt_year dt_month dt_day dt_hour dt_minute dt_second] in *.
  set (o := ymd_to_ord y m d) in *.
  replace ((o * 86400 + h * 3600 + mi * 60 + s) / 86400) with o by (apply Z.div_unique with (h * 3600 + mi * 60 + s); lia).
  replace ((o * 86400 + h * 3600 + mi * 60 + s) mod 86400) with (h * 3600 + mi * 60 + s) by (apply Z.mod_unique with o; lia).
  unfold o. rewrite ord_back by exact G. f_equal.
  - symmetry. apply Z.div_unique with (mi * 60 + s); lia.
  - replace ((h * 3600 + mi * 60 + s) mod 3600) with (mi * 60 + s) by (apply Z.mod_unique with h; lia).
    symmetry. apply Z.div_unique with s; lia.
  - symmetry. apply Z.mod_unique with (h * 60 + mi); lia.
Qed.
Lemma of_seconds_fields s : let d := of_seconds s in
  0 <= dt_hour d < 24 /\ 0 <= dt_minute d < 60 /\ 0 <= dt_second d < 60.
Proof.
  unfold of_seconds. cbv zeta. destruct (ord_to_ymd (s / 86400)) as [[y m] d].
  cbn [dt_hour dt_minute dt_second]. pose proof (Z.mod_pos_bound s 86400 ltac:(lia)) as B.
  revert B. generalize (s mod 86400). clear. intros r B. Zdm.
Qed.
Lemma of_seconds_day s : 86400 <= s -> let d := of_seconds s in
  1 <= dt_year d /\ good_ymd (dt_year d) (dt_month d) (dt_day d) /\ seconds d = s.
Proof.
  intros Hs. unfold of_seconds. cbv zeta.
  assert (Hk : 1 <= s / 86400) by (clear -Hs; Zdm).
  pose proof (ord_to_ymd_pos _ Hk) as P. destruct (ord_to_ymd (s / 86400)) as [[y m] d].
  apply nth_day_iff in P as (Hy & G & E). unfold seconds. cbn [dt_year dt_month dt_day dt_hour dt_minute dt_second].
  split; [exact Hy|]. split; [exact G|]. rewrite E.
  assert (F : forall r, 0 <= r -> r / 3600 * 3600 + r mod 3600 / 60 * 60 + r mod 60 = r) by (clear; intros r Hr; Zdm).
  pose proof (Z.mod_pos_bound s 86400 ltac:(lia)) as B. specialize (F (s mod 86400) ltac:(lia)).
  pose proof (Z.div_mod s 86400 ltac:(lia)). lia.
Qed.
Lemma of_seconds_low s : s < 86400 -> dt_year (of_seconds s) <= 0.
Proof.
  intros Hs. unfold of_seconds. assert (Hk : s / 86400 <= 0) by (clear -Hs; Zdm).
  pose proof (ord_to_ymd_neg _ Hk) as P. destruct (ord_to_ymd (s / 86400)) as [[y m] d]. exact P.
Qed.
Lemma minus_spec d off : real_date d -> seen_from_utc d off (minus_seconds d off).
Proof.
  intros R s I. apply (real_instant d s R) in I. unfold minus_seconds. rewrite I. cbv zeta.
  set (x := s + 86400 - off). pose proof (of_seconds_fields x) as F. cbv zeta in F.
  destruct (Z_lt_le_dec x 86400) as [L|L].
  - pose proof (of_seconds_low x L) as Y. replace (valid_date (of_seconds x)) with false.
    + intros d' R' I'. apply (real_instant d' _ R') in I'.
      rewrite <- (of_seconds_back d') in R'; [|exact (real_good _ R')|apply R'..].
      replace (seconds d') with x in R' by (subst x; lia). destruct R' as (Hy & _). lia.
    + symmetry. apply not_true_iff_false. rewrite valid_spec. intros (Hy & _). lia.
  - destruct (of_seconds_day x L) as (Hy & G & E). destruct (valid_date (of_seconds x)) eqn:V.
    + apply valid_spec in V. split; [exact V|]. apply (real_instant _ _ V). rewrite E. subst x. lia.
    + intros d' R' I'. apply (real_instant d' _ R') in I'.
      assert (of_seconds x = d') as X.
      { replace x with (seconds d') by (subst x; lia). apply of_seconds_back; [exact (real_good _ R')|apply R'..]. }
      rewrite X in V. apply valid_spec in R'. congruence.
Qed.
Lemma minus_zero d : real_date d -> minus_seconds d 0 = Some d.
Proof.
  intros R. unfold minus_seconds. rewrite Z.sub_0_r. rewrite of_seconds_back; [|exact (real_good _ R)|apply R..].
  apply valid_spec in R. cbv zeta. rewrite R. reflexivity.
Qed.

(** ** Texts *)
Open Scope N_scope.
Definition range (n : nat) : list Z := map Z.of_nat (seq 0 n).
Lemma in_range n z : (0 <= z < Z.of_nat n)%Z -> In z (range n).
Proof. intros H. unfold range. apply in_map_iff. exists (Z.to_nat z). split; [lia|]. apply in_seq. lia. Qed.
Lemma all_below n (P : Z -> bool) : forallb P (range n) = true -> forall z, (0 <= z < Z.of_nat n)%Z -> P z = true.
Proof. rewrite forallb_forall. intros H z Hz. apply H, in_range, Hz. Qed.

Definition plain_c (c : N) : bool := between 33 126 c.
Definition plain_word (s : str) : Prop := s <> [] /\ forallb plain_c s = true.
Definition digit_word (s : str) : Prop := s <> [] /\ forallb is_ascii_digit s = true.
Lemma digit_plain s : forallb is_ascii_digit s = true -> forallb plain_c s = true.
Proof.
  rewrite !forallb_forall. intros H c Hc. specialize (H c Hc). unfold is_ascii_digit, plain_c, between in *. lia.
Qed.
Lemma digit_word_plain s : digit_word s -> plain_word s.
Proof. intros [A B]. split; [exact A|apply digit_plain, B]. Qed.
Lemma plain_not_space c : plain_c c = true -> is_space c = false.
Proof. unfold plain_c, is_space, between. lia. Qed.

Lemma two_digits z : (0 <= z < 100)%Z -> digit_word (two z).
Proof.
  intros H. split; [discriminate|].
  exact (all_below 100 (fun z => forallb is_ascii_digit (two z)) ltac:(vm_compute; reflexivity) z H).
Qed.
Lemma pad2_two z : (0 <= z < 100)%Z -> pad2 z = two z.
Proof.
  intros H. pose proof (all_below 100 (fun z => eqs (pad2 z) (two z)) ltac:(vm_compute; reflexivity) z H) as E.
  apply eqs_eq in E. exact E.
Qed.
Lemma int_two z : (0 <= z < 100)%Z -> py_int (two z) = Some z.
Proof.
  intros H. pose proof (all_below 100 (fun z => match py_int (two z) with Some x => (x =? z)%Z | None => false end)
    ltac:(vm_compute; reflexivity) z H) as E. cbv beta in E.
  destruct (py_int (two z)) as [x|]; [|discriminate E]. apply Z.eqb_eq in E. congruence.
Qed.

(** splitting at white space *)
Lemma split_ws_aux_word a cur r : forallb plain_c a = true ->
  split_ws_aux cur (a ++ r) = split_ws_aux (rev a ++ cur) r.
Proof.
  revert cur. induction a as [|c a IH]; intros cur H; [reflexivity|]. cbn [forallb] in H.
  apply andb_true_iff in H as [Hc Ha]. cbn [app split_ws_aux]. rewrite (plain_not_space c Hc).
  rewrite (IH _ Ha). cbn [rev]. rewrite <- app_assoc. reflexivity.
Qed.
Lemma split_ws_cons a r : plain_word a -> split_ws (a ++ 32 :: r) = a :: split_ws r.
Proof.
  intros [Hn Ha]. unfold split_ws. rewrite (split_ws_aux_word a [] _ Ha). cbn [split_ws_aux].
  change (is_space 32) with true. cbv iota. rewrite app_nil_r.
  destruct (rev a) as [|x l] eqn:E.
  - apply (f_equal (@rev N)) in E. rewrite rev_involutive in E. cbn in E. contradiction.
  - rewrite <- E, rev_involutive. reflexivity.
Qed.
Lemma split_ws_last a : plain_word a -> split_ws a = [a].
Proof.
  intros [Hn Ha]. unfold split_ws. rewrite <- (app_nil_r a) at 1. rewrite (split_ws_aux_word a [] _ Ha). cbn [split_ws_aux].
  rewrite app_nil_r. destruct (rev a) as [|x l] eqn:E.
  - apply (f_equal (@rev N)) in E. rewrite rev_involutive in E. cbn in E. contradiction.
  - rewrite <- E, rev_involutive. reflexivity.
Qed.
Lemma split_ws_space r : split_ws (32 :: r) = split_ws r.
Proof. reflexivity. Qed.
Lemma plain_app a b : plain_word a -> plain_word b -> plain_word (a ++ b).
Proof.
  intros [Ha Pa] [Hb Pb]. split; [destruct a; [contradiction|discriminate]|]. rewrite forallb_app, Pa, Pb. reflexivity.
Qed.
Lemma strip_plain a b : plain_word a -> plain_word b -> forall m, strip (a ++ m ++ b) = a ++ m ++ b.
Proof.
  intros [Ha Pa] [Hb Pb] m. unfold strip. apply strip_by_id.
  - intros c r E. apply plain_not_space. rewrite forallb_forall in Pa. apply Pa.
    destruct a as [|x a]; [contradiction|]. cbn [app] in E. left. congruence.
  - intros c r E. apply plain_not_space. rewrite forallb_forall in Pb. apply Pb.
    rewrite app_assoc in E. destruct (exists_last Hb) as (b' & x & ->). rewrite app_assoc in E.
    apply app_inj_tail in E as [_ ->]. apply in_or_app. right. left. reflexivity.
Qed.

(** names *)
Lemma month_name_cases m : (1 <= m <= 12)%Z -> plain_word (month_name m) /\ month_of (lower (month_name m)) = Some m
  /\ ~ In 45 (month_name m) /\ ends [44] (month_name m) = false.
Proof.
  intros H. months H; (split; [split; [discriminate|reflexivity]|]); (split; [vm_compute; reflexivity|]);
    (split; [vm_compute; intuition discriminate|vm_compute; reflexivity]).
Qed.
Lemma seven n : exists k, (n mod 7 = Z.of_nat k)%Z /\ (k < 7)%nat.
Proof. exists (Z.to_nat (n mod 7)). pose proof (Z.mod_pos_bound n 7 ltac:(lia)). lia. Qed.
Lemma short_day_facts n : plain_word (short_day n) /\ existsb (eqs (lower (short_day n))) lower_days = true.
Proof.
  unfold short_day. destruct (seven n) as (k & -> & Hk). rewrite Nat2Z.id.
  do 7 (destruct k as [|k]; [split; [split; [discriminate|reflexivity]|vm_compute; reflexivity]|]). lia.
Qed.
Lemma long_day_facts n : plain_word (long_day n).
Proof.
  unfold long_day. destruct (seven n) as (k & -> & Hk). rewrite Nat2Z.id.
  do 7 (destruct k as [|k]; [split; [discriminate|reflexivity]|]). lia.
Qed.
Lemma skip_comma w l : skip_day ((w ++ lit ",") :: l) = l.
Proof.
  unfold skip_day. assert (E : ends [44] (w ++ lit ",") = true).
  { unfold ends. rewrite rev_app_distr. reflexivity. }
  rewrite E. reflexivity.
Qed.

(** pieces of _parsedate_tz *)
Lemma no_comma_digits s t : digit_word t -> no_comma (s ++ t) = Ok (s ++ t).
Proof.
  intros [Hn Hd]. destruct (exists_last Hn) as (t' & x & ->). unfold no_comma.
  rewrite app_assoc, rev_app_distr. cbn [rev app]. rewrite forallb_app in Hd. cbn [forallb] in Hd.
  replace (x =? 44) with false; [reflexivity|]. unfold is_ascii_digit, between in Hd. lia.
Qed.
Lemma digits_not_in c s : forallb is_ascii_digit s = true -> (c < 48 \/ 57 < c) -> ~ In c s.
Proof.
  rewrite forallb_forall. intros H Hc Hi. specialize (H c Hi). unfold is_ascii_digit, between in H. lia.
Qed.
Lemma clock_time d : real_date d -> split_time (clock d) = Some (two (dt_hour d), two (dt_minute d), two (dt_second d)).
Proof.
  intros (_ & _ & Hh & Hm & Hs). unfold split_time, clock. change (lit ":") with [58]. cbn [app].
  destruct (two_digits (dt_hour d)) as [_ D1]; [lia|]. destruct (two_digits (dt_minute d)) as [_ D2]; [lia|].
  destruct (two_digits (dt_second d)) as [_ D3]; [lia|].
  rewrite split_on_app by (apply (digits_not_in 58 _ D1); lia).
  rewrite split_on_app by (apply (digits_not_in 58 _ D2); lia).
  rewrite split_on_none by (apply (digits_not_in 58 _ D3); lia). reflexivity.
Qed.
Lemma clock_plain d : real_date d -> plain_word (clock d).
Proof.
  intros (_ & _ & Hh & Hm & Hs). unfold clock.
  assert (C : plain_word (lit ":")) by (split; [discriminate|reflexivity]).
  repeat apply plain_app; try exact C; apply digit_word_plain, two_digits; lia.
Qed.
Lemma clock_comma d : real_date d -> no_comma (clock d) = Ok (clock d).
Proof.
  intros (_ & _ & Hh & Hm & Hs). unfold clock. rewrite !app_assoc. apply no_comma_digits, two_digits. lia.
Qed.
Lemma clock_colon d : real_date d -> colon_inside (clock d) = true.
Proof.
  intros (_ & _ & Hh & Hm & Hs). unfold colon_inside, clock. change (lit ":") with [58]. cbn [app].
  destruct (two_digits (dt_hour d)) as [_ D1]; [lia|].
  rewrite split1_app by (apply (digits_not_in 58 _ D1); lia). reflexivity.
Qed.
Lemma digits_colon s : digit_word s -> colon_inside s = false.
Proof.
  intros [_ D]. unfold colon_inside. replace (split1 58 s) with (@None (str * str)); [reflexivity|].
  symmetry. apply split1_none. apply (digits_not_in 58 s D). lia.
Qed.
Lemma digits_first s : digit_word s -> first_is_digit s = Ok true.
Proof.
  intros [Hn D]. destruct s as [|c s]; [contradiction|]. cbn [forallb] in D. apply andb_true_iff in D as [D _].
  cbn [first_is_digit]. unfold is_digit_c. rewrite D. reflexivity.
Qed.
Lemma digits_comma s : digit_word s -> no_comma s = Ok s.
Proof. exact (no_comma_digits [] s). Qed.
Lemma digits_int s : digit_word s -> py_int s = Some (Z.of_N (digits_val s)).
Proof. intros [A B]. apply py_int_digits; assumption. Qed.

Lemma fields_std d y zone : real_date d -> digit_word y ->
  parse_fields (two (dt_day d)) (month_name (dt_month d)) y (clock d) zone =
  Ok (Some (Parsed (century (Z.of_N (digits_val y))) (dt_month d) (dt_day d) (dt_hour d) (dt_minute d) (dt_second d)
     (zone_seconds zone))).
Proof.
  intros R Dy. pose proof R as (Hy & (l & L & Hd) & Hh & Hmi & Hs). apply length_spec in L as [Hm ->].
  assert (Hd' : (0 <= dt_day d < 100)%Z).
  { unfold days_in_month in Hd. destruct (dt_month d =? 2)%Z; [destruct (is_leap _)|destruct (_ || _ || _ || _)]; lia. }
  destruct (month_name_cases _ Hm) as ([Mn _] & Mo & _).
  pose proof (two_digits _ Hd') as Dd. destruct Dy as [Yn Yd]. pose proof (conj Yn Yd : digit_word y) as Dy.
  unfold parse_fields. destruct (two (dt_day d)) as [|a s] eqn:Et; [destruct Dd; contradiction|]. rewrite <- Et in *.
  destruct (month_name (dt_month d)) as [|b t] eqn:Em; [contradiction|]. rewrite <- Em in *.
  destruct y as [|c u] eqn:Ey; [contradiction|]. rewrite <- Ey in *.
  cbv zeta. rewrite Mo. rewrite (digits_comma _ Dd). cbn [bind]. rewrite (digits_colon y Dy).
  rewrite (digits_comma _ Dy). cbn [bind].
  assert (E0 : (match y with [] => ends [44] y | _ => false end) = false) by (rewrite Ey; reflexivity). rewrite E0.
  rewrite (digits_first y Dy). cbn [bind]. rewrite (clock_comma d R). cbn [bind]. rewrite (clock_time d R).
  rewrite (digits_int y Dy), !int_two by lia. reflexivity.
Qed.
Lemma fields_asc d dd y : real_date d -> digit_word y -> digit_word dd ->
  month_of (lower dd) = None -> lower dd = dd -> py_int dd = Some (dt_day d) ->
  parse_fields (month_name (dt_month d)) dd (clock d) y [] =
  Ok (Some (Parsed (century (Z.of_N (digits_val y))) (dt_month d) (dt_day d) (dt_hour d) (dt_minute d) (dt_second d) 0)).
Proof.
  intros R Dy Dd Nm Ld Id. pose proof R as (Hy & (l & L & Hd) & Hh & Hmi & Hs). apply length_spec in L as [Hm ->].
  destruct (month_name_cases _ Hm) as ([Mn _] & Mo & _).
  pose proof (clock_plain d R) as [Cn _].
  unfold parse_fields. destruct (month_name (dt_month d)) as [|b t] eqn:Em; [contradiction|]. rewrite <- Em in *.
  destruct dd as [|a s] eqn:Et; [destruct Dd; contradiction|]. rewrite <- Et in *.
  destruct (clock d) as [|c u] eqn:Ec; [contradiction|]. rewrite <- Ec in *.
  cbv zeta. rewrite Nm, Mo, Ld. rewrite (digits_comma _ Dd). cbn [bind]. rewrite (clock_colon d R).
  rewrite (digits_comma _ Dy). cbn [bind].
  destruct y as [|x y'] eqn:Ey; [destruct Dy; contradiction|]. rewrite <- Ey in *.
  cbv iota.
  rewrite (digits_first y Dy). cbn [bind]. rewrite (clock_comma d R). cbn [bind]. rewrite (clock_time d R).
  rewrite (digits_int y Dy), Id, !int_two by lia. reflexivity.
Qed.

(** zones *)
Lemma zone_value z o : zone_ahead z o -> zone_seconds z = o /\ plain_word z.
Proof.
  intros [z' h I|h m Hh Hm|h m Hh Hm].
  - cbn [In] in I. repeat (destruct I as [I|I];
      [injection I as <- <-; split; [vm_compute; reflexivity|split; [discriminate|reflexivity]]|]). destruct I.
  - pose proof (all_below 100 (fun h => forallb (fun m => (zone_seconds (lit "+" ++ two h ++ two m) =? h * 3600 + m * 60)%Z)
      (range 60)) ltac:(vm_compute; reflexivity) h Hh) as E. cbv beta in E. rewrite forallb_forall in E.
    specialize (E m (in_range 60 m Hm)). apply Z.eqb_eq in E. split; [exact E|].
    apply plain_app; [split; [discriminate|reflexivity]|]. apply plain_app; apply digit_word_plain, two_digits; lia.
  - pose proof (all_below 100 (fun h => forallb (fun m => (zone_seconds (lit "-" ++ two h ++ two m) =? - (h * 3600 + m * 60))%Z)
      (range 60)) ltac:(vm_compute; reflexivity) h Hh) as E. cbv beta in E. rewrite forallb_forall in E.
    specialize (E m (in_range 60 m Hm)). apply Z.eqb_eq in E. split; [exact E|].
    apply plain_app; [split; [discriminate|reflexivity]|]. apply plain_app; apply digit_word_plain, two_digits; lia.
Qed.

Lemma year_digits y : (1 <= y)%Z -> digit_word (zdec y) /\ Z.of_N (digits_val (zdec y)) = y.
Proof.
  intros H. destruct y as [|p|p]; try lia. cbn [zdec]. split; [split; [apply dec_nonnil|apply dec_digits]|].
  rewrite dec_val. reflexivity.
Qed.
Lemma day_range d : real_date d -> (1 <= dt_day d <= 31)%Z /\ (1 <= dt_month d <= 12)%Z.
Proof.
  intros (_ & (l & L & Hd) & _). apply length_spec in L as [Hm ->]. split; [|exact Hm].
  unfold days_in_month in Hd. destruct (dt_month d =? 2)%Z; [destruct (is_leap _)|destruct (_ || _ || _ || _)]; lia.
Qed.

(** from the parsed fields to the date *)
Lemma parse_date_of v d y o : v <> [] -> strip v = v -> real_date d -> (century y = dt_year d)%Z -> (100 <= dt_year d)%Z ->
  parsedate_tz v = Ok (Some (Parsed (century y) (dt_month d) (dt_day d) (dt_hour d) (dt_minute d) (dt_second d) o)) ->
  parse_date (Some v) = Ok (minus_seconds d o).
Proof.
  intros Hv Hs R Ec Hy E. unfold parse_date. destruct v as [|c v]; [contradiction|]. rewrite Hs, E. cbn [bind g_year g_month g_day g_hour g_minute g_second g_off].
  rewrite Ec. replace ((0 <=? dt_year d) && (dt_year d <=? 68))%Z with false by lia.
  replace ((69 <=? dt_year d) && (dt_year d <=? 99))%Z with false by lia. cbv zeta.
  unfold new_datetime. cbv zeta. replace (DT (dt_year d) (dt_month d) (dt_day d) (dt_hour d) (dt_minute d) (dt_second d)) with d by (destruct d; reflexivity).
  apply valid_spec in R. rewrite R. reflexivity.
Qed.
Lemma century_big y : (100 <= y)%Z -> century y = y.
Proof. unfold century. intros H. replace (y <? 100)%Z with false by lia. reflexivity. Qed.

Ltac words := repeat first [rewrite split_ws_cons | rewrite split_ws_last].
Lemma app_words (a b : str) r : a ++ lit " " ++ r = a ++ 32 :: r.
Proof. reflexivity. Qed.
Lemma comma_space a r : a ++ lit ", " ++ r = (a ++ lit ",") ++ 32 :: r.
Proof. rewrite <- app_assoc. reflexivity. Qed.
Lemma comma_plain a : plain_word a -> plain_word (a ++ lit ",").
Proof. intros H. apply plain_app; [exact H|]. split; [discriminate|reflexivity]. Qed.

Ltac to_words := rewrite <- ?app_assoc; rewrite ?comma_space;
  repeat match goal with |- context [lit " " ++ ?r] => change (lit " " ++ r) with (32 :: r) end.
Ltac plainness := solve [assumption | apply comma_plain; assumption | apply digit_word_plain; assumption
  | apply digit_word_plain, two_digits; lia | apply clock_plain; assumption].

Lemma parse_rfc1123 n d z o : real_date d -> (100 <= dt_year d)%Z -> zone_ahead z o ->
  parse_date (Some (rfc1123 n d z)) = Ok (minus_seconds d o).
Proof.
  intros R Hy Z. destruct (zone_value z o Z) as [Zv Zp]. destruct (year_digits (dt_year d)) as [Yd Yv]; [lia|].
  destruct (day_range d R) as [Hd Hm]. destruct (month_name_cases _ Hm) as (Mp & _).
  destruct (short_day_facts n) as [Sp _].
  apply (parse_date_of _ d (dt_year d)); [| |exact R|apply century_big, Hy|exact Hy|].
  - unfold rfc1123. destruct Sp as [Sn _]. destruct (short_day n); [contradiction|discriminate].
  - unfold rfc1123.
    pose proof (strip_plain _ _ Sp Zp (lit ", " ++ two (dt_day d) ++ lit " " ++ month_name (dt_month d) ++ lit " "
      ++ zdec (dt_year d) ++ lit " " ++ clock d ++ lit " ")) as E. rewrite <- !app_assoc in E. exact E.
  - unfold rfc1123. to_words. unfold parsedate_tz.
    rewrite (split_ws_cons (short_day n ++ lit ",")) by plainness.
    rewrite (split_ws_cons (two _)) by plainness. rewrite (split_ws_cons (month_name _)) by plainness.
    rewrite (split_ws_cons (zdec _)) by plainness. rewrite (split_ws_cons (clock d)) by plainness.
    rewrite split_ws_last by plainness.
    rewrite skip_comma. cbn [open_dashes cut_zone]. rewrite (fields_std d _ z R Yd). rewrite Yv, Zv. reflexivity.
Qed.
Lemma open_day a b c r s : ~ In 45 a -> ~ In 45 b -> ~ In 45 c ->
  open_dashes [a ++ lit "-" ++ b ++ lit "-" ++ c; r; s] = [a; b; c; r; s].
Proof.
  intros Ha Hb Hc. unfold open_dashes. change (lit "-") with [45]. cbn [app].
  rewrite !split_on_app, split_on_none by assumption. reflexivity.
Qed.
Lemma digits_no_dash s : digit_word s -> ~ In 45 s.
Proof. intros [_ D]. apply (digits_not_in 45 s D). lia. Qed.
Lemma parse_dashed w d y z o : plain_word w -> real_date d -> digit_word y -> century (Z.of_N (digits_val y)) = dt_year d ->
  (100 <= dt_year d)%Z -> zone_ahead z o ->
  parse_date (Some (w ++ lit ", " ++ two (dt_day d) ++ lit "-" ++ month_name (dt_month d) ++ lit "-" ++ y ++ lit " " ++ clock d ++ lit " " ++ z))
  = Ok (minus_seconds d o).
Proof.
  intros Wp R Yd Yc Hy Z. destruct (zone_value z o Z) as [Zv Zp].
  destruct (day_range d R) as [Hd Hm]. destruct (month_name_cases _ Hm) as (Mp & _ & Mno & _).
  apply (parse_date_of _ d (Z.of_N (digits_val y))); [| |exact R|exact Yc|exact Hy|].
  - destruct Wp as [Sn _]. destruct w; [contradiction|discriminate].
  - pose proof (strip_plain _ _ Wp Zp (lit ", " ++ two (dt_day d) ++ lit "-" ++ month_name (dt_month d) ++ lit "-"
      ++ y ++ lit " " ++ clock d ++ lit " ")) as E. rewrite <- !app_assoc in E. exact E.
  - assert (Dp : plain_word (two (dt_day d) ++ lit "-" ++ month_name (dt_month d) ++ lit "-" ++ y)).
    { assert (C : plain_word (lit "-")) by (split; [discriminate|reflexivity]).
      repeat apply plain_app; try exact C; try exact Mp; plainness. }
    to_words. unfold parsedate_tz.
    rewrite (split_ws_cons (w ++ lit ",")) by plainness.
    replace (two (dt_day d) ++ lit "-" ++ month_name (dt_month d) ++ lit "-" ++ y ++ 32 :: clock d ++ 32 :: z)
      with ((two (dt_day d) ++ lit "-" ++ month_name (dt_month d) ++ lit "-" ++ y) ++ 32 :: clock d ++ 32 :: z)
      by (rewrite <- !app_assoc; reflexivity).
    rewrite (split_ws_cons (two _ ++ _)) by exact Dp. rewrite (split_ws_cons (clock d)) by plainness.
    rewrite split_ws_last by plainness. rewrite skip_comma.
    rewrite open_day; [|apply digits_no_dash, two_digits; lia|exact Mno|apply digits_no_dash, Yd].
    cbn [cut_zone]. rewrite (fields_std d _ z R Yd). rewrite Zv. reflexivity.
Qed.
Lemma parse_netscape n d z o : real_date d -> (100 <= dt_year d)%Z -> zone_ahead z o ->
  parse_date (Some (netscape n d z)) = Ok (minus_seconds d o).
Proof.
  intros R Hy Z. destruct (year_digits (dt_year d)) as [Yd Yv]; [lia|].
  apply parse_dashed; try assumption; [apply short_day_facts|]. rewrite Yv. apply century_big, Hy.
Qed.
Lemma parse_rfc850 n d z o : real_date d -> (1969 <= dt_year d <= 2068)%Z -> zone_ahead z o ->
  parse_date (Some (rfc850 n d z)) = Ok (minus_seconds d o).
Proof.
  intros R Hy Z. assert (B : (0 <= dt_year d mod 100 < 100)%Z) by (apply Z.mod_pos_bound; lia).
  pose proof (two_digits _ B) as D.
  apply parse_dashed; try assumption; [apply long_day_facts| |lia].
  pose proof (int_two _ B) as I. rewrite (digits_int _ D) in I.
  assert (Z.of_N (digits_val (two (dt_year d mod 100))) = dt_year d mod 100)%Z as -> by congruence.
  unfold century. clear -Hy. destruct (dt_year d mod 100 <? 100)%Z eqn:E1; [|Zdm].
  destruct (68 <? dt_year d mod 100)%Z eqn:E2; Zdm.
Qed.
Lemma day_number_word k : (1 <= k <= 31)%Z -> digit_word (zdec k) /\ month_of (lower (zdec k)) = None /\
  lower (zdec k) = zdec k /\ py_int (zdec k) = Some k.
Proof.
  intros H. destruct (year_digits k) as [D _]; [lia|]. split; [exact D|].
  pose proof (all_below 32 (fun k => match month_of (lower (zdec k)) with None => true | _ => false end && eqs (lower (zdec k)) (zdec k))
    ltac:(vm_compute; reflexivity) k ltac:(lia)) as E. cbv beta in E. apply andb_true_iff in E as [E1 E2].
  apply eqs_eq in E2. split; [destruct (month_of _); [discriminate E1|reflexivity]|]. split; [exact E2|apply py_int_zdec].
Qed.
Lemma digits_no_sign c s : digit_word s -> (c = 43 \/ c = 45) -> sign_at c s = None.
Proof.
  intros [_ D] H. unfold sign_at. replace (split1 c s) with (@None (str * str)); [reflexivity|].
  symmetry. apply split1_none. apply (digits_not_in c s D). lia.
Qed.
Lemma parse_asctime n d : real_date d -> (100 <= dt_year d)%Z ->
  parse_date (Some (asctime n d)) = Ok (minus_seconds d 0).
Proof.
  intros R Hy. destruct (year_digits (dt_year d)) as [Yd Yv]; [lia|].
  destruct (day_range d R) as [Hd Hm]. destruct (month_name_cases _ Hm) as (Mp & _).
  destruct (short_day_facts n) as [Sp Sd]. destruct (day_number_word _ Hd) as (Dd & Nm & Ld & Id).
  apply (parse_date_of _ d (dt_year d)); [| |exact R|apply century_big, Hy|exact Hy|].
  - unfold asctime. destruct Sp as [Sn _]. destruct (short_day n); [contradiction|discriminate].
  - unfold asctime. set (x := if (dt_day d <? 10)%Z then _ else _).
    pose proof (strip_plain _ _ Sp (digit_word_plain _ Yd) (lit " " ++ month_name (dt_month d) ++ lit " " ++ x
      ++ lit " " ++ clock d ++ lit " ")) as E. rewrite <- !app_assoc in E. exact E.
  - assert (W : split_ws (asctime n d) = [short_day n; month_name (dt_month d); zdec (dt_day d); clock d; zdec (dt_year d)]).
    { unfold asctime. to_words.
      rewrite (split_ws_cons (short_day n)) by plainness. rewrite (split_ws_cons (month_name _)) by plainness.
      assert (X : forall r, split_ws ((if (dt_day d <? 10)%Z then 32 :: zdec (dt_day d) else zdec (dt_day d)) ++ 32 :: r)
                   = zdec (dt_day d) :: split_ws r).
      { intros r. destruct (dt_day d <? 10)%Z; [cbn [app]; rewrite split_ws_space|];
          rewrite (split_ws_cons (zdec _)) by plainness; reflexivity. }
      rewrite X. rewrite (split_ws_cons (clock d)) by plainness. rewrite split_ws_last by plainness. reflexivity. }
    unfold parsedate_tz. rewrite W. cbn [skip_day]. rewrite Sd, orb_true_r. cbn [open_dashes cut_zone].
    rewrite !digits_no_sign by auto. rewrite (fields_asc d _ _ R Yd Dd Nm Ld Id). rewrite Yv. reflexivity.
Qed.

(** ** Writing *)
Lemma weekday_spec d n : nth_day (dt_year d) (dt_month d) (dt_day d) n -> weekday d = (n mod 7)%Z.
Proof.
  intros H. apply nth_day_ord in H as (_ & _ & _ & E). unfold weekday. rewrite E.
  replace (n + 1 + 6)%Z with (n + 1 * 7)%Z by lia. apply Z.mod_add. lia.
Qed.
Lemma date_text_spec d n : real_date d -> nth_day (dt_year d) (dt_month d) (dt_day d) n ->
  date_text d (lit " ") = rfc1123 n d (lit "GMT") /\ date_text d (lit "-") = netscape n d (lit "GMT").
Proof.
  intros R H. pose proof (weekday_spec d n H) as W. destruct (day_range d R) as [Hd Hm]. destruct R as (_ & _ & Hh & Hmi & Hs).
  unfold date_text, rfc1123, netscape, clock, short_day, month_name. rewrite W, !pad2_two by lia.
  rewrite <- !app_assoc. split; reflexivity.
Qed.
Lemma real_day d : real_date d -> exists n, nth_day (dt_year d) (dt_month d) (dt_day d) n.
Proof.
  intros R. exists (ymd_to_ord (dt_year d) (dt_month d) (dt_day d) - 1)%Z. apply nth_day_iff.
  split; [destruct R; lia|]. split; [exact (real_good d R)|lia].
Qed.
Lemma gmt_zero : zone_ahead (lit "GMT") 0.
Proof. apply (za_name (lit "GMT") 0). left. reflexivity. Qed.
Lemma epoch_instant : instant epoch (719162 * 86400)%Z.
Proof. apply real_instant; [apply valid_spec; vm_compute; reflexivity|vm_compute; reflexivity]. Qed.
Lemma instant_fun d s s' : instant d s -> instant d s' -> s = s'.
Proof.
  intros (n & H & ->) (n' & H' & ->). apply nth_day_ord in H as (_ & _ & _ & E). apply nth_day_ord in H' as (_ & _ & _ & E'). lia.
Qed.
Lemma gmtime_spec t d s : instant epoch s -> real_date d -> instant d (s + t) -> gmtime t = d.
Proof.
  intros Hs R I. pose proof (instant_fun _ _ _ Hs epoch_instant) as ->. apply (real_instant d _ R) in I.
  unfold gmtime. replace (719163 * 86400 + t)%Z with (seconds d) by lia.
  apply of_seconds_back; [exact (real_good d R)|apply R..].
Qed.
Lemma instant_exists s : (0 <= s)%Z -> exists d, (1 <= dt_year d)%Z /\ instant d s /\
  ((dt_year d <= 9999)%Z -> real_date d).
Proof.
  intros Hs. pose proof (of_seconds_day (s + 86400) ltac:(lia)) as P. pose proof (of_seconds_fields (s + 86400)) as F.
  cbv zeta in F, P. revert P F. generalize (of_seconds (s + 86400)). intros d (Hy & G & E) F.
  exists d. split; [exact Hy|]. split.
  - exists (ymd_to_ord (dt_year d) (dt_month d) (dt_day d) - 1)%Z. split; [apply nth_day_iff; split; [lia|split; [exact G|lia]]|].
    unfold seconds in E. lia.
  - intros Hy'. split; [lia|]. split; [|exact F]. destruct G as [Hm Hd].
    exists (days_in_month (dt_year d) (dt_month d)). split; [apply length_spec; auto|exact Hd].
Qed.
Lemma seen_zero d r : real_date d -> seen_from_utc d 0 r -> r = Some d.
Proof.
  intros R H. assert (I : instant d (seconds d - 86400)) by (apply (real_instant d _ R); lia).
  specialize (H _ I). rewrite Z.sub_0_r in H. destruct r as [d'|].
  - destruct H as [R' I']. apply (real_instant d' _ R') in I'. f_equal.
    pose proof (of_seconds_back d (real_good d R)) as B. pose proof (of_seconds_back d' (real_good d' R')) as B'.
    rewrite <- B, <- B' by first [apply R | apply R']. f_equal. lia.
  - destruct (H d R I).
Qed.

(** ** Reading never fails *)
Lemma no_comma_total s : s <> [] -> exists t, no_comma s = Ok t.
Proof.
  intros H. unfold no_comma. destruct (rev s) as [|c r] eqn:E; [|eauto].
  apply (f_equal (@rev N)) in E. rewrite rev_involutive in E. cbn in E. contradiction.
Qed.
Lemma no_comma_nil s : no_comma s = Ok [] -> ends [44] s = true.
Proof.
  unfold no_comma, ends. destruct (rev s) as [|c r] eqn:E; [discriminate|]. destruct (c =? 44) eqn:Ec; intros H.
  - apply N.eqb_eq in Ec. subst c. reflexivity.
  - assert (s = []) as -> by congruence. discriminate E.
Qed.
Lemma month_of_nil : month_of [] = None.
Proof. reflexivity. Qed.
Lemma fields_total dd mm yy tm tz : tm <> [] -> exists r, parse_fields dd mm yy tm tz = Ok r.
Proof.
  intros Ht. unfold parse_fields.
  destruct dd as [|a dd']; [eauto|]. set (dd := a :: dd') in *.
  destruct mm as [|b mm']; [eauto|]. set (mm := b :: mm') in *.
  destruct yy as [|c yy']; [eauto|]. set (yy := c :: yy') in *. cbv zeta.
  assert (M : exists m x, (match month_of (lower mm) with
     | Some m => Some (m, dd)
     | None => match month_of (lower dd) with Some m => Some (m, lower mm) | None => None end end) = Some (m, x) /\ x <> []
     \/ (match month_of (lower mm) with
     | Some m => Some (m, dd)
     | None => match month_of (lower dd) with Some m => Some (m, lower mm) | None => None end end) = None).
  { destruct (month_of (lower mm)) as [m|]; [exists m, dd; left; split; [reflexivity|discriminate]|].
    destruct (month_of (lower dd)) as [m|]; [|exists 0%Z, []; right; reflexivity].
    exists m, (lower mm). left. split; [reflexivity|]. unfold mm. discriminate. }
  destruct M as (m & x & [[-> Hx]| ->]); [|eauto].
  destruct (no_comma_total x Hx) as [x' ->]. cbn [bind].
  assert (Y : exists y t, (if colon_inside yy then (tm, yy) else (yy, tm)) = (y, t) /\ y <> [] /\ t <> []).
  { destruct (colon_inside yy); eexists; eexists; (split; [reflexivity|]); split; try exact Ht; discriminate. }
  destruct Y as (y & t & -> & Hy & Ht'). destruct (no_comma_total y Hy) as [y' Ey]. rewrite Ey. cbn [bind].
  destruct y' as [|d y'].
  - rewrite (no_comma_nil _ Ey). eauto.
  - cbn [first_is_digit bind]. destruct (if is_digit_c d then _ else _) as [yy2 tz2].
    destruct (no_comma_total t Ht') as [t' ->]. cbn [bind].
    destruct (split_time t') as [[[h mi] s]|]; [|eauto].
    destruct (py_int yy2); [|eauto]. destruct (py_int x'); [|eauto]. destruct (py_int h); [|eauto].
    destruct (py_int mi); [|eauto]. destruct (py_int s); eauto.
Qed.
Lemma split_ws_words s : Forall (fun w => w <> []) (split_ws s).
Proof.
  unfold split_ws. assert (G : forall s cur, Forall (fun w => w <> []) (split_ws_aux cur s)); [|apply G]. clear s.
  induction s as [|c s IH]; intros cur; cbn [split_ws_aux].
  - destruct cur as [|x cur]; constructor; [|constructor]. cbn [rev]. intros E. destruct (rev cur); discriminate E.
  - destruct (is_space c); [|apply IH]. destruct cur as [|x cur]; [apply IH|]. constructor; [|apply IH].
    cbn [rev]. intros E. destruct (rev cur); discriminate E.
Qed.
Definition late (k : nat) (l : list str) : Prop := forall i w, (k <= i)%nat -> nth_error l i = Some w -> w <> [].
Lemma late_skip l : Forall (fun w => w <> []) l -> late 1 (skip_day l).
Proof.
  intros F i w Hi E. rewrite Forall_forall in F. destruct l as [|d l]; [destruct i; discriminate E|]. cbn [skip_day] in E.
  destruct (_ || _).
  - apply nth_error_In in E. apply F. right. exact E.
  - destruct (rsplit1 44 d) as [[x y]|].
    + destruct i as [|i]; [lia|]. cbn [nth_error] in E. apply nth_error_In in E. apply F. right. exact E.
    + apply nth_error_In in E. apply F. exact E.
Qed.
Lemma late_open l : late 1 l -> late 3 (open_dashes l).
Proof.
  intros H. assert (H3 : late 3 l) by (intros i w Hi E; apply (H i w); [lia|exact E]).
  destruct l as [|a [|b [|c [|? ?]]]]; try exact H3. cbn [open_dashes].
  destruct (split_on 45 a) as [|x [|y [|z [|? ?]]]]; try exact H3.
  intros i w Hi E. destruct i as [|[|[|[|[|i]]]]]; try lia; cbn [nth_error] in E.
  - apply (H 1%nat w); [lia|exact E].
  - apply (H 2%nat w); [lia|exact E].
  - destruct i; discriminate E.
Qed.
Lemma cut_zone_fourth l dd mm yy tm tz r : late 3 l -> cut_zone l = dd :: mm :: yy :: tm :: tz :: r -> tm <> [].
Proof.
  intros H E. destruct l as [|a [|b [|c [|s [|t l]]]]]; try discriminate E.
  - assert (Hs : s <> []) by (apply (H 3%nat s); [lia|reflexivity]). cbn [cut_zone] in E.
    assert (K : forall c, match sign_at c s with Some (Some (t, _)) => t <> [] | _ => True end).
    { intros k. unfold sign_at. destruct (split1 k s) as [[[|x y] z]|]; auto. discriminate. }
    assert (G : forall o, match o with Some (Some (t, _)) => t <> [] | _ => True end ->
      match o with Some (Some (t, z)) => [a; b; c; t; z] | _ => [a; b; c; s; []] end = dd :: mm :: yy :: tm :: tz :: r -> tm <> []).
    { intros [[[t z]|]|] Ho Eo; congruence. }
    apply (G _) in E; [exact E|]. pose proof (K 43) as K1. pose proof (K 45) as K2. destruct (sign_at 43 s); assumption.
  - cbn [cut_zone] in E. assert (s = tm) as <- by congruence. apply (H 3%nat s); [lia|reflexivity].
Qed.
Lemma parse_date_total v : exists r, parse_date v = Ok r /\ forall d, r = Some d -> real_date d.
Proof.
  assert (P : forall s, exists r, parsedate_tz s = Ok r).
  { intros s. unfold parsedate_tz. pose proof (split_ws_words s) as F. destruct (split_ws s) as [|w l]; [eauto|].
    set (l0 := w :: l) in *. pose proof (late_open _ (late_skip _ F)) as L.
    destruct (cut_zone (open_dashes (skip_day l0))) as [|dd [|mm [|yy [|tm [|tz r]]]]] eqn:E; eauto.
    apply fields_total. exact (cut_zone_fourth _ _ _ _ _ _ _ L E). }
  unfold parse_date. destruct v as [[|c v]|]; [exists None; split; [reflexivity|discriminate]| |exists None; split; [reflexivity|discriminate]].
  destruct (P (strip (c :: v))) as [t ->]. cbn [bind]. destruct t as [t|]; [|exists None; split; [reflexivity|discriminate]].
  cbv zeta. destruct (new_datetime _ _ _ _ _ _) as [d|]; [|exists None; split; [reflexivity|discriminate]].
  exists (minus_seconds d (g_off t)). split; [reflexivity|]. intros d'. unfold minus_seconds. cbv zeta.
  destruct (valid_date _) eqn:V; [|discriminate]. intros H. assert (of_seconds (seconds d - g_off t) = d') as <- by congruence.
  apply valid_spec. exact V.
Qed.

(** ** Headers *)
Lemma digits_lower s : forallb is_ascii_digit s = true -> lower s = s.
Proof.
  unfold lower. induction s as [|c s IH]; [reflexivity|]. cbn [forallb map]. intros H.
  apply andb_true_iff in H as [Hc Hs]. rewrite (IH Hs). f_equal. unfold lower_c, is_ascii_digit, is_ascii_upper, between in *.
  replace ((65 <=? c) && (c <=? 90)) with false by lia. replace ((192 <=? c) && (c <=? 222) && negb (c =? 215)) with false by lia.
  reflexivity.
Qed.
Lemma parse_number s : digit_word s -> parse_date (Some s) = Ok None.
Proof.
  intros D. pose proof D as [Hn Hd]. pose proof (digit_word_plain s D) as Pw.
  assert (Es : strip s = s).
  { destruct Pw as [_ Pf]. rewrite forallb_forall in Pf. unfold strip. apply strip_by_id.
    - intros c r ->. apply plain_not_space, Pf. left. reflexivity.
    - intros c r ->. apply plain_not_space, Pf, in_or_app. right. left. reflexivity. }
  assert (Et : parsedate_tz s = Ok None).
  { unfold parsedate_tz. rewrite (split_ws_last s Pw). cbn [skip_day].
    assert (E1 : ends [44] s = false).
    { destruct (exists_last Hn) as (s' & x & ->). unfold ends. rewrite rev_app_distr. cbn [rev app starts].
      rewrite forallb_app in Hd. cbn [forallb] in Hd. unfold is_ascii_digit, between in Hd.
      replace (44 =? x) with false by lia. reflexivity. }
    assert (E2 : existsb (eqs (lower s)) lower_days = false).
    { rewrite (digits_lower s Hd). destruct s as [|c s]; [contradiction|]. cbn [forallb] in Hd.
      unfold is_ascii_digit, between in Hd. apply not_true_iff_false. rewrite existsb_exists. intros (x & I & E).
      apply eqs_eq in E. subst x. vm_compute in I. repeat destruct I as [I|I]; try (injection I as <- _; vm_compute in Hd; discriminate Hd); try destruct I. }
    rewrite E1, E2. cbn [orb].
    assert (E3 : rsplit1 44 s = None).
    { destruct (rsplit1 44 s) as [[x y]|] eqn:E; [|reflexivity]. exfalso.
      apply (digits_not_in 44 s Hd); [lia|]. unfold rsplit1 in E. destruct (split1 44 (rev s)) as [[p q]|] eqn:Er; [|discriminate E].
      apply split1_some in Er as [Er _]. apply in_rev. rewrite Er. apply in_or_app. right. left. reflexivity. }
    rewrite E3. reflexivity. }
  unfold parse_date. destruct s as [|c s]; [contradiction|]. rewrite Es, Et. reflexivity.
Qed.
Lemma rfc_one_line d n : real_date d -> one_line (rfc1123 n d (lit "GMT")).
Proof.
  intros R. assert (P : forall c, In c (rfc1123 n d (lit "GMT")) -> 32 <= c).
  { destruct (year_digits (dt_year d)) as [[_ Yd] _]; [destruct R; lia|]. destruct (day_range d R) as [Hd Hm].
    destruct (month_name_cases _ Hm) as ([_ Mp] & _). destruct (short_day_facts n) as [[_ Sp] _].
    pose proof (clock_plain d R) as [_ Cp]. destruct (two_digits (dt_day d)) as [_ Dd]; [lia|].
    apply digit_plain in Yd, Dd. rewrite forallb_forall in *. unfold rfc1123. intros c Hc.
    assert (K : forall c, plain_c c = true -> 32 <= c) by (unfold plain_c, between; intros; lia).
    repeat (apply in_app_or in Hc as [Hc|Hc]; [auto; vm_compute in Hc; lia|]). vm_compute in Hc. lia. }
  split; intros H; apply P in H; lia.
Qed.
Lemma date_property_round name h d : real_date d -> (100 <= dt_year d)%Z ->
  exists h', hp_set (date_property name) h (Some d) = (h', None) /\ hp_get (date_property name) h' = Some d.
Proof.
  intros R Hy. destruct (real_day d R) as [n Hn]. destruct (date_text_spec d n R Hn) as [E _].
  destruct (hp_set_total (date_property name) h (Some d) (HStr (rfc1123 n d (lit "GMT")))) as [h' H].
  - reflexivity.
  - cbn [date_property p_dump http_date dump_date]. rewrite E. reflexivity.
  - apply rfc_one_line, R.
  - exists h'. split; [exact H|]. apply hp_set_ok in H as (_ & x & D & _ & G). rewrite G.
    cbn [date_property p_dump http_date dump_date] in D. rewrite E in D. assert (x = HStr (rfc1123 n d (lit "GMT"))) as -> by congruence.
    cbn [text date_property p_load]. rewrite (parse_rfc1123 n d _ _ R Hy gmt_zero), (minus_zero d R). reflexivity.
Qed.

Lemma same_lower (a b : str) : lower a = lower b -> same_name a b.
Proof. intros H. exact H. Qed.
Lemma retry_stored h v h' : h_set h (lit "Retry-After") (HStr v) [] = Ok h' ->
  set_effect (lit "Retry-After") v h h' /\ h_getitem h' (lit "retry-after") = Ok v.
Proof.
  intros H. pose proof (h_set_effect _ _ _ _ H) as E. cbn [text] in E. split; [exact E|].
  destruct (set_get _ _ _ _ E) as [G _]. apply getitem_ok. exists [].
  rewrite <- (G (lit "retry-after")); [apply values_of_filter|]. apply same_lower. reflexivity.
Qed.
Lemma zdec_isdigit n : (0 <= n)%Z -> isdigit (zdec n) = true /\ py_int (zdec n) = Some n.
Proof.
  intros Hn. split; [|apply py_int_zdec]. destruct n as [|p|p]; [reflexivity| |lia]. cbn [zdec].
  change (Z.to_N (Zpos p)) with (Npos p). unfold isdigit. pose proof (dec_nonnil (Npos p)) as Hd. pose proof (dec_digits (Npos p)) as Hf.
  destruct (dec (Npos p)) as [|c s]; [contradiction|].
  apply forallb_forall. rewrite forallb_forall in Hf. intros x Hx. apply Hf in Hx. unfold is_digit_c. rewrite Hx. reflexivity.
Qed.
Lemma retry_seconds now h n : real_date now -> (0 <= n)%Z ->
  exists h' r, set_retry_after h (RSeconds n) = (h', None) /\ set_effect (lit "Retry-After") (zdec n) h h' /\
    seen_from_utc now (- n) r /\
    get_retry_after now h' = match r with Some d => Ok (Some d) | None => Raise (OtherError 7) end.
Proof.
  intros R Hn. unfold set_retry_after. destruct (h_set_one_line h (lit "Retry-After") (HStr (zdec n)) (zdec_one_line n)) as [h' E].
  rewrite E. cbn [keep]. destruct (retry_stored _ _ _ E) as [S G]. destruct (zdec_isdigit n Hn) as [D I].
  exists h', (minus_seconds now (- n)). split; [reflexivity|]. split; [exact S|]. split; [apply minus_spec, R|].
  unfold get_retry_after. rewrite G, D, I. destruct (minus_seconds now (- n)); reflexivity.
Qed.
Lemma rfc_not_digit n d z : isdigit (rfc1123 n d z) = false.
Proof.
  unfold rfc1123. assert (H : exists c r, short_day n = c :: r /\ is_digit_c c = false).
  { unfold short_day. destruct (seven n) as (k & -> & Hk). rewrite Nat2Z.id.
    do 7 (destruct k as [|k]; [cbn [nth]; eexists; eexists; split; [reflexivity|reflexivity]|]). lia. }
  destruct H as (c & r & -> & Hc). cbn [List.app isdigit]. unfold isdigit. cbn [forallb]. rewrite Hc. reflexivity.
Qed.
Lemma retry_date now h d : real_date d -> (100 <= dt_year d)%Z ->
  exists h' n, nth_day (dt_year d) (dt_month d) (dt_day d) n /\
    set_retry_after h (RDate d) = (h', None) /\ set_effect (lit "Retry-After") (rfc1123 n d (lit "GMT")) h h' /\
    get_retry_after now h' = Ok (Some d).
Proof.
  intros R Hy. destruct (real_day d R) as [n Hn]. destruct (date_text_spec d n R Hn) as [E _].
  unfold set_retry_after. cbn [http_date dump_date]. unfold http_date, dump_date. rewrite E.
  destruct (h_set_one_line h (lit "Retry-After") (HStr (rfc1123 n d (lit "GMT"))) (rfc_one_line d n R)) as [h' Eh].
  rewrite Eh. cbn [keep]. destruct (retry_stored _ _ _ Eh) as [S G]. exists h', n. split; [exact Hn|].
  split; [reflexivity|]. split; [exact S|]. unfold get_retry_after. rewrite G, rfc_not_digit.
  rewrite (parse_rfc1123 n d _ _ R Hy gmt_zero), (minus_zero d R). reflexivity.
Qed.
Lemma retry_none now h h' : set_retry_after h RNone = (h', None) -> without (lit "retry-after") h h' /\ get_retry_after now h' = Ok None.
Proof.
  unfold set_retry_after. intros H. assert (W : without (lit "retry-after") h h').
  { destruct (h_getitem h (lit "retry-after")) as [v|e] eqn:E.
    - cbn [keep] in H. assert (h_remove h (lit "retry-after") = h') as <- by congruence. apply without_filter.
    - assert (h = h') as <- by congruence. apply absent_without. apply getitem_missing.
      rewrite E. f_equal. clear -E. induction h as [|[k v] h IH]; cbn [h_getitem] in E; [congruence|].
      destruct (same k _); [discriminate E|auto]. }
  split; [exact W|]. unfold get_retry_after.
  assert (A : absent (lit "retry-after") h') by (eapply without_absent; eauto).
  apply getitem_missing in A. rewrite A. reflexivity.
Qed.
Lemma retry_none_total h : exists h', set_retry_after h RNone = (h', None).
Proof. unfold set_retry_after. destruct (h_getitem h (lit "retry-after")); cbn [keep]; eauto. Qed.
Lemma isdigit_int v : isdigit v = true ->
  (forallb is_ascii_digit v = true /\ py_int v = Some (Z.of_N (digits_val v))) \/
  (exists c, In c v /\ is_ascii_digit c = false).
Proof.
  intros H. destruct (forallb is_ascii_digit v) eqn:E.
  - left. split; [reflexivity|]. apply digits_int. split; [|exact E]. intros ->. discriminate H.
  - right. assert (N : ~ (forall c, In c v -> is_ascii_digit c = true)) by (rewrite <- forallb_forall, E; discriminate).
    clear -N. induction v as [|c v IH]; [destruct N; intros c []|]. destruct (is_ascii_digit c) eqn:Ec.
    + destruct IH as (x & Hx & Ex); [|exists x; split; [right|]; assumption]. intros A. apply N. intros x [<-|Hx]; auto.
    + exists c. split; [left; reflexivity|exact Ec].
Qed.
Lemma retry_fails now h e : real_date now -> get_retry_after now h = Raise e ->
  exists v, h_getitem h (lit "retry-after") = Ok v /\
    ((exists c, In c v /\ In c [178; 179; 185]) \/
     (e = OtherError 7 /\ (forall c, In c v -> 48 <= c <= 57) /\
      forall s d, instant now s -> real_date d -> ~ instant d (s + Z.of_N (digits_val v)))).
Proof.
  intros R. unfold get_retry_after. destruct (h_getitem h (lit "retry-after")) as [v|]; [|discriminate].
  destruct (isdigit v) eqn:D.
  - intros H. exists v. split; [reflexivity|]. destruct (isdigit_int v D) as [[F I]|(c & Hc & Ec)].
    + right. rewrite I in H. pose proof (minus_spec now (- Z.of_N (digits_val v)) R) as S.
      destruct (minus_seconds now _); [discriminate H|]. split; [congruence|]. split.
      * rewrite forallb_forall in F. intros c Hc. apply F in Hc. unfold is_ascii_digit, between in Hc. lia.
      * intros s d Hs Hd. specialize (S s Hs d Hd). rewrite Z.sub_opp_r in S. exact S.
    + left. exists c. split; [exact Hc|]. unfold isdigit in D. destruct v as [|x v]; [destruct Hc|].
      rewrite forallb_forall in D. apply D in Hc. unfold is_digit_c in Hc. rewrite Ec in Hc. cbn [orb] in Hc.
      cbn [In]. lia.
  - destruct (parse_date_total (Some v)) as (r & -> & _). discriminate.
Qed.
Lemma age_written h d n : real_date d ->
  nth_day (dt_year d) (dt_month d) (dt_day d) n ->
  exists h', hp_set age_property h (Some d) = (h', None) /\ set_effect (lit "Age") (rfc1123 n d (lit "GMT")) h h'.
Proof.
  intros R Hn. destruct (date_text_spec d n R Hn) as [E _].
  assert (D : p_dump age_property (Some d) = Ok (HStr (rfc1123 n d (lit "GMT")))).
  { cbn [age_property date_property p_dump]. unfold http_date, dump_date. rewrite E. reflexivity. }
  destruct (hp_set_total age_property h (Some d) _ eq_refl D (rfc_one_line d n R)) as [h' H].
  exists h'. split; [exact H|]. apply hp_set_ok in H as (_ & x & D' & S & _). rewrite D in D'.
  assert (HStr (rfc1123 n d (lit "GMT")) = x) as <- by congruence. exact S.
Qed.
Lemma date_width d t : real_date d -> (1000 <= dt_year d)%Z -> http_date (DDatetime d None) = Ok t -> length t = 29%nat.
Proof.
  intros R Hy H. destruct (real_day d R) as [n Hn]. destruct (date_text_spec d n R Hn) as [E _].
  unfold http_date, dump_date in H. rewrite E in H. assert (rfc1123 n d (lit "GMT") = t) as <- by congruence. clear H E.
  assert (Ls : length (short_day n) = 3%nat).
  { unfold short_day. destruct (seven n) as (k & -> & Hk). rewrite Nat2Z.id. do 7 (destruct k as [|k]; [reflexivity|]). lia. }
  assert (Lm : length (month_name (dt_month d)) = 3%nat).
  { destruct (day_range d R) as [_ Hm]. apply month_cases in Hm. repeat (destruct Hm as [->|Hm]); try reflexivity. rewrite Hm. reflexivity. }
  assert (Ly : length (zdec (dt_year d)) = 4%nat).
  { destruct R as [Y _]. pose proof (all_below (100 * 100) (fun z => (z <? 1000)%Z || (length (zdec z) =? 4)%nat) ltac:(vm_compute; reflexivity) (dt_year d) ltac:(lia)) as A.
    cbv beta in A. lia. }
  unfold rfc1123, clock. rewrite !app_length, Ls, Lm, Ly. reflexivity.
Qed.
