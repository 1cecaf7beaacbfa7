(** C114: the attributes and the comparison of acceptabilities. *)
From Coq Require Import List NArith ZArith QArith Bool Lia Lqa.
From Verif Require Import PyStr PyStrFacts ModelAccept SpecAccept ProofAccept ModelCompare SpecCompare.
Import ListNotations.
Open Scope N_scope.
Ltac inv H := inversion H; subst; clear H.

(** Media types: the attributes say which parts of the range were the parts of the type,
    and an exact match is a range that is the type. *)
Theorem C114_media : forall v o a t s ot os, media_text (v_text v) t s -> media_text (rg_value o) ot os -> content_type_option v o = Ok a ->
  (type_matches a = true <-> ot = t) /\ (subtype_matches a = true <-> os = s) /\ (content_type_exact a = true <-> rg_value o = v_text v).
Proof.
  intros v o a t s ot os Hv Ho. unfold content_type_option.
  rewrite (proj2 (two_parts_ok _ _ _) Ho), (proj2 (two_parts_ok _ _ _) Hv). cbn [bind fst snd].
  destruct (eqs ot t) eqn:E1; [apply eqs_eq in E1; subst ot|apply eqs_false in E1; destruct (eqs ot star); [|discriminate]]; cbn [bind];
  (destruct (eqs os s) eqn:E2; [apply eqs_eq in E2; subst os|apply eqs_false in E2; destruct (eqs os star); [|discriminate]]; cbn [bind]; intros H; inv H);
  unfold content_type_exact, type_matches, subtype_matches; cbn; destruct Hv as (Ev & V1 & V2), Ho as (Eo & O1 & O2); rewrite Ev, Eo;
  (split; [|split]); split; intros H; try discriminate; try contradiction; auto; exfalso;
    destruct (slashed_inj _ _ _ _ O1 O2 V1 V2 H); contradiction.
Qed.
Print Assumptions C114_media.
Example C114_media_example : exists a, content_type_option (mk_value (lit "text/html") None) (mk_range (lit "text/*") f_one []) = Ok a
  /\ type_matches a = true /\ subtype_matches a = false /\ content_type_exact a = false /\ media_text (lit "text/*") (lit "text") (lit "*").
Proof. eexists. split; [reflexivity|]. repeat split; cbn; intuition discriminate. Qed.

Lemma parts_split s : Z.of_nat (length (split_on 45 s)) = parts s.
Proof.
  induction s as [|c s IH]; auto. cbn [split_on parts]. destruct (c =? 45) eqn:E.
  - cbn [length]. rewrite <- IH. lia.
  - pose proof (split_on_ne 45 s). destruct (split_on 45 s); [contradiction|]. cbn [length] in *. lia.
Qed.
Lemma parts_pos s : (1 <= parts s)%Z.
Proof. induction s as [|c s IH]; cbn [parts]; [lia|]. destruct (c =? 45); lia. Qed.
Lemma parts_app s r : parts (s ++ 45 :: r) = (parts s + parts r)%Z.
Proof. induction s as [|c s IH]; cbn [app parts]; [rewrite N.eqb_refl; lia|]. rewrite IH. lia. Qed.

(** Languages: the parts of the tag are those the range names and the tail, and an exact
    match is a range that is the tag. *)
Theorem C114_language : forall v o a, language_option v o = Ok a ->
  (specificity a + tail a)%Z = parts (v_text v) /\ (rg_value o <> star -> specificity a = parts (rg_value o)) /\ (rg_value o = star -> ~ In 42 (v_text v) -> specificity a = 0%Z)
  /\ (language_exact a = true <-> rg_value o = v_text v).
Proof.
  intros v o a. unfold language_option, subtags, specificity, language_exact, tail. rewrite !parts_split.
  destruct (eqs (v_text v) (rg_value o)) eqn:E1.
  - apply eqs_eq in E1. cbn [bind]. intros H. inv H. cbn. rewrite E1. split; [lia|]. split; [auto|]. split; [|split; auto]. intros S N. rewrite S in N. destruct N. left. reflexivity.
  - apply eqs_false in E1. destruct (starts (rg_value o ++ [45]) (v_text v)) eqn:E2.
    + apply starts_spec in E2 as (r & E2). cbn [bind]. intros H. inv H. cbn.
      pose proof (parts_app (rg_value o) r) as P. rewrite <- app_assoc in E2. cbn [app] in E2. rewrite <- E2 in P. pose proof (parts_pos r).
      split; [lia|]. split; [auto|]. split.
      * intros S N. destruct N. rewrite E2, S. left. reflexivity.
      * split; intros X; [apply Z.eqb_eq in X; lia|congruence].
    + destruct (eqs (rg_value o) star) eqn:E3; [|discriminate]. cbn [bind]. intros H. inv H. cbn. apply eqs_eq in E3. pose proof (parts_pos (v_text v)).
      repeat split; try lia; try contradiction; try (intros X; apply Z.eqb_eq in X; lia); try congruence.
Qed.
Print Assumptions C114_language.
Example C114_language_example : exists a, language_option (mk_value (lit "de-AT-1996") None) (mk_range (lit "de-AT") f_one []) = Ok a
  /\ specificity a = 2%Z /\ tail a = 1%Z /\ language_exact a = false.
Proof. eexists. split; [vm_compute; reflexivity|]. repeat split. Qed.
(** Character sets: exact unless the range is the star. *)
Theorem C114_charset : forall v o a, charset_option v o = Ok a -> (charset_exact a = true <-> rg_value o <> star) /\ (charset_exact a = true -> rg_value o = v_text v).
Proof.
  intros v o a. unfold charset_option, charset_exact. destruct (eqs (rg_value o) star) eqn:E1.
  - cbn [bind]. intros H. inv H. apply eqs_eq in E1. cbn. split; [split; [discriminate|contradiction]|discriminate].
  - apply eqs_false in E1. destruct (eqs (v_text v) (rg_value o)) eqn:E2; [|discriminate]. cbn [bind]. intros H. inv H. apply eqs_eq in E2. cbn. split; [split; auto|auto].
Qed.
Print Assumptions C114_charset.

(** ** Comparison *)
Lemma gt_spec fmul a b p q : number_of fmul a p -> number_of fmul b q -> (acc_gt fmul a b = true <-> closer a b \/ (q < p)%Q).
Proof.
  intros Hp Hq. unfold acc_gt, match_gt, closer. rewrite Hp, Hq. cbn [flt]. rewrite orb_true_iff, orb_true_iff, andb_true_iff, !Z.ltb_lt, Z.eqb_eq, negb_true_iff, qle_false. tauto.
Qed.
Lemma eq_spec fmul a b p q : number_of fmul a p -> number_of fmul b q -> (acc_eq fmul a b = true <-> as_close a b /\ (p == q)%Q).
Proof.
  intros Hp Hq. unfold acc_eq, match_eq, as_close. rewrite Hp, Hq. cbn [feq]. rewrite !andb_true_iff, !Z.eqb_eq, Qeq_bool_iff. destruct (a_match a), (a_match b). cbn.
  split; [intros [[-> ->] E]; auto|intros [E E']; inv E; auto].
Qed.
Lemma three a b : closer a b \/ as_close a b \/ closer b a.
Proof.
  unfold closer, as_close. destruct (a_match a) as [x y], (a_match b) as [x' y']. cbn.
  destruct (Z.lt_trichotomy x x') as [?|[->|?]]; [tauto| |tauto]. destruct (Z.lt_trichotomy y y') as [?|[->|?]]; auto.
Qed.
Lemma closer_irr a b : closer a b -> ~ closer b a /\ ~ as_close a b.
Proof. unfold closer, as_close. destruct (a_match a) as [x y], (a_match b) as [x' y']. cbn. intros H. split; [lia|]. intros E. inv E. lia. Qed.

(** For acceptabilities whose quality is a number: [a > b] says that [a] is the closer match
    or of higher quality, [a == b] that both are the same, and of each pair exactly one of
    [a < b], [a == b], [a > b] is true, with [<=] and [>=] to match. *)
Theorem C114_operators : forall fmul a b p q, number_of fmul a p -> number_of fmul b q ->
  (acc_gt fmul a b = true <-> closer a b \/ (q < p)%Q)
  /\ (acc_eq fmul a b = true <-> as_close a b /\ (p == q)%Q)
  /\ (acc_lt fmul a b = true <-> (as_close a b \/ closer b a) /\ (p <= q)%Q /\ ~ (as_close a b /\ (p == q)%Q))
  /\ acc_ge fmul a b = acc_gt fmul a b || acc_eq fmul a b
  /\ acc_le fmul a b = acc_lt fmul a b || acc_eq fmul a b
  /\ (acc_gt fmul a b = true -> acc_eq fmul a b = false /\ acc_lt fmul a b = false)
  /\ (acc_eq fmul a b = true -> acc_lt fmul a b = false)
  /\ (acc_gt fmul a b = false -> acc_eq fmul a b = false -> acc_lt fmul a b = true).
Proof.
  intros fmul a b p q Hp Hq. pose proof (gt_spec fmul a b p q Hp Hq) as G. pose proof (eq_spec fmul a b p q Hp Hq) as E.
  assert (X : acc_gt fmul a b = true -> acc_eq fmul a b = false).
  { intros K. destruct (acc_eq fmul a b); auto. destruct (proj1 E eq_refl) as [C Q]. apply G in K as [K|K]; [destruct (closer_irr _ _ K); contradiction|lra]. }
  split; [exact G|]. split; [exact E|]. split.
  { unfold acc_lt. rewrite andb_true_iff, !negb_true_iff. split.
    - intros [K1 K2]. assert (NG : ~ (closer a b \/ (q < p)%Q)) by (intros Y; apply G in Y; congruence).
      assert (NE : ~ (as_close a b /\ (p == q)%Q)) by (intros Y; apply E in Y; congruence).
      split; [destruct (three a b) as [Y|Y]; tauto|]. split; [|exact NE]. destruct (Qlt_le_dec q p); tauto.
    - intros (K1 & K2 & K3). split.
      + destruct (acc_gt fmul a b); auto. destruct (proj1 G eq_refl) as [Y|Y]; [|lra]. destruct (closer_irr _ _ Y). tauto.
      + destruct (acc_eq fmul a b); auto. destruct K3. apply E. reflexivity. }
  split; [reflexivity|]. unfold acc_le, acc_lt. split; [|split; [|split]].
  - destruct (acc_gt fmul a b) eqn:K; [rewrite X; auto|]. destruct (acc_eq fmul a b); reflexivity.
  - intros K. rewrite K, X; auto.
  - intros K. rewrite K. apply andb_false_r.
  - intros -> ->. reflexivity.
Qed.
Print Assumptions C114_operators.
(** Where the closer match is never of lower quality, it is an order: [a < b] and [b > a]
    are the same, and [a > b] and [b > c] give [a > c].  Missing: other pairs. *)
Theorem C114_converse_partial : forall fmul a b p q, number_of fmul a p -> number_of fmul b q -> agreeing fmul a b ->
  acc_lt fmul a b = acc_gt fmul b a /\ ~ (acc_gt fmul a b = true /\ acc_gt fmul b a = true).
Proof.
  intros fmul a b p q Hp Hq A. destruct (A p q Hp Hq) as [A1 A2]. pose proof (gt_spec fmul a b p q Hp Hq) as G. pose proof (gt_spec fmul b a q p Hq Hp) as G'.
  destruct (C114_operators fmul a b p q Hp Hq) as (_ & _ & L & _).
  assert (S : as_close b a <-> as_close a b) by (unfold as_close; split; congruence).
  split.
  - destruct (acc_gt fmul b a) eqn:K.
    + apply L. destruct (proj1 G' eq_refl) as [Y|Y].
      * split; auto. split; [auto|]. intros [C _]. destruct (closer_irr _ _ Y). tauto.
      * split; [|split; [lra|lra]]. destruct (three a b) as [Z|[Z|Z]]; auto. apply A1 in Z. lra.
    + destruct (acc_lt fmul a b) eqn:K'; auto. destruct (proj1 L eq_refl) as (Y1 & Y2 & Y3). assert (NG : ~ (closer b a \/ (p < q)%Q)) by (intros Z; apply G' in Z; congruence).
      exfalso. destruct Y1 as [Y1|Y1]; [|tauto]. apply Y3. split; auto. destruct (Qlt_le_dec p q); [tauto|lra].
  - intros [K1 K2]. apply G in K1. apply G' in K2. destruct K1 as [K1|K1], K2 as [K2|K2]; [destruct (closer_irr _ _ K1); contradiction| | |lra].
    + apply A1 in K1. lra.
    + apply A2 in K2. lra.
Qed.
Print Assumptions C114_converse_partial.
Theorem C114_transitive_partial : forall fmul a b c p q r, number_of fmul a p -> number_of fmul b q -> number_of fmul c r ->
  agreeing fmul a b -> agreeing fmul b c -> acc_gt fmul a b = true -> acc_gt fmul b c = true -> acc_gt fmul a c = true.
Proof.
  intros fmul a b c p q r Hp Hq Hr A B K1 K2. destruct (A p q Hp Hq) as [A1 A2]. destruct (B q r Hq Hr) as [B1 B2].
  apply (gt_spec fmul a b p q Hp Hq) in K1. apply (gt_spec fmul b c q r Hq Hr) in K2. apply (gt_spec fmul a c p r Hp Hr).
  assert (AB : (q <= p)%Q). { destruct K1 as [K1|K1]; [auto|lra]. }
  assert (BC : (r <= q)%Q). { destruct K2 as [K2|K2]; [auto|lra]. }
  destruct K1 as [K1|K1]; [|right; lra]. destruct K2 as [K2|K2]; [|right; lra]. left. unfold closer in *. lia.
Qed.
Print Assumptions C114_transitive_partial.
Definition ex_acc (m n : Z) (q : Q) : acc := mk_acc (m, n) (Fin q) None.
Example C114_example : let a := ex_acc 1 1 (9#10) in let b := ex_acc 1 0 (1#2) in
  number_of (fun x _ => x) a (9#10) /\ number_of (fun x _ => x) b (1#2) /\ agreeing (fun x _ => x) a b
  /\ acc_gt (fun x _ => x) a b = true /\ acc_lt (fun x _ => x) b a = true /\ acc_ge (fun x _ => x) b a = false.
Proof.
  cbv zeta. split; [reflexivity|]. split; [reflexivity|]. split; [|vm_compute; auto]. intros p q Hp Hq. inv Hp. inv Hq. unfold closer. cbn. split; [lra|lia].
Qed.
(** Refuted: otherwise each of two can be greater than the other: text/html against
    [text/html;q=0.1] and against [text/*;q=0.5]. *)
Theorem C114_order_refuted : exists a b, content_type_option (mk_value (lit "text/html") None) (mk_range (lit "text/html") (Fin (1#10)) []) = Ok a
  /\ content_type_option (mk_value (lit "text/html") None) (mk_range (lit "text/*") (Fin (1#2)) []) = Ok b
  /\ acc_gt (fun x _ => x) a b = true /\ acc_gt (fun x _ => x) b a = true /\ acc_lt (fun x _ => x) a b = false /\ acc_ge (fun x _ => x) b a = true.
Proof. exists (ex_acc 1 1 (1#10)), (ex_acc 1 0 (1#2)). vm_compute. auto 10. Qed.
Print Assumptions C114_order_refuted.
(** Refuted: with a quality that is not a number nothing equals itself. *)
Theorem C114_nan_refuted : acc_eq (fun x _ => x) (mk_acc (1%Z, 1%Z) NaN None) (mk_acc (1%Z, 1%Z) NaN None) = false.
Proof. reflexivity. Qed.
Print Assumptions C114_nan_refuted.
