(** * Lemmas about the texts of HTTP errors *)
From Coq Require Import Arith List NArith ZArith Bool Lia ZifyBool ZifyN ZifyNat.
From Verif Require Import PyStr PyStrFacts ModelHeaders ModelResponse SpecResponse ModelUtils ModelErrorText.
Import ListNotations.
Open Scope N_scope.

Lemma first_sep (c : N) a : forall a' b b', ~ In c a -> ~ In c a' -> a ++ c :: b = a' ++ c :: b' -> a = a' /\ b = b'.
Proof.
  induction a as [|x a IH]; intros [|y a'] b b' H H' E; cbn in E; injection E; intros; subst.
  - auto.
  - exfalso. apply H'. left. reflexivity.
  - exfalso. apply H. left. reflexivity.
  - destruct (IH a' b b') as [E1 E2]; [intro; apply H; right; assumption|intro; apply H'; right; assumption|assumption|]. subst. auto.
Qed.
Lemma zdec_chars z c : In c (zdec z) -> c = 45 \/ 48 <= c <= 57.
Proof.
  assert (D : forall n, In c (dec n) -> 48 <= c <= 57).
  { intros n H. pose proof (dec_digits n) as F. rewrite forallb_forall in F. apply F in H. unfold is_ascii_digit in H. apply andb_prop in H as [H1 H2]. apply N.leb_le in H1, H2. auto. }
  unfold zdec. destruct z; intros H; [right; eapply D; exact H|right; eapply D; exact H|].
  destruct H as [H|H]; [left; auto|right; eapply D; exact H].
Qed.
Lemma zdec_inj a b : zdec a = zdec b -> a = b.
Proof.
  assert (D : forall n r, dec n = 45 :: r -> False).
  { intros n r H. pose proof (dec_digits n) as F. rewrite H in F. cbn in F. discriminate. }
  unfold zdec. destruct a as [|a|a], b as [|b|b]; intros H;
    try (exfalso; eapply D; first [exact H|symmetry; exact H]);
    [..|injection H as H]; apply dec_inj in H; lia.
Qed.
Lemma text_shape c s : e_str c = Ok s -> exists z, k_code c = Some z /\ s = zdec z ++ lit ": " ++ e_name (Some z).
Proof. unfold e_str. destruct (k_code c) as [z|]; intros H; [injection H as <-|discriminate]. eauto. Qed.
Lemma text_same c1 c2 s : e_str c1 = Ok s -> e_str c2 = Ok s -> k_code c1 = k_code c2.
Proof.
  intros H1 H2. apply text_shape in H1 as (z1 & K1 & ->). apply text_shape in H2 as (z2 & K2 & E).
  change (lit ": ") with [58; 32] in E. cbn [app] in E.
  apply first_sep in E as [E _]; [apply zdec_inj in E; subst; congruence| |];
    intros H; apply zdec_chars in H; lia.
Qed.
Lemma repr_same c1 c2 s : ~ In 32 (k_name c1) -> ~ In 32 (k_name c2) ->
  e_repr c1 = Ok s -> e_repr c2 = Ok s -> k_name c1 = k_name c2 /\ k_code c1 = k_code c2.
Proof.
  intros N1 N2. unfold e_repr. destruct (e_str c1) as [s1|] eqn:E1; [|discriminate].
  destruct (e_str c2) as [s2|] eqn:E2; [|discriminate]. cbn [bind]. intros H1 H2.
  injection H1 as <-. injection H2 as H2.
  apply first_sep in H2 as [Hn H2]; [|assumption|assumption].
  injection H2 as H2. apply app_inv_tail in H2. subst s2. split; [congruence|]. eapply text_same; eassumption.
Qed.
Lemma text_standard z c : k_code c = Some z ->
  exists name, e_str c = Ok (zdec z ++ lit ": " ++ name) /\
    (forall line, In (z, line) standard_lines -> line = zdec z ++ 32 :: upper name) /\
    ((forall line, ~ In (z, line) standard_lines) -> name = lit "Unknown Error").
Proof.
  intros K. exists (e_name (Some z)). unfold e_str. rewrite K. split; [reflexivity|]. split.
  - intros line H. revert H. unfold standard_lines. cbn [In].
    intros H. repeat (destruct H as [H|H]; [injection H as <- <-; vm_compute; reflexivity|]). destruct H.
  - intros H. unfold e_name, phrase. destruct (find _ http_status_codes) as [[c0 p]|] eqn:E; [|reflexivity].
    exfalso. apply find_some in E as [E1 E2]. cbn [fst] in E2. apply Z.eqb_eq in E2. subst c0.
    assert (M : map fst http_status_codes = map fst standard_lines) by (vm_compute; reflexivity).
    apply (in_map fst) in E1. rewrite M in E1. apply in_map_iff in E1 as ([c0 l] & E3 & E4). cbn [fst] in E3. subst c0. exact (H l E4).
Qed.
