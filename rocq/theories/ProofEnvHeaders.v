From Coq Require Import Arith List NArith ZArith Bool Lia ZifyBool ZifyN ZifyNat.
From Verif Require Import PyStr PyStrFacts ModelAuth ModelWsgi SpecWsgi ProofWsgi SpecEnvHeaders.
Import ListNotations.
Open Scope N_scope.

(** Looking up and listing the headers of an environment (wsgi.py:279-321). *)

Lemma as_variable_fun s r : as_variable s r -> r = swap_c 45 95 (upper s).
Proof.
  unfold swap_c, upper. intros H. induction H as [|c d s r H _ IH]; auto. cbn [map]. rewrite <- IH. f_equal.
  unfold upper_c, is_ascii_lower, between. destruct H as [[H ->]|[[-> ->]|(A & B & ->)]].
  - replace (97 <=? c) with true by lia. replace (c <=? 122) with true by lia. cbn.
    destruct (N.eqb_spec (c - 32) 45); lia.
  - reflexivity.
  - destruct (N.leb_spec 97 c), (N.leb_spec c 122); cbn; try lia; destruct (N.eqb_spec c 45); lia.
Qed.
Lemma as_variable_ex s : as_variable s (swap_c 45 95 (upper s)).
Proof.
  unfold swap_c, upper. induction s as [|c s IH]; [constructor|]. cbn [map]. constructor; [|exact IH].
  unfold var_char, upper_c, is_ascii_lower, between.
  destruct (N.leb_spec 97 c), (N.leb_spec c 122); cbn;
    match goal with |- context [?x =? 45] => destruct (N.eqb_spec x 45) end; lia.
Qed.

Lemma variable_key s k : variable_of s k <->
  k = (let key := swap_c 45 95 (upper s) in if is_content_key key then key else lit "HTTP_" ++ key).
Proof.
  cbv zeta. split.
  - intros (r & A & H). apply as_variable_fun in A. subst r.
    destruct (is_content_key _) eqn:E.
    + apply is_content_spec in E. destruct H as [[_ ->]|[H ->]]; auto. tauto.
    + destruct H as [[H ->]|[_ ->]]; auto. apply is_content_spec in H. congruence.
  - intros ->. exists (swap_c 45 95 (upper s)). split; [apply as_variable_ex|].
    destruct (is_content_key _) eqn:E.
    + left. split; auto. apply is_content_spec, E.
    + right. split; auto. intros H. apply is_content_spec in H. congruence.
Qed.

Lemma env_getitem_exact : forall environ n v, NoDup (map fst environ) ->
  env_getitem environ n = Ok v <-> exists k, variable_of n k /\ In (k, v) environ.
Proof.
  intros environ n v D. unfold env_getitem. cbv zeta. split.
  - intros H. destruct (dget environ _) as [w|] eqn:E; [|discriminate]. injection H as ->.
    eexists. split; [apply variable_key; reflexivity|]. eapply dget_In, E.
  - intros (k & Hk & Hi). apply variable_key in Hk. cbv zeta in Hk. subst k. rewrite (dget_in _ _ v); auto.
Qed.
Lemma env_getitem_missing : forall environ n,
  (forall k v, variable_of n k -> ~ In (k, v) environ) <-> env_getitem environ n = Raise KeyError.
Proof.
  intros environ n. unfold env_getitem. cbv zeta. split.
  - intros H. destruct (dget environ _) as [w|] eqn:E; auto. exfalso.
    eapply H; [apply variable_key; reflexivity|]. eapply dget_In, E.
  - intros H k v Hk Hi. apply variable_key in Hk. cbv zeta in Hk. subst k.
    destruct (dget environ _) as [w|] eqn:E; [discriminate|].
    clear H. revert E Hi. generalize (if is_content_key (swap_c 45 95 (upper n)) then swap_c 45 95 (upper n) else lit "HTTP_" ++ swap_c 45 95 (upper n)) as k.
    intros k E Hi. revert E. induction environ as [|[k' v'] d IH]; [destruct Hi|]. cbn. destruct (eqs k k') eqn:E; [discriminate|].
    destruct Hi as [[= -> ->]|Hi]; [rewrite eqs_refl in E; discriminate|]. apply IH, Hi.
Qed.

Lemma env_iter_intro environ k v n : In (k, v) environ -> env_header k = Some n -> In (n, v) (env_iter environ).
Proof.
  intros H Hn. induction environ as [|[k' w] rest IH]; [destruct H|]. cbn [env_iter].
  destruct H as [[= -> ->]|H].
  - rewrite Hn. left. auto.
  - destruct (env_header k'); [right|]; auto.
Qed.

Lemma swap_back s : swap_c 45 95 (upper (swap_c 95 45 s)) = swap_c 45 95 (upper s).
Proof.
  unfold swap_c, upper. rewrite !map_map. apply map_ext. intros c. destruct (N.eqb_spec c 95) as [->|]; reflexivity.
Qed.
Lemma swap_twice s : swap_c 45 95 (upper (swap_c 45 95 (upper s))) = swap_c 45 95 (upper s).
Proof.
  unfold swap_c, upper. rewrite !map_map. apply map_ext. intros c.
  assert (U : forall x, ~ 97 <= x <= 122 -> upper_c x = x).
  { intros x Hx. unfold upper_c, is_ascii_lower, between. destruct (N.leb_spec 97 x), (N.leb_spec x 122); cbn; lia. }
  assert (V : ~ 97 <= upper_c c <= 122).
  { unfold upper_c, is_ascii_lower, between. destruct (N.leb_spec 97 c), (N.leb_spec c 122); cbn; lia. }
  destruct (N.eqb_spec (upper_c c) 45) as [E|E].
  - reflexivity.
  - rewrite (U _ V). destruct (N.eqb_spec (upper_c c) 45); [contradiction|reflexivity].
Qed.

Lemma env_found_listed : forall environ n v, env_getitem environ n = Ok v ->
  exists m r, In (m, v) (env_iter environ) /\ as_variable n r /\ as_variable m r.
Proof.
  intros environ n v H. unfold env_getitem in H. cbv zeta in H.
  set (key := swap_c 45 95 (upper n)) in *.
  destruct (dget environ _) as [w|] eqn:E; [|discriminate]. injection H as ->. apply dget_In in E.
  assert (K : swap_c 45 95 (upper (title false (swap_c 95 45 key))) = key).
  { rewrite upper_title, swap_back. apply swap_twice. }
  exists (title false (swap_c 95 45 key)), key. repeat split.
  - eapply env_iter_intro; [exact E|]. unfold env_header. destruct (is_content_key key) eqn:C.
    + replace (starts (lit "HTTP_") key) with false; [cbn [andb]; rewrite C; reflexivity|].
      apply is_content_spec in C. destruct C as [-> | ->]; reflexivity.
    + replace (starts (lit "HTTP_") (lit "HTTP_" ++ key)) with true by (symmetry; apply starts_spec; eauto).
      destruct (existsb (eqs (lit "HTTP_" ++ key)) [lit "HTTP_CONTENT_TYPE"; lit "HTTP_CONTENT_LENGTH"]) eqn:X; [|reflexivity].
      exfalso. cbn [existsb] in X.
      assert (key = lit "CONTENT_TYPE" \/ key = lit "CONTENT_LENGTH") as Y.
      { rewrite !orb_true_iff, !eqs_eq in X. destruct X as [X|[X|X]]; [left|right|discriminate].
        - change (lit "HTTP_CONTENT_TYPE") with (lit "HTTP_" ++ lit "CONTENT_TYPE") in X. apply app_inv_head in X. auto.
        - change (lit "HTTP_CONTENT_LENGTH") with (lit "HTTP_" ++ lit "CONTENT_LENGTH") in X. apply app_inv_head in X. auto. }
      apply is_content_spec in Y. congruence.
  - apply as_variable_ex.
  - pose proof (as_variable_ex (title false (swap_c 95 45 key))) as A. rewrite K in A. exact A.
Qed.

(** Which listed headers are found under the name they are listed with. *)
Lemma env_listed_found : forall environ k v n, NoDup (map fst environ) -> In (k, v) environ -> env_header k = Some n ->
  no_small k -> env_getitem environ n = Ok v.
Proof.
  intros environ k v n D H E S. apply env_getitem_exact; auto. exists k. split; auto. apply variable_key. cbv zeta.
  assert (Z : forall s, (forall c, In c s -> In c k) -> swap_c 45 95 (upper (swap_c 95 45 s)) = s).
  { intros s I. rewrite swap_back. unfold swap_c, upper. rewrite map_map, <- map_id. apply map_ext_in.
    intros c Hc. destruct (S c (I c Hc)) as [A B]. unfold upper_c, is_ascii_lower, between.
    destruct (N.leb_spec 97 c), (N.leb_spec c 122); cbn; try lia; destruct (N.eqb_spec c 45); lia. }
  unfold env_header in E. destruct (starts (lit "HTTP_") k && _) eqn:X.
  - apply andb_true_iff in X. destruct X as [E1 E2]. apply starts_spec in E1. destruct E1 as [r ->].
    assert (n = title false (swap_c 95 45 r)) as -> by (injection E as <-; reflexivity).
    rewrite upper_title, Z by (intros c Hc; apply in_app_iff; auto).
    replace (is_content_key r) with false; auto. symmetry. destruct (is_content_key r) eqn:Er; auto.
    apply is_content_spec in Er. destruct Er as [-> | ->]; discriminate E2.
  - destruct (is_content_key k) eqn:Ek; [|discriminate].
    assert (n = title false (swap_c 95 45 k)) as -> by congruence. rewrite upper_title, Z by auto. rewrite Ek. auto.
Qed.
Lemma env_lost : forall environ k v n, NoDup (map fst environ) -> In (k, v) environ -> env_header k = Some n ->
  ~ no_small k -> forall w, env_getitem environ n = Ok w -> exists k', k' <> k /\ In (k', w) environ.
Proof.
  intros environ k v n D H E S w G. apply env_getitem_exact in G; auto. destruct G as (k' & V & I).
  exists k'. split; auto. intros ->. apply S. destruct V as (r & A & [[[-> | ->] ->]|[_ ->]]).
  - intros c Hc. cbn in Hc. repeat (destruct Hc as [<-|Hc]; [lia|]). destruct Hc.
  - intros c Hc. cbn in Hc. repeat (destruct Hc as [<-|Hc]; [lia|]). destruct Hc.
  - intros c Hc. apply in_app_iff in Hc. destruct Hc as [Hc|Hc].
    + cbn in Hc. repeat (destruct Hc as [<-|Hc]; [lia|]). destruct Hc.
    + clear -A Hc. induction A as [|x y s t X A IH]; [destruct Hc|]. destruct Hc as [<-|Hc]; auto.
      unfold var_char in X. lia.
Qed.
