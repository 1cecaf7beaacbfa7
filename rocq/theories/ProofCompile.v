(** Proofs about binding a route to a map. *)
From Coq Require Import List NArith Bool Lia.
From Verif Require Import PyStr PyStrFacts ModelRoute SpecRoute ModelUrlMap SpecCompile.
Import ListNotations.
Open Scope N_scope.
Ltac inv H := inversion H; subst; clear H.

Lemma repeats_spec l : repeats l = false <-> NoDup l.
Proof.
  induction l as [|c t IH]; cbn [repeats]; [split; [constructor|auto]|]. rewrite orb_false_iff, IH. split.
  - intros [H D]. constructor; auto. intros Hc. assert (X : existsb (eqs c) t = true); [|congruence].
    apply existsb_exists. exists c. split; [auto|apply eqs_refl].
  - intros H. inv H. split; auto. destruct (existsb (eqs c) t) eqn:E; auto. exfalso. apply existsb_exists in E as (x & Hx & E).
    apply eqs_eq in E. subst. auto.
Qed.
Lemma domain_unique g s t : domain_text g s t ->
  (if g_host_matching g then match s_host s with Some h => h | None => [] end
   else match s_subdomain s with Some x => x | None => g_default_subdomain g end) = t.
Proof. unfold domain_text. destruct (g_host_matching g), (s_host s), (s_subdomain s); auto. Qed.
Lemma repeat_slashes n : forallb is_slash (repeat 47 n) = true.
Proof. induction n; cbn; auto. Qed.
Lemma slashes_repeat a : forallb is_slash a = true -> a = repeat 47 (length a).
Proof. induction a as [|c a IH]; cbn; auto. rewrite andb_true_iff. intros [H K]. apply N.eqb_eq in H. subst. f_equal. auto. Qed.
Lemma path_unique s t : path_text s t <-> (if s_leaf s then s_string s else rstrip_by is_slash (s_string s)) = t.
Proof.
  unfold path_text. destruct (s_leaf s); [split; congruence|]. split.
  - intros (n & -> & H). rewrite rstrip_by_app by apply repeat_slashes. apply rstrip_by_id. intros c r E.
    destruct (is_slash c) eqn:K; auto. exfalso. apply N.eqb_eq in K. subst c. eapply H; eauto.
  - intros <-. destruct (rstrip_by_spec is_slash (s_string s)) as (a & E & Ha & Hr). exists (length a). split.
    + rewrite <- slashes_repeat by auto. exact E.
    + intros t' K. apply Hr in K. discriminate.
Qed.
Lemma pieces_spec mk ps : match make_pieces mk ps with
  | Ok qs => Forall2 (piece_for mk) ps qs
  | Raise e => exists conv args v, In (Dynamic conv args v) ps /\ mk conv args = Raise e
  end.
Proof.
  induction ps as [|[s|conv args v] ps IH]; cbn [make_pieces bind]; [constructor| |].
  - destruct (make_pieces mk ps) as [qs|e]; cbn [bind].
    + constructor; auto. reflexivity.
    + destruct IH as (c & a & v & H & K). exists c, a, v. split; [right; auto|auto].
  - destruct (mk conv args) as [c|e] eqn:E; cbn [bind].
    + destruct (make_pieces mk ps) as [qs|e]; cbn [bind].
      * constructor; auto. split; auto.
      * destruct IH as (c' & a & v' & H & K). exists c', a, v'. split; [right; auto|auto].
    + exists conv, args, v. split; [left; auto|auto].
Qed.
Lemma pieces_fun mk ps : forall qs, Forall2 (piece_for mk) ps qs -> make_pieces mk ps = Ok qs.
Proof.
  induction ps as [|p ps IH]; intros qs H; inv H; auto. apply IH in H4. destruct p as [s|conv args v], y as [s'|v' c]; cbn in H2; try contradiction.
  - subst. cbn [make_pieces]. rewrite H4. auto.
  - destruct H2 as [-> E]. cbn [make_pieces]. rewrite E, H4. auto.
Qed.
Lemma pieces_names mk ps qs : Forall2 (piece_for mk) ps qs -> map fst (piece_vars qs) = raw_vars ps.
Proof.
  unfold piece_vars, raw_vars. induction 1 as [|p q ps qs H _ IH]; auto. cbn [flat_map]. rewrite map_app, IH.
  destruct p as [s|conv args v], q as [s'|v' c]; cbn in H; try contradiction; auto. destruct H as [-> _]. auto.
Qed.
Lemma clash_spec g s names :
  repeats (names ++ if negb (s_leaf s) || negb (is_strict g s) then [lit "__suffix__"] else []) = true <-> clash g s names.
Proof.
  unfold clash. set (b := negb (s_leaf s) || negb (is_strict g s)).
  assert (B : b = true <-> (s_leaf s = false \/ is_strict g s = false)) by (unfold b; rewrite orb_true_iff, !negb_true_iff; tauto).
  assert (D : NoDup (names ++ if b then [lit "__suffix__"] else []) <-> NoDup names /\ (b = true -> ~ In (lit "__suffix__") names)).
  { destruct b.
    - split.
      + intros H. apply NoDup_remove in H as [H K]. rewrite app_nil_r in H, K. auto.
      + intros [H K]. apply NoDup_rev in H. rewrite <- (rev_involutive (names ++ _)). apply NoDup_rev. rewrite rev_app_distr. cbn [rev app].
        constructor; auto. rewrite <- in_rev. auto.
    - rewrite app_nil_r. split; [split; [auto|discriminate]|tauto]. }
  split.
  - intros H. destruct (repeats names) eqn:E.
    + left. intros K. apply repeats_spec in K. congruence.
    + right. apply repeats_spec in E. destruct (in_dec (list_eq_dec N.eq_dec) (lit "__suffix__") names) as [I|I].
      * split; auto. apply B. destruct b eqn:Eb; auto. exfalso. rewrite app_nil_r in H. apply repeats_spec in E. congruence.
      * exfalso. assert (K : NoDup (names ++ if b then [lit "__suffix__"] else [])) by (apply D; auto). apply repeats_spec in K. congruence.
  - intros H. destruct (repeats (names ++ if b then [lit "__suffix__"] else [])) eqn:E; auto. exfalso. apply repeats_spec in E. apply D in E as [E1 E2].
    destruct H as [H|[H1 H2]]; [auto|]. apply B in H2. exact (E2 H2 H1).
Qed.
Lemma route_compiled mk g s dt pt dps pps dp pp : domain_text g s dt -> path_text s pt ->
  parse_route dt = Ok dps -> parse_route pt = Ok pps -> Forall2 (piece_for mk) dps dp -> Forall2 (piece_for mk) pps pp ->
  (s_build_only s = true \/ ~ clash g s (raw_vars dps ++ raw_vars pps) ->
     compile_route mk g s = Ok (Route dp pp (s_leaf s) (is_strict g s) (s_defaults s) (s_build_only s) (s_alias s) (s_endpoint s))) /\
  (s_build_only s = false -> clash g s (raw_vars dps ++ raw_vars pps) -> compile_route mk g s = Raise ReError).
Proof.
  intros Hd Hp Pd Pp Fd Fp. unfold compile_route. cbv zeta. rewrite (domain_unique _ _ _ Hd). rewrite (proj1 (path_unique _ _) Hp).
  rewrite Pd. cbn [bind]. rewrite (pieces_fun _ _ _ Fd). cbn [bind]. rewrite Pp. cbn [bind]. rewrite (pieces_fun _ _ _ Fp). cbn [bind].
  fold (is_strict g s). set (r := Route dp pp _ _ _ _ _ _).
  assert (V : var_names r = raw_vars dps ++ raw_vars pps).
  { unfold var_names, route_vars, r. cbn [r_domain r_path]. unfold piece_vars. rewrite flat_map_app, map_app.
    fold (piece_vars dp). fold (piece_vars pp). rewrite (pieces_names _ _ _ Fd), (pieces_names _ _ _ Fp). auto. }
  rewrite V. pose proof (clash_spec g s (raw_vars dps ++ raw_vars pps)) as C. split.
  - intros [B|N].
    + rewrite B. cbn [negb andb]. unfold r. rewrite B. reflexivity.
    + destruct (repeats _); [exfalso; tauto|]. rewrite andb_false_r. reflexivity.
  - intros B N. apply C in N. rewrite N, B. reflexivity.
Qed.
Lemma compile_answers mk g s : exists dt pt, domain_text g s dt /\ path_text s pt /\
  match compile_route mk g s with
  | Ok r => exists dps pps, parse_route dt = Ok dps /\ parse_route pt = Ok pps /\
      Forall2 (piece_for mk) dps (r_domain r) /\ Forall2 (piece_for mk) pps (r_path r) /\
      (s_build_only s = false -> ~ clash g s (raw_vars dps ++ raw_vars pps))
  | Raise e => parse_route dt = Raise e \/ parse_route pt = Raise e \/
      (exists ps conv args v, (parse_route dt = Ok ps \/ parse_route pt = Ok ps) /\ In (Dynamic conv args v) ps /\ mk conv args = Raise e) \/
      (e = ReError /\ s_build_only s = false /\ exists dps pps, parse_route dt = Ok dps /\ parse_route pt = Ok pps /\ clash g s (raw_vars dps ++ raw_vars pps))
  end.
Proof.
  set (dt := if g_host_matching g then match s_host s with Some h => h | None => [] end
   else match s_subdomain s with Some x => x | None => g_default_subdomain g end).
  set (pt := if s_leaf s then s_string s else rstrip_by is_slash (s_string s)).
  assert (Hd : domain_text g s dt) by (unfold domain_text, dt; destruct (g_host_matching g), (s_host s), (s_subdomain s); auto).
  assert (Hp : path_text s pt) by (apply path_unique; reflexivity).
  exists dt, pt. split; auto. split; auto.
  destruct (parse_route dt) as [dps|e] eqn:Pd.
  2: { unfold compile_route. cbv zeta. fold dt. rewrite Pd. cbn [bind]. auto. }
  pose proof (pieces_spec mk dps) as Sd. destruct (make_pieces mk dps) as [dp|e] eqn:Md.
  2: { unfold compile_route. cbv zeta. fold dt. rewrite Pd. cbn [bind]. rewrite Md. cbn [bind].
       destruct Sd as (c & a & v & I & E). right. right. left. exists dps, c, a, v. auto. }
  destruct (parse_route pt) as [pps|e] eqn:Pp.
  2: { unfold compile_route. cbv zeta. fold dt pt. rewrite Pd. cbn [bind]. rewrite Md. cbn [bind]. rewrite Pp. cbn [bind]. auto. }
  pose proof (pieces_spec mk pps) as Sp. destruct (make_pieces mk pps) as [pp|e] eqn:Mp.
  2: { unfold compile_route. cbv zeta. fold dt pt. rewrite Pd. cbn [bind]. rewrite Md. cbn [bind]. rewrite Pp. cbn [bind]. rewrite Mp. cbn [bind].
       destruct Sp as (c & a & v & I & E). right. right. left. exists pps, c, a, v. auto. }
  destruct (route_compiled mk g s dt pt dps pps dp pp Hd Hp Pd Pp Sd Sp) as [K1 K2].
  pose proof (clash_spec g s (raw_vars dps ++ raw_vars pps)) as C.
  destruct (s_build_only s) eqn:B.
  - rewrite K1 by auto. exists dps, pps. cbn [r_domain r_path]. repeat split; auto. discriminate.
  - destruct (repeats _) eqn:R in C.
    + assert (X : clash g s (raw_vars dps ++ raw_vars pps)) by tauto. rewrite K2 by auto. right. right. right. split; auto. split; auto. eauto.
    + assert (X : ~ clash g s (raw_vars dps ++ raw_vars pps)) by (intros Y; apply C in Y; discriminate). rewrite K1 by auto.
      exists dps, pps. cbn [r_domain r_path]. repeat split; auto.
Qed.
