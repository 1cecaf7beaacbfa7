From Coq Require Import Arith List NArith ZArith Bool Lia.
From Verif Require Import PyStr PyStrFacts ModelHeaders ModelResponse ModelClose SpecClose.
Import ListNotations.
Open Scope N_scope.
Ltac inv H := inversion H; subst; clear H.

Lemma ran_app a b : ran (a ++ b) = ran a ++ ran b.
Proof. induction a as [|[] a IH]; cbn [app ran]; auto. rewrite IH. auto. Qed.
Lemma arrived_app a b : arrived (a ++ b) = arrived a ++ arrived b.
Proof. induction a as [|[] a IH]; cbn [app arrived]; auto. rewrite IH. auto. Qed.

Section Close.
  Variable fails : callback -> option exn.
  Notation run_all := (run_all fails).
  Lemma run_all_none l : (forall c, In c l -> fails c = None) -> run_all l = (map ERun l, None).
  Proof.
    induction l as [|c l IH]; intros H; cbn [ModelClose.run_all map]; auto.
    rewrite (H c) by (left; auto). rewrite IH by (intros; apply H; right; auto). auto.
  Qed.
  Lemma run_all_fail l1 c l2 e : (forall c, In c l1 -> fails c = None) -> fails c = Some e ->
    run_all (l1 ++ c :: l2) = (map ERun (l1 ++ [c]), Some e).
  Proof.
    intros H1 H2. induction l1 as [|d l1 IH]; cbn [app ModelClose.run_all map].
    - rewrite H2. auto.
    - rewrite (H1 d) by (left; auto). rewrite IH by (intros; apply H1; right; auto). auto.
  Qed.
  Lemma ran_map l : ran (map ERun l) = l.
  Proof. induction l as [|c l IH]; cbn; auto. rewrite IH. auto. Qed.
  Lemma arrived_map l : arrived (map ERun l) = [].
  Proof. induction l; auto. Qed.

  Variable r : response.
  Hypothesis quiet : forall c, In c (to_close r) -> fails c = None.
  Lemma closing : close_response fails r = (map ERun (to_close r), None).
  Proof. apply run_all_none. exact quiet. Qed.
  Lemma leaving e : leave fails r e = (map ERun (to_close r) ++ [ERequestClosed], e).
  Proof. unfold leave. rewrite closing. auto. Qed.
  Lemma pulling a rest fail : pull fails r a rest fail =
    match rest with
    | b :: rest' => ([EChunk b], GRunning a rest' fail)
    | [] => (map ERun (to_close r) ++ [ERequestClosed; result fail], GDone)
    end.
  Proof. unfold pull. destruct rest; auto. rewrite leaving, <- app_assoc. auto. Qed.

  Lemma ask_done served n : ask fails r served n GDone = (repeat EStop n, GDone).
  Proof. induction n as [|n IH]; auto. cbn [ask gen_next repeat]. rewrite IH. auto. Qed.
  Lemma ask_running served a fail n : forall rest,
    ask fails r served n (GRunning a rest fail) =
    if (n <=? length rest)%nat then (map EChunk (firstn n rest), GRunning a (skipn n rest) fail)
    else (map EChunk rest ++ map ERun (to_close r) ++ [ERequestClosed; result fail] ++ repeat EStop (n - length rest - 1), GDone).
  Proof.
    induction n as [|n IH]; intros rest; cbn [ask]; auto.
    cbn [gen_next]. rewrite pulling. destruct rest as [|b rest].
    - rewrite ask_done. cbn [length Nat.leb map app]. rewrite <- app_assoc. replace (S n - 0 - 1)%nat with n by lia. auto.
    - rewrite IH. cbn [length Nat.leb]. destruct (n <=? length rest)%nat; auto.
  Qed.
  Lemma ask_start served n a cs e : served = Ok a -> chunks a = (cs, e) ->
    ask fails r served (S n) GStart = ask fails r served (S n) (GRunning a cs e).
  Proof. intros -> H. cbn [ask gen_next]. rewrite H. auto. Qed.

  Lemma ran_chunks l : ran (map EChunk l) = [].
  Proof. induction l; auto. Qed.
  Lemma arrived_chunks l : arrived (map EChunk l) = l.
  Proof. induction l as [|b l IH]; cbn; auto. rewrite IH. auto. Qed.
  Lemma ran_stops n : ran (repeat EStop n) = [].
  Proof. induction n; auto. Qed.

  Lemma trace_full served a cs e n : served = Ok a -> chunks a = (cs, e) -> (length cs < n)%nat ->
    app_trace fails r served n =
      map EChunk cs ++ map ERun (to_close r) ++ [ERequestClosed; result e] ++ repeat EStop (n - length cs - 1).
  Proof.
    intros Hs Hc Hn. destruct n as [|n]; [lia|]. unfold app_trace. rewrite (ask_start _ _ _ _ _ Hs Hc), ask_running.
    destruct (S n <=? length cs)%nat eqn:E; [apply Nat.leb_le in E; lia|]. cbn [gen_close]. rewrite app_nil_r. auto.
  Qed.
  Lemma trace_stopped served a cs e n : served = Ok a -> chunks a = (cs, e) -> (0 < n <= length cs)%nat ->
    app_trace fails r served n =
      map EChunk (firstn n cs) ++ map ERun (match a with ARaw b => body_closer b | _ => to_close r end) ++
      map ERun (to_close r) ++ [ERequestClosed] \/
    exists b, a = ARaw b /\ ~ (forall c, In c (body_closer b) -> fails c = None).
  Proof.
    intros Hs Hc Hn. destruct n as [|n]; [lia|]. unfold app_trace. rewrite (ask_start _ _ _ _ _ Hs Hc), ask_running.
    destruct (S n <=? length cs)%nat eqn:E; [|apply Nat.leb_gt in E; lia]. cbn [gen_close].
    destruct a as [|b|b]; cbn [close_iter].
    - left. rewrite closing, leaving, app_nil_r. auto.
    - left. rewrite closing, leaving, app_nil_r. auto.
    - destruct (forallb (fun c => match fails c with None => true | _ => false end) (body_closer b)) eqn:F.
      + left. rewrite run_all_none.
        * rewrite leaving, app_nil_r. auto.
        * intros c Hi. rewrite forallb_forall in F. specialize (F c Hi). destruct (fails c); [discriminate|auto].
      + right. exists b. split; auto. intros H. rewrite <- not_true_iff_false in F. apply F. apply forallb_forall.
        intros c Hi. rewrite H; auto.
  Qed.
End Close.

(** The iterators that a response can give *)
Definition given (method : str) (r : response) (served : res app_iter) : Prop :=
  served = Ok (get_app_iter method r) \/ exists e, served = Raise e.

Lemma closed_full fails method r n cs e :
  (forall c, In c (to_close r) -> fails c = None) ->
  chunks (get_app_iter method r) = (cs, e) -> (length cs < n)%nat ->
  let t := app_trace fails r (Ok (get_app_iter method r)) n in
  ran t = to_close r /\ arrived t = cs /\ exists t', t = map EChunk cs ++ map ERun (to_close r) ++ ERequestClosed :: result e :: t'.
Proof.
  intros Q Hc Hn t. unfold t. rewrite (trace_full fails r Q _ _ _ _ n eq_refl Hc Hn).
  rewrite !ran_app, !arrived_app, ran_chunks, ran_map, arrived_chunks, arrived_map.
  cbn [app]. split; [|split; [|eauto]].
  - cbn [ran]. destruct e; cbn [result ran]; rewrite ran_stops, app_nil_r; auto.
  - destruct e; cbn [result arrived app]; induction (n - length cs - 1)%nat as [|m IH]; cbn [repeat arrived]; rewrite ?app_nil_r in *; auto.
Qed.
Lemma closed_stopped fails method r n cs e :
  (forall c, In c (to_close r) -> fails c = None) ->
  chunks (get_app_iter method r) = (cs, e) -> (0 < n <= length cs)%nat ->
  let t := app_trace fails r (Ok (get_app_iter method r)) n in
  arrived t = firstn n cs /\ exists again, ran t = again ++ to_close r /\ incl again (to_close r).
Proof.
  intros Q Hc Hn t. unfold t.
  destruct (trace_stopped fails r Q _ _ _ _ n eq_refl Hc Hn) as [E|(b & E & F)].
  - rewrite E, !ran_app, !arrived_app, ran_chunks, !ran_map, arrived_chunks, !arrived_map. cbn [ran arrived app].
    rewrite !app_nil_r. split; auto. eexists. split; eauto. unfold get_app_iter.
    destruct (eqs method (lit "HEAD") || bodyless_status (st_code (rs_status r))); [apply incl_refl|].
    destruct (rs_passthrough r); [|apply incl_refl]. intros c Hi. unfold to_close. apply in_or_app. left. exact Hi.
  - exfalso. apply F. intros c Hi. apply Q. unfold get_app_iter in E.
    destruct (eqs method (lit "HEAD") || bodyless_status (st_code (rs_status r))); [discriminate|].
    destruct (rs_passthrough r); [|discriminate]. inv E. unfold to_close. apply in_or_app. left. exact Hi.
Qed.
(** calling the response fails *)
Lemma closed_refused fails r n e : (forall c, In c (to_close r) -> fails c = None) -> (0 < n)%nat ->
  ran (app_trace fails r (Raise e) n) = to_close r /\ In (ERaise e) (app_trace fails r (Raise e) n).
Proof.
  intros Q Hn. destruct n as [|n]; [lia|]. unfold app_trace. cbn [ask gen_next]. rewrite leaving; auto.
  rewrite ask_done. cbn [gen_close result]. rewrite app_nil_r, !ran_app, ran_map, ran_stops. cbn [ran app].
  rewrite !app_nil_r. split; auto. rewrite <- !app_assoc. apply in_or_app. right. cbn. auto.
Qed.
(** A response used directly *)
Lemma take_nothing_ran n : forall cs e, ran (take_chunks n cs e) = [].
Proof. induction n as [|n IH]; intros [|b cs] e; cbn [take_chunks]; auto; try (destruct e; reflexivity). cbn [ran]. apply IH. Qed.
Lemma closed_direct fails method r n : (forall c, In c (to_close r) -> fails c = None) ->
  rs_passthrough r = false -> ran (direct_trace fails r (get_app_iter method r) n) = to_close r.
Proof.
  intros Q Hp. unfold direct_trace. destruct (chunks (get_app_iter method r)) as [cs e].
  assert (E : close_iter fails r (get_app_iter method r) = close_response fails r).
  { unfold get_app_iter. rewrite Hp. destruct (eqs method (lit "HEAD") || bodyless_status (st_code (rs_status r))); auto. }
  rewrite E, closing, ran_app, take_nothing_ran; auto. rewrite app_nil_r, ran_map. auto.
Qed.
(** If a function raises, the ones before it and itself are run *)
Lemma closed_failing fails method r n l1 c l2 x cs e :
  to_close r = l1 ++ c :: l2 -> (forall d, In d l1 -> fails d = None) -> fails c = Some x ->
  chunks (get_app_iter method r) = (cs, e) -> (length cs < n)%nat ->
  ran (app_trace fails r (Ok (get_app_iter method r)) n) = l1 ++ [c] /\
  In ERequestClosed (app_trace fails r (Ok (get_app_iter method r)) n) /\
  In (ERaise x) (app_trace fails r (Ok (get_app_iter method r)) n).
Proof.
  intros El H1 H2 Hc Hn.
  assert (C : close_response fails r = (map ERun (l1 ++ [c]), Some x)).
  { unfold close_response. change (body_closer (rs_body r) ++ rs_on_close r) with (to_close r). rewrite El. apply run_all_fail; auto. }
  assert (P : forall rest, (length rest < n)%nat -> ask fails r (Ok (get_app_iter method r)) n (GRunning (get_app_iter method r) rest e) =
    (map EChunk rest ++ map ERun (l1 ++ [c]) ++ [ERequestClosed; ERaise x] ++ repeat EStop (n - length rest - 1), GDone)).
  { clear Hn. induction n as [|n IH]; intros rest Hr; [lia|]. cbn [ask gen_next]. unfold pull. destruct rest as [|b rest].
    - unfold leave. rewrite C. cbn [later result]. rewrite ask_done. cbn [length map app]. rewrite <- !app_assoc.
      replace (S n - 0 - 1)%nat with n by lia. auto.
    - rewrite IH by (cbn in Hr; lia). auto. }
  assert (A : ask fails r (Ok (get_app_iter method r)) n GStart = ask fails r (Ok (get_app_iter method r)) n (GRunning (get_app_iter method r) cs e)).
  { destruct n as [|n]; [lia|]. cbn [ask gen_next]. rewrite Hc. auto. }
  unfold app_trace. rewrite A, P by auto. cbn [gen_close]. rewrite app_nil_r.
  rewrite !ran_app, ran_chunks, ran_map. cbn [app ran]. rewrite ran_stops, app_nil_r. split; auto.
  split; apply in_or_app; right; apply in_or_app; right; cbn; auto.
Qed.

(** Reading or changing the body keeps what has to be closed *)
From Coq Require Import Permutation.
From Verif Require Import ModelEtag SpecEtag ProofEtag SpecResponse ProofResponse.
Lemma sequence_kept r : Permutation (to_close r) (to_close (fst (make_sequence r))).
Proof.
  unfold make_sequence. destruct (rs_body r) as [l|l f c] eqn:E; auto.
  destruct (encode_items l f) as [[bs [x|]] rest]; unfold to_close; rewrite E; cbn [fst]; auto.
  destruct c as [n|]; cbn; auto. apply Permutation_cons_append.
Qed.
Lemma ensure_kept r : Permutation (to_close r) (to_close (fst (ensure_sequence r))).
Proof.
  unfold ensure_sequence. destruct (rs_body r) as [l|l f c] eqn:E; auto.
  destruct (rs_passthrough r || negb (rs_implicit r)); auto. apply sequence_kept.
Qed.
Lemma set_header_kept r k v : to_close (fst (set_header r k v)) = to_close r.
Proof. unfold set_header. destruct (h_set (rs_headers r) k (HStr v) []); auto. Qed.
Lemma conditional_kept now date md5 fuel env r r' e :
  make_conditional now date md5 fuel env r = Some (r', e) -> Permutation (to_close r) (to_close r').
Proof.
  destruct (eqs (ce_method env) (lit "GET") || eqs (ce_method env) (lit "HEAD")) eqn:E.
  2:{ intros H. rewrite conditional_other in H; [|rewrite <- method_get; congruence]. inv H. auto. }
  apply method_get in E. rewrite conditional_steps; auto.
  assert (A : to_close (fst (cond_date now r)) = to_close r).
  { unfold cond_date. destruct (h_contains (rs_headers r) (lit "date")); auto. apply set_header_kept. }
  destruct (cond_date now r) as [r1 [e1|]]; cbn [fst] in A; [intros H; inv H; rewrite A; auto|].
  assert (B : Permutation (to_close r1) (to_close (fst (cond_length r1)))).
  { unfold cond_length. destruct (rs_autolength r1 && negb (h_contains (rs_headers r1) (lit "content-length"))); auto.
    pose proof (ensure_kept r1) as K. rewrite <- length_fst in K.
    destruct (calculate_content_length r1) as [r2 [[n|]|x]]; cbn [fst] in *; auto. rewrite set_header_kept. auto. }
  rewrite A in B. destruct (cond_length r1) as [r2 [e2|]]; cbn [fst] in B; [intros H; inv H; auto|].
  destruct (cond_decide date md5 fuel env r2) as [[[]|e3]|]; intros H; inv H; auto.
Qed.
Definition keeps_body (o : rop) : Prop := match o with RSetData _ | RFreeze => False | _ => True end.
Lemma step_kept r o : keeps_body o -> Permutation (to_close r) (to_close (r_step r o)).
Proof.
  destruct o; cbn [keeps_body r_step]; intros H; try contradiction; auto.
  - pose proof (ensure_kept r) as K. unfold stream_write. destruct (ensure_sequence r) as [r' [e|]] eqn:E; auto. cbn [fst] in *.
    apply ensure_seq in E as (l & El). unfold to_close in *. rewrite El in K. exact K.
  - apply sequence_kept.
  - rewrite get_data_fst. apply ensure_kept.
  - rewrite length_fst. apply ensure_kept.
  - destruct (make_conditional now date md5 fuel env r) as [[r' e]|] eqn:E; auto. eapply conditional_kept; eauto.
Qed.
Lemma run_kept ops : forall r, Forall keeps_body ops -> Permutation (to_close r) (to_close (r_run r ops)).
Proof.
  induction ops as [|o ops IH]; intros r H; auto. inv H. cbn [r_run fold_left].
  eapply Permutation_trans; [apply step_kept; eauto|apply IH; auto].
Qed.
