From Coq Require Import Arith List NArith ZArith Bool Lia.
From Verif Require Import PyStr PyStrFacts ModelHeaders ModelResponse ModelClose SpecClose ProofClose SpecCloseAny.
Import ListNotations.
Open Scope N_scope.

Lemma until_run fails l got x : until fails l got x <-> run_all fails l = (map ERun got, x).
Proof.
  split.
  - destruct x as [e|]; cbn [until].
    + intros (l1 & c & l2 & -> & -> & A & B). apply run_all_fail; auto.
    + intros (-> & A). apply run_all_none, A.
  - revert got x. induction l as [|c l IH]; intros got x; cbn [run_all].
    + intros H. destruct got; inversion H; subst. cbn. split; auto. intros c [].
    + destruct (fails c) as [e|] eqn:F.
      * intros H. destruct got as [|d got]; inversion H; subst. destruct got; [|discriminate].
        exists [], d, l. cbn. repeat split; auto. intros d' [].
      * destruct (run_all fails l) as [t e] eqn:R. intros H. destruct got as [|d got]; inversion H; subst.
        specialize (IH got x eq_refl). destruct x as [e'|]; cbn [until] in *.
        -- destruct IH as (l1 & c' & l2 & -> & -> & A & B). exists (d :: l1), c', l2. cbn. repeat split; auto.
           intros y [<-|Hy]; auto.
        -- destruct IH as (-> & A). split; auto. intros y [<-|Hy]; auto.
Qed.
Lemma until_ex fails l : exists got x, until fails l got x.
Proof.
  destruct (run_all fails l) as [t x] eqn:E.
  assert (M : exists got, t = map ERun got).
  { clear -E. revert t x E. induction l as [|c l IH]; intros t x E; cbn [run_all] in E.
    - injection E as <- <-. exists []. auto.
    - destruct (fails c); [injection E as <- <-; exists [c]; auto|].
      destruct (run_all fails l) as [t' e']. injection E as <- <-. destruct (IH _ _ eq_refl) as [got ->]. exists (c :: got). auto. }
  destruct M as [got ->]. exists got, x. apply until_run, E.
Qed.

Section Any.
  Variable fails : callback -> option exn.
  Variable r : response.
  Variables (got : list callback) (x : option exn).
  Hypothesis U : until fails (to_close r) got x.
  Lemma closing_any : close_response fails r = (map ERun got, x).
  Proof. apply until_run, U. Qed.
  Lemma leaving_any e : leave fails r e = (map ERun got ++ [ERequestClosed], last_of e x).
  Proof. unfold leave. rewrite closing_any. auto. Qed.
  Lemma ask_any served a fail n : forall rest,
    ask fails r served n (GRunning a rest fail) =
    if (n <=? length rest)%nat then (map EChunk (firstn n rest), GRunning a (skipn n rest) fail)
    else (map EChunk rest ++ map ERun got ++ [ERequestClosed; outcome (last_of fail x)] ++ repeat EStop (n - length rest - 1), GDone).
  Proof.
    induction n as [|n IH]; intros rest; cbn [ask]; auto.
    cbn [gen_next]. unfold pull. destruct rest as [|b rest].
    - rewrite leaving_any, ask_done. cbn [length Nat.leb map app]. rewrite <- !app_assoc. replace (S n - 0 - 1)%nat with n by lia. auto.
    - rewrite IH. cbn [length Nat.leb]. destruct (n <=? length rest)%nat; auto.
  Qed.
  Lemma trace_any_full a cs e n : chunks a = (cs, e) -> (length cs < n)%nat ->
    app_trace fails r (Ok a) n =
      map EChunk cs ++ map ERun got ++ [ERequestClosed; outcome (last_of e x)] ++ repeat EStop (n - length cs - 1).
  Proof.
    intros Hc Hn. destruct n as [|n]; [lia|]. unfold app_trace. rewrite (ask_start fails r _ _ _ _ _ eq_refl Hc), ask_any.
    destruct (S n <=? length cs)%nat eqn:E; [apply Nat.leb_le in E; lia|]. cbn [gen_close]. rewrite app_nil_r. auto.
  Qed.
  Lemma trace_any_stopped method cs e n : chunks (get_app_iter method r) = (cs, e) -> (0 < n <= length cs)%nat ->
    exists first y, app_trace fails r (Ok (get_app_iter method r)) n =
      map EChunk (firstn n cs) ++ map ERun first ++ map ERun got ++ ERequestClosed :: raised (last_of y x) /\
      ((first = got /\ y = x) \/ (rs_passthrough r = true /\ until fails (body_closer (rs_body r)) first y)).
  Proof.
    intros Hc Hn. destruct n as [|n]; [lia|]. unfold app_trace. rewrite (ask_start fails r _ _ _ _ _ eq_refl Hc), ask_any.
    destruct (S n <=? length cs)%nat eqn:E; [|apply Nat.leb_gt in E; lia]. cbn [gen_close].
    assert (K : close_iter fails r (get_app_iter method r) = close_response fails r \/
                (rs_passthrough r = true /\ close_iter fails r (get_app_iter method r) = run_all fails (body_closer (rs_body r)))).
    { unfold get_app_iter. destruct (eqs method (lit "HEAD") || bodyless_status (st_code (rs_status r))); auto.
      destruct (rs_passthrough r); auto. }
    destruct K as [K|[P K]]; rewrite K.
    - exists got, x. rewrite closing_any, leaving_any. split; [|auto]. rewrite <- !app_assoc. reflexivity.
    - destruct (until_ex fails (body_closer (rs_body r))) as (first & y & F). exists first, y.
      rewrite (proj1 (until_run _ _ _ _) F), leaving_any. split; [|auto]. rewrite <- !app_assoc. reflexivity.
  Qed.
  Lemma trace_any_refused e n : (0 < n)%nat ->
    app_trace fails r (Raise e) n = map ERun got ++ [ERequestClosed; outcome (last_of (Some e) x)] ++ repeat EStop (n - 1).
  Proof.
    intros Hn. destruct n as [|n]; [lia|]. unfold app_trace. cbn [ask gen_next]. rewrite leaving_any, ask_done.
    cbn [gen_close]. rewrite app_nil_r, <- !app_assoc. replace (S n - 1)%nat with n by lia. reflexivity.
  Qed.
  Lemma direct_any method n cs e : chunks (get_app_iter method r) = (cs, e) -> rs_passthrough r = false ->
    direct_trace fails r (get_app_iter method r) n =
      map EChunk (firstn n cs) ++ (if (length cs <? n)%nat then [outcome e] else []) ++ map ERun got ++ raised x.
  Proof.
    intros Hc P. unfold direct_trace. rewrite Hc.
    assert (E : close_iter fails r (get_app_iter method r) = close_response fails r).
    { unfold get_app_iter. rewrite P. destruct (eqs method (lit "HEAD") || bodyless_status (st_code (rs_status r))); auto. }
    rewrite E, closing_any.
    assert (T : take_chunks n cs e = map EChunk (firstn n cs) ++ (if (length cs <? n)%nat then [outcome e] else [])).
    { clear. revert cs. induction n as [|n IH]; intros cs; destruct cs as [|b cs]; try reflexivity.
      cbn [take_chunks firstn map app length]. rewrite IH. reflexivity. }
    rewrite T, <- app_assoc. reflexivity.
  Qed.
End Any.
