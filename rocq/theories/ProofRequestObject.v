From Coq Require Import Arith List NArith ZArith Bool Permutation Lia ZifyBool ZifyN ZifyNat.
From Verif Require ProofOptions.
From Verif Require Import PyStr PyStrFacts ModelQuote SpecQuote ProofQuote ModelHeaders SpecHeaders ProofHeaders ModelRange SpecRange ProofRange
  ModelEtag SpecEtag ProofEtag ModelDate SpecDate ProofDate ModelUrls SpecUrls ModelCookie SpecCookie ProofCookie ModelAuth SpecAuth ProofAuth ModelStream ModelWsgi
  ModelRequest ModelMirror SpecMirror ProofMirror ModelRequestObject SpecRequestObject Utf8.
Import ListNotations.
Open Scope N_scope.

Ltac inv H := inversion H; subst; clear H.

Lemma http_date_read d t : real_date d -> (100 <= dt_year d)%Z ->
  http_date (DDatetime d None) = Ok t -> parse_date (Some t) = Ok (Some d).
Proof.
  intros R Hy H. destruct (real_day d R) as [n Hn]. destruct (date_text_spec d n R Hn) as [E _].
  unfold http_date, dump_date in H. rewrite E in H. assert (rfc1123 n d (lit "GMT") = t) as <- by congruence.
  rewrite (parse_rfc1123 n d _ _ R Hy gmt_zero), (minus_zero d R). reflexivity.
Qed.

Section object.
  Variable cu : dict str -> bool -> bool -> bool -> res str.
  Variable ch : dict str -> res str.
  Notation fresh := (fresh cu ch).
  Notation get_simple := (get_simple cu ch).
  Notation get_prop := (get_prop cu ch).
  Notation rstep := (rstep cu ch).
  Notation rrun := (rrun cu ch).

  (** ** Histories *)
  Record consistent (env : dict str) (st : robj) : Prop := {
    co_env : ro_environ st = env;
    co_cache : forall p v, cache_get (ro_cache st) p = Some v -> fresh p env = Ok v;
    co_options : forall r, ro_options st = Some r -> req_options env = Ok r }.

  Lemma consistent_new env : consistent env (new_robj env).
  Proof. split; [reflexivity|discriminate|discriminate]. Qed.
  Lemma consistent_put env st p v : consistent env st -> fresh p env = Ok v -> consistent env (cache_put st p v).
  Proof.
    intros [A B C] E. split; cbn; auto. intros q w. destruct (prop_eq_dec q p) as [->|]; auto.
    intros H. injection H as <-. exact E.
  Qed.

  Lemma simple_consistent env st p : consistent env st ->
    fst (get_simple st p) = fresh p env /\ consistent env (snd (get_simple st p)).
  Proof.
    intros C. unfold ModelRequestObject.get_simple. rewrite (co_env _ _ C).
    destruct (is_cached p); [|split; [reflexivity|exact C]].
    destruct (cache_get (ro_cache st) p) as [v|] eqn:E.
    - split; [|exact C]. symmetry. apply (co_cache _ _ C). exact E.
    - destruct (fresh p env) as [v|e] eqn:F; cbn [fst snd]; (split; [reflexivity|]); auto.
      apply consistent_put; assumption.
  Qed.
  Lemma options_consistent env st : consistent env st ->
    fst (get_options st) = req_options env /\ consistent env (snd (get_options st)).
  Proof.
    intros C. unfold get_options. destruct (ro_options st) as [r|] eqn:E.
    - split; [|exact C]. symmetry. apply (co_options _ _ C). exact E.
    - rewrite (co_env _ _ C). destruct (req_options env) as [r|e] eqn:F; cbn [fst snd]; split; auto.
      destruct C as [A B D]. split; cbn; auto. intros r' H. injection H as <-. exact F.
  Qed.
  Lemma fresh_text_path env v : fresh PPath env = Ok v -> exists s, v = VText s /\ req_path env = Ok s.
  Proof. cbn. destruct (req_path env); cbn; intros H; inv H. eauto. Qed.
  Lemma fresh_text_query env v : fresh PQueryString env = Ok v -> exists s, v = VText s /\ req_query_string env = Ok s.
  Proof. cbn. destruct (req_query_string env); cbn; intros H; inv H. eauto. Qed.

  Lemma get_consistent env st p : consistent env st ->
    fst (get_prop st p) = fresh p env /\ consistent env (snd (get_prop st p)).
  Proof.
    intros C. destruct p; try (apply simple_consistent; exact C).
    - (* full_path *)
      cbn [ModelRequestObject.get_prop].
      destruct (cache_get (ro_cache st) PFullPath) as [v|] eqn:E.
      { split; [|exact C]. symmetry. apply (co_cache _ _ C). exact E. }
      destruct (simple_consistent env st PPath C) as [F1 C1].
      destruct (get_simple st PPath) as [r1 st1]. cbn [fst snd] in F1, C1. subst r1.
      destruct (fresh PPath env) as [a|e] eqn:FP.
      2: { cbn in FP. cbn. unfold req_full_path. destruct (req_path env); cbn in FP; [discriminate|].
           injection FP as <-. split; [reflexivity|exact C1]. }
      apply fresh_text_path in FP as (s & -> & RP).
      destruct (simple_consistent env st1 PQueryString C1) as [F2 C2].
      destruct (get_simple st1 PQueryString) as [r2 st2]. cbn [fst snd] in F2, C2. subst r2.
      assert (FF : fresh PFullPath env = ok VText (do q <- req_query_string env; Ok (s ++ 63 :: q))).
      { cbn. unfold req_full_path. rewrite RP. reflexivity. }
      destruct (fresh PQueryString env) as [b|e] eqn:FQ.
      2: { rewrite FF. cbn in FQ. destruct (req_query_string env); cbn in FQ; [discriminate|].
           injection FQ as <-. split; [reflexivity|exact C2]. }
      apply fresh_text_query in FQ as (t & -> & RQ).
      rewrite RQ in FF. cbn in FF. cbn [fst snd text_of]. split; [symmetry; exact FF|].
      apply consistent_put; assumption.
    - cbn [ModelRequestObject.get_prop]. destruct (options_consistent env st C) as [F C1].
      destruct (get_options st) as [r st1]. cbn [fst snd] in *. subst r. split; [reflexivity|exact C1].
    - cbn [ModelRequestObject.get_prop]. destruct (options_consistent env st C) as [F C1].
      destruct (get_options st) as [r st1]. cbn [fst snd] in *. subst r. split; [reflexivity|exact C1].
  Qed.
  Lemma shows_fresh env p v : shows cu ch env p v <-> fresh p env = Ok v.
  Proof.
    unfold shows. destruct (get_consistent env (new_robj env) p (consistent_new env)) as [-> _]. tauto.
  Qed.

  Lemma order_free env ops : reads_only ops ->
    fst (rrun (new_robj env) ops) = map (fun o => fst (rstep (new_robj env) o)) ops.
  Proof.
    assert (G : forall ops st, consistent env st -> reads_only ops ->
      fst (rrun st ops) = map (fun o => fst (rstep (new_robj env) o)) ops).
    { clear ops. induction ops as [|o ops IH]; intros st C R; [reflexivity|].
      assert (R' : reads_only ops) by (intros x I; apply R; right; exact I).
      pose proof (R o (or_introl eq_refl)) as RO. destruct o as [p|n|k v|k]; try contradiction.
      - cbn [ModelRequestObject.rrun ModelRequestObject.rstep map].
        destruct (get_consistent env st p C) as [F C1].
        destruct (get_consistent env _ p (consistent_new env)) as [F' _].
        destruct (get_prop st p) as [r st1]. destruct (get_prop (new_robj env) p) as [r' st1'].
        cbn [fst snd] in *. subst r r'. specialize (IH st1 C1 R').
        destruct (rrun st1 ops) as [l st2]. cbn [fst] in *. rewrite IH. reflexivity.
      - cbn [ModelRequestObject.rrun ModelRequestObject.rstep map]. specialize (IH st C R').
        destruct (rrun st ops) as [l st2]. cbn [fst] in *. rewrite IH.
        rewrite (co_env _ _ C). reflexivity. }
    intros R. apply G; [apply consistent_new|exact R].
  Qed.

  (* what is in the cache stays *)
  Definition holds (st : robj) (p : prop) (v : pval) : Prop :=
    match p with
    | PMimetype => exists r, ro_options st = Some r /\ v = VText (lower (fst r))
    | PMimetypeParams => exists r, ro_options st = Some r /\ v = VParams (snd r)
    | _ => cache_get (ro_cache st) p = Some v
    end.
  Lemma simple_grows st p q v : cache_get (ro_cache st) q = Some v ->
    cache_get (ro_cache (snd (get_simple st p))) q = Some v.
  Proof.
    intros H. unfold ModelRequestObject.get_simple. destruct (is_cached p); [|exact H].
    destruct (cache_get (ro_cache st) p) as [w|] eqn:E; [exact H|].
    destruct (fresh p (ro_environ st)); [|exact H]. cbn.
    destruct (prop_eq_dec q p) as [->|]; [congruence|exact H].
  Qed.
  Lemma simple_options st p : ro_options (snd (get_simple st p)) = ro_options st.
  Proof.
    unfold ModelRequestObject.get_simple. destruct (is_cached p); [|reflexivity].
    destruct (cache_get (ro_cache st) p); [reflexivity|].
    destruct (fresh p (ro_environ st)); reflexivity.
  Qed.
  Lemma simple_env st p : ro_environ (snd (get_simple st p)) = ro_environ st.
  Proof.
    unfold ModelRequestObject.get_simple. destruct (is_cached p); [|reflexivity].
    destruct (cache_get (ro_cache st) p); [reflexivity|].
    destruct (fresh p (ro_environ st)); reflexivity.
  Qed.
  Lemma simple_other st p q : p <> q -> cache_get (ro_cache st) q = None ->
    cache_get (ro_cache (snd (get_simple st p))) q = None.
  Proof.
    intros N H. unfold ModelRequestObject.get_simple. destruct (is_cached p); [|exact H].
    destruct (cache_get (ro_cache st) p) as [w|] eqn:E; [exact H|].
    destruct (fresh p (ro_environ st)); [|exact H]. cbn.
    destruct (prop_eq_dec q p) as [->|]; [congruence|exact H].
  Qed.

  Definition plainly (p : prop) : bool :=
    match p with PFullPath | PMimetype | PMimetypeParams => false | _ => true end.
  Lemma get_plainly st p : plainly p = true -> get_prop st p = get_simple st p.
  Proof. destruct p; try discriminate; reflexivity. Qed.

  Lemma full_grows st q v : cache_get (ro_cache st) q = Some v ->
    cache_get (ro_cache (snd (get_prop st PFullPath))) q = Some v.
  Proof.
    intros H. cbn [ModelRequestObject.get_prop].
    destruct (cache_get (ro_cache st) PFullPath) as [w|] eqn:E; [exact H|].
    pose proof (simple_grows st PPath q v H) as H1.
    pose proof (simple_other st PPath PFullPath ltac:(discriminate) E) as E1.
    destruct (get_simple st PPath) as [[a|e] st1]; [|exact H1]. cbn [snd] in *.
    pose proof (simple_grows st1 PQueryString q v H1) as H2.
    pose proof (simple_other st1 PQueryString PFullPath ltac:(discriminate) E1) as E2.
    destruct (get_simple st1 PQueryString) as [[b|e] st2]; [|exact H2]. cbn [snd] in *.
    cbn. destruct (prop_eq_dec q PFullPath) as [->|]; [congruence|exact H2].
  Qed.
  Lemma full_options st : ro_options (snd (get_prop st PFullPath)) = ro_options st.
  Proof.
    cbn [ModelRequestObject.get_prop].
    destruct (cache_get (ro_cache st) PFullPath) as [w|] eqn:E; [reflexivity|].
    pose proof (simple_options st PPath) as H1.
    destruct (get_simple st PPath) as [[a|e] st1]; [|exact H1]. cbn [snd] in *.
    pose proof (simple_options st1 PQueryString) as H2.
    destruct (get_simple st1 PQueryString) as [[b|e] st2]; cbn in *; congruence.
  Qed.
  Lemma full_env st : ro_environ (snd (get_prop st PFullPath)) = ro_environ st.
  Proof.
    cbn [ModelRequestObject.get_prop].
    destruct (cache_get (ro_cache st) PFullPath) as [w|] eqn:E; [reflexivity|].
    pose proof (simple_env st PPath) as H1.
    destruct (get_simple st PPath) as [[a|e] st1]; [|exact H1]. cbn [snd] in *.
    pose proof (simple_env st1 PQueryString) as H2.
    destruct (get_simple st1 PQueryString) as [[b|e] st2]; cbn in *; congruence.
  Qed.
  Lemma options_cache st : ro_cache (snd (get_options st)) = ro_cache st.
  Proof.
    unfold get_options. destruct (ro_options st); [reflexivity|].
    destruct (req_options (ro_environ st)); reflexivity.
  Qed.
  Lemma options_env st : ro_environ (snd (get_options st)) = ro_environ st.
  Proof.
    unfold get_options. destruct (ro_options st); [reflexivity|].
    destruct (req_options (ro_environ st)); reflexivity.
  Qed.
  Lemma options_grows st r : ro_options st = Some r -> ro_options (snd (get_options st)) = Some r.
  Proof. unfold get_options. intros E. rewrite E. exact E. Qed.
  Lemma mime_state st p : p = PMimetype \/ p = PMimetypeParams ->
    snd (get_prop st p) = snd (get_options st).
  Proof. intros [->| ->]; cbn; destruct (get_options st); reflexivity. Qed.
  Lemma prop_cases p : plainly p = true \/ p = PFullPath \/ p = PMimetype \/ p = PMimetypeParams.
  Proof. destruct p; auto. Qed.

  Lemma cache_stays st q p v : cache_get (ro_cache st) p = Some v ->
    cache_get (ro_cache (snd (get_prop st q))) p = Some v.
  Proof.
    intros H. destruct (prop_cases q) as [P|[->|M]].
    - rewrite get_plainly by exact P. apply simple_grows. exact H.
    - apply full_grows. exact H.
    - rewrite mime_state by exact M. rewrite options_cache. exact H.
  Qed.
  Lemma options_stay st q r : ro_options st = Some r -> ro_options (snd (get_prop st q)) = Some r.
  Proof.
    intros H. destruct (prop_cases q) as [P|[->|M]].
    - rewrite get_plainly, simple_options by exact P. exact H.
    - rewrite full_options. exact H.
    - rewrite mime_state by exact M. apply options_grows. exact H.
  Qed.
  Lemma get_env_same st q : ro_environ (snd (get_prop st q)) = ro_environ st.
  Proof.
    destruct (prop_cases q) as [P|[->|M]].
    - rewrite get_plainly, simple_env by exact P. reflexivity.
    - apply full_env.
    - rewrite mime_state by exact M. apply options_env.
  Qed.
  Lemma step_holds st o p v : holds st p v -> holds (snd (rstep st o)) p v.
  Proof.
    destruct o as [q|n|k w|k]; cbn [ModelRequestObject.rstep snd].
    - pose proof (cache_stays st q) as A. pose proof (options_stay st q) as B.
      destruct (get_prop st q) as [r st1]. cbn [snd] in *.
      destruct p; cbn [holds]; auto; intros (x & X & ->); exists x; auto.
    - auto.
    - destruct p; auto.
    - destruct p; auto.
  Qed.
  Lemma run_holds ops : forall st p v, holds st p v -> holds (snd (rrun st ops)) p v.
  Proof.
    induction ops as [|o ops IH]; intros st p v H; [exact H|].
    cbn [ModelRequestObject.rrun]. pose proof (step_holds st o p v H) as H1.
    destruct (rstep st o) as [a st1]. cbn [snd] in H1. specialize (IH st1 p v H1).
    destruct (rrun st1 ops). exact IH.
  Qed.
  Lemma read_holds st p v : kept p = true -> fst (get_prop st p) = Ok v -> holds (snd (get_prop st p)) p v.
  Proof.
    intros K H. destruct (prop_cases p) as [P|[->|M]].
    - rewrite get_plainly in * by exact P.
      assert (C : is_cached p = true) by (destruct p; try discriminate P; exact K).
      assert (D : holds (snd (get_simple st p)) p v = (cache_get (ro_cache (snd (get_simple st p))) p = Some v))
        by (destruct p; try discriminate P; reflexivity).
      rewrite D. clear D. revert H. unfold ModelRequestObject.get_simple. rewrite C.
      destruct (cache_get (ro_cache st) p) as [w|] eqn:E; cbn [fst snd].
      + intros H. injection H as <-. exact E.
      + destruct (fresh p (ro_environ st)) as [w|e]; cbn [fst snd]; [|discriminate].
        intros H. injection H as <-. cbn. destruct (prop_eq_dec p p); congruence.
    - cbn [holds]. revert H. cbn [ModelRequestObject.get_prop].
      destruct (cache_get (ro_cache st) PFullPath) as [w|] eqn:E; cbn [fst snd].
      { intros H. injection H as <-. exact E. }
      destruct (get_simple st PPath) as [[a|e] st1]; [|discriminate].
      destruct (get_simple st1 PQueryString) as [[b|e] st2]; [|discriminate].
      cbn. intros H. injection H as <-. reflexivity.
    - revert H. destruct M as [->| ->]; cbn [ModelRequestObject.get_prop holds];
        unfold get_options; destruct (ro_options st) as [r|] eqn:E; cbn.
      + intros H. injection H as <-. eauto.
      + destruct (req_options (ro_environ st)) as [r|e]; cbn; [|discriminate].
        intros H. injection H as <-. eauto.
      + intros H. injection H as <-. eauto.
      + destruct (req_options (ro_environ st)) as [r|e]; cbn; [|discriminate].
        intros H. injection H as <-. eauto.
  Qed.
  Lemma holds_read st p v : kept p = true -> holds st p v -> fst (get_prop st p) = Ok v.
  Proof.
    intros K H. destruct (prop_cases p) as [P|[->|M]].
    - rewrite get_plainly by exact P.
      assert (C : is_cached p = true) by (destruct p; try discriminate P; exact K).
      assert (D : cache_get (ro_cache st) p = Some v) by (destruct p; try discriminate P; exact H).
      unfold ModelRequestObject.get_simple. rewrite C, D. reflexivity.
    - cbn [holds] in H. cbn [ModelRequestObject.get_prop]. rewrite H. reflexivity.
    - destruct M as [->| ->]; cbn [holds] in H; destruct H as (r & E & ->);
        cbn [ModelRequestObject.get_prop]; unfold get_options; rewrite E; reflexivity.
  Qed.
  Lemma remembered st p v ops : kept p = true -> fst (get_prop st p) = Ok v ->
    fst (get_prop (snd (rrun (snd (get_prop st p)) ops)) p) = Ok v.
  Proof. intros K H. apply holds_read; [exact K|]. apply run_holds, read_holds; assumption. Qed.

  Lemma run_env ops : forall st, ro_environ (snd (rrun st ops)) = env_after (ro_environ st) ops.
  Proof.
    induction ops as [|o ops IH]; intros st; [reflexivity|].
    cbn [ModelRequestObject.rrun]. unfold env_after in *. cbn [fold_left].
    assert (E : ro_environ (snd (rstep st o)) = env_change (ro_environ st) o).
    { destruct o; cbn; try reflexivity.
      pose proof (get_env_same st p) as X. destruct (get_prop st p). exact X. }
    destruct (rstep st o) as [a st1]. cbn [snd] in E. specialize (IH st1).
    destruct (rrun st1 ops). cbn [snd] in *. rewrite IH, E. reflexivity.
  Qed.
  Lemma current env p ops : kept p = false ->
    fst (get_prop (snd (rrun (new_robj env) ops)) p) = fst (get_prop (new_robj (env_after env ops)) p).
  Proof.
    intros K. pose proof (run_env ops (new_robj env)) as E. cbn [ro_environ new_robj] in E.
    assert (P : plainly p = true) by (destruct p; try discriminate K; reflexivity).
    assert (C : is_cached p = false) by (destruct p; try discriminate P; exact K).
    rewrite !get_plainly by exact P. unfold ModelRequestObject.get_simple. rewrite C, E. reflexivity.
  Qed.
  Lemma current_header env name ops :
    fst (rstep (snd (rrun (new_robj env) ops)) (RHeader name)) = AHeader (env_getitem (env_after env ops) name).
  Proof. cbn. rewrite run_env. reflexivity. Qed.

  (** first readings *)
  Definition untouched (st : robj) (p : prop) : Prop :=
    match p with
    | PFullPath => cache_get (ro_cache st) PFullPath = None /\ cache_get (ro_cache st) PPath = None
                   /\ cache_get (ro_cache st) PQueryString = None
    | PMimetype | PMimetypeParams => ro_options st = None
    | _ => cache_get (ro_cache st) p = None
    end.
  Lemma none_stays st q p : plainly p = true \/ p = PFullPath -> ~ linked q p ->
    cache_get (ro_cache st) p = None -> cache_get (ro_cache (snd (get_prop st q))) p = None.
  Proof.
    intros PP L H.
    assert (N : q <> p) by (intros ->; apply L; left; reflexivity).
    destruct (prop_cases q) as [P|[->|M]].
    - rewrite get_plainly by exact P. apply simple_other; assumption.
    - assert (NP : PPath <> p) by (intros <-; apply L; right; exact I).
      assert (NQ : PQueryString <> p) by (intros <-; apply L; right; exact I).
      cbn [ModelRequestObject.get_prop].
      destruct (cache_get (ro_cache st) PFullPath) as [w|] eqn:E; [exact H|].
      pose proof (simple_other st PPath p NP H) as H1.
      destruct (get_simple st PPath) as [[a|e] st1]; [|exact H1]. cbn [snd] in *.
      pose proof (simple_other st1 PQueryString p NQ H1) as H2.
      destruct (get_simple st1 PQueryString) as [[b|e] st2]; [|exact H2]. cbn [snd] in *.
      cbn. destruct (prop_eq_dec p PFullPath) as [->|]; [congruence|exact H2].
    - rewrite mime_state by exact M. rewrite options_cache. exact H.
  Qed.
  Lemma step_untouched st o p : (forall q, o = RGet q -> ~ linked q p) -> untouched st p ->
    untouched (snd (rstep st o)) p.
  Proof.
    intros L U. destruct o as [q|n|k v|k]; cbn [ModelRequestObject.rstep snd]; [|exact U|destruct p; exact U|destruct p; exact U].
    specialize (L q eq_refl).
    assert (G : untouched (snd (get_prop st q)) p).
    { destruct (prop_cases p) as [P|[->|M]].
      - pose proof (none_stays st q p (or_introl P) L) as X.
        destruct p; try discriminate P; exact (X U).
      - destruct U as (A & B & C). cbn [untouched].
        assert (L1 : ~ linked q PFullPath) by exact L.
        split; [apply none_stays; auto|].
        destruct (prop_cases q) as [P|[->|M]].
        + rewrite get_plainly by exact P.
          assert (NP : q <> PPath) by (intros ->; apply L; right; exact I).
          assert (NQ : q <> PQueryString) by (intros ->; apply L; right; exact I).
          split; apply simple_other; assumption.
        + destruct L. left. reflexivity.
        + rewrite mime_state by exact M. rewrite options_cache. auto.
      - assert (X : ro_options (snd (get_prop st q)) = None).
        { assert (U' : ro_options st = None) by (destruct M as [->| ->]; exact U).
          destruct (prop_cases q) as [P|[->|[->| ->]]].
          - rewrite get_plainly, simple_options by exact P. exact U'.
          - rewrite full_options. exact U'.
          - destruct L. destruct M as [->| ->]; [left; reflexivity|right; exact I].
          - destruct L. destruct M as [->| ->]; [right; exact I|left; reflexivity]. }
        destruct M as [->| ->]; exact X. }
    destruct (get_prop st q). exact G.
  Qed.
  Lemma run_untouched ops : forall st p, never_read p ops -> untouched st p -> untouched (snd (rrun st ops)) p.
  Proof.
    induction ops as [|o ops IH]; intros st p N U; [exact U|].
    cbn [ModelRequestObject.rrun].
    assert (U1 : untouched (snd (rstep st o)) p).
    { apply step_untouched; [|exact U]. intros q ->. apply N. left. reflexivity. }
    destruct (rstep st o) as [a st1]. cbn [snd] in U1.
    assert (N' : never_read p ops) by (intros q I; apply N; right; exact I).
    specialize (IH st1 p N' U1). destruct (rrun st1 ops). exact IH.
  Qed.
  Lemma untouched_get st p : untouched st p -> fst (get_prop st p) = fst (get_prop (new_robj (ro_environ st)) p).
  Proof.
    intros U. destruct (prop_cases p) as [P|[->|M]].
    - rewrite !get_plainly by exact P.
      assert (D : cache_get (ro_cache st) p = None) by (destruct p; try discriminate P; exact U).
      unfold ModelRequestObject.get_simple. destruct (is_cached p); [|reflexivity].
      rewrite D. cbn [ro_cache new_robj cache_get ro_environ].
      destruct (fresh p (ro_environ st)); reflexivity.
    - destruct U as (A & B & C). cbn [ModelRequestObject.get_prop]. rewrite A.
      cbn [ro_cache new_robj cache_get].
      unfold ModelRequestObject.get_simple. cbn [is_cached]. rewrite B. cbn [ro_cache new_robj cache_get ro_environ].
      destruct (fresh PPath (ro_environ st)) as [a|e]; [|reflexivity].
      cbn [cache_put ro_cache cache_get ro_environ]. destruct (prop_eq_dec PQueryString PPath) as [X|_]; [discriminate X|].
      rewrite C. cbn [ro_cache new_robj cache_get ro_environ].
      destruct (fresh PQueryString (ro_environ st)); reflexivity.
    - destruct M as [->| ->]; cbn [untouched] in U; cbn [ModelRequestObject.get_prop]; unfold get_options;
        rewrite U; cbn; destruct (req_options (ro_environ st)); reflexivity.
  Qed.
  Lemma first_reading env p ops : never_read p ops ->
    fst (get_prop (snd (rrun (new_robj env) ops)) p) = fst (get_prop (new_robj (env_after env ops)) p).
  Proof.
    intros N.
    assert (U : untouched (snd (rrun (new_robj env) ops)) p).
    { apply run_untouched; [exact N|]. destruct p; cbn; auto. }
    rewrite (untouched_get _ _ U), run_env. reflexivity.
  Qed.

  (** ** Headers *)
  Ltac key H := unfold carries, without in H;
    match type of H with context [cgi_key ?n] =>
      let k := eval vm_compute in (cgi_key n) in change (cgi_key n) with k in H end.

  Lemma lookup_header env name v : carries env name v -> env_getitem env name = Ok v.
  Proof using Type. clear.
    intros H. unfold env_getitem, carries, cgi_key in *.
    assert (E : swap_c 45 95 (upper name) = map capital name).
    { unfold swap_c, upper. rewrite map_map. apply map_ext. intros c. unfold upper_c, is_ascii_lower, between, capital.
      destruct ((97 <=? c) && (c <=? 122)) eqn:A; [|reflexivity].
      destruct (c - 32 =? 45) eqn:B; [|reflexivity]. lia. }
    rewrite E. unfold is_content_key, content_keys. cbn [existsb]. rewrite orb_false_r, H. reflexivity.
  Qed.
  Lemma lookup_absent env name : without env name -> env_getitem env name = Raise KeyError.
  Proof using Type. clear.
    intros H. unfold env_getitem, without, cgi_key in *.
    assert (E : swap_c 45 95 (upper name) = map capital name).
    { unfold swap_c, upper. rewrite map_map. apply map_ext. intros c. unfold upper_c, is_ascii_lower, between, capital.
      destruct ((97 <=? c) && (c <=? 122)) eqn:A; [|reflexivity].
      destruct (c - 32 =? 45) eqn:B; [|reflexivity]. lia. }
    rewrite E. unfold is_content_key, content_keys. cbn [existsb]. rewrite orb_false_r, H. reflexivity.
  Qed.

  Lemma env_or_some env k v : dget env k = Some v -> env_or env k = v.
  Proof. unfold env_or. intros ->. reflexivity. Qed.
  Lemma env_or_none env k : dget env k = None -> env_or env k = [].
  Proof. unfold env_or. intros ->. reflexivity. Qed.

  Ltac use C :=
    match goal with
    | |- context [env_or ?e ?k] => first [rewrite (env_or_some e k _ C) | rewrite (env_or_none e k C)]
    | |- context [dget ?e ?k] =>
        match type of C with _ = ?r => change (dget e k = r) in C; rewrite C end
    end.

  Lemma cookies_read env l bl :
    carries env (lit "Cookie") (cookie_header cookie_quote bl) ->
    Forall2 (fun p q => fst p = fst q /\ utf8_encode (snd p) = Ok (snd q)) l bl ->
    (forall n v, In (n, v) l -> legal_name n) ->
    exists d, shows cu ch env PCookies (VCookies d) /\ forall n, dget d n = last_value l n.
  Proof.
    intros C F L. key C.
    destruct (parse_cookie_roundtrip l bl (S (length (cookie_header cookie_quote bl))) F L) as (d & E & V); [lia|].
    exists d. split; [|exact V]. apply shows_fresh. cbn [ModelRequestObject.fresh]. unfold req_cookies.
    use C. cbv zeta. rewrite E. reflexivity.
  Qed.

  Lemma tag_list_join (l : list tag) : l <> [] -> tag_list (join [44; 32] (map write_tag l)) l.
  Proof.
    induction l as [|t l IH]; intros N; [contradiction|]. destruct l as [|t2 l].
    - cbn [map join]. constructor.
    - change (join [44; 32] (map write_tag (t :: t2 :: l)))
        with (write_tag t ++ [44; 32] ++ join [44; 32] (map write_tag (t2 :: l))).
      change ([44; 32] ++ join [44; 32] (map write_tag (t2 :: l)))
        with ([] ++ 44 :: [32] ++ join [44; 32] (map write_tag (t2 :: l))).
      constructor; [constructor|repeat constructor|]. apply IH. discriminate.
  Qed.
  Definition marked (strong weak : list str) : list tag :=
    map (fun t => (Strong, t)) strong ++ map (fun t => (Weakw, t)) weak.
  Lemma to_header_marked strong weak :
    et_to_header (tag_set strong weak) = join [44; 32] (map write_tag (marked strong weak)).
  Proof.
    unfold et_to_header, tag_set, marked. cbn [e_star e_strong e_weak].
    rewrite map_app, !map_map. reflexivity.
  Qed.
  Lemma texts_marked strong weak :
    texts false (marked strong weak) = map Some strong /\ texts true (marked strong weak) = map Some weak.
  Proof.
    unfold texts, marked. rewrite !filter_app, !map_app.
    assert (A : forall l, filter (fun t : tag => Bool.eqb (weak_mark (fst t)) false) (map (fun t => (Strong, t)) l)
                          = map (fun t => (Strong, t)) l) by (induction l as [|x l IH]; [reflexivity|first [exact IH|exact (f_equal (cons _) IH)]]).
    assert (B : forall l, filter (fun t : tag => Bool.eqb (weak_mark (fst t)) false) (map (fun t => (Weakw, t)) l) = [])
      by (induction l as [|x l IH]; [reflexivity|first [exact IH|exact (f_equal (cons _) IH)]]).
    assert (C : forall l, filter (fun t : tag => Bool.eqb (weak_mark (fst t)) true) (map (fun t => (Strong, t)) l) = [])
      by (induction l as [|x l IH]; [reflexivity|first [exact IH|exact (f_equal (cons _) IH)]]).
    assert (D : forall l, filter (fun t : tag => Bool.eqb (weak_mark (fst t)) true) (map (fun t => (Weakw, t)) l)
                          = map (fun t => (Weakw, t)) l) by (induction l as [|x l IH]; [reflexivity|first [exact IH|exact (f_equal (cons _) IH)]]).
    rewrite A, B, C, D, !map_map, app_nil_r. auto.
  Qed.
  Lemma has_tag_some t l : has_tag (Some t) (map Some l) = true <-> In t l.
  Proof.
    unfold has_tag. rewrite existsb_exists. split.
    - intros (y & I & E). apply in_map_iff in I as (x & <- & I). apply eqs_eq in E. subst. exact I.
    - intros I. exists (Some t). split; [apply in_map; exact I|apply eqs_eq; reflexivity].
  Qed.

  Lemma tags_read v strong weak : (forall t, In t (strong ++ weak) -> fine_tag t) ->
    v = et_to_header (tag_set strong weak) -> exists e, tags_of v = Ok e /\ same_tags e strong weak.
  Proof.
    intros H ->. rewrite to_header_marked.
    assert (P : Forall plain_tag (marked strong weak)).
    { apply Forall_forall. intros [m t] I. apply (H t). unfold marked in I.
      apply in_app_iff in I as [I|I]; apply in_map_iff in I as (x & E & I); injection E as _ <-;
        apply in_app_iff; auto. }
    exists (tag_set strong weak). split.
    - unfold tags_of. destruct (marked strong weak) as [|t l] eqn:E.
      + unfold marked in E. apply app_eq_nil in E as [E1 E2].
        apply map_eq_nil in E1, E2. subst. reflexivity.
      + rewrite (parse_etags_list _ (t :: l)); [|apply tag_list_join; discriminate|exact P|lia].
        rewrite <- E. destruct (texts_marked strong weak) as [-> ->]. reflexivity.
    - unfold same_tags, tag_set, et_contains, et_is_weak. cbn [e_star e_strong e_weak orb].
      split; [reflexivity|]. split; intros t; apply has_tag_some.
  Qed.
  Lemma same_tags_perm e s w s' w' : Permutation s s' -> Permutation w w' ->
    same_tags e s w -> same_tags e s' w'.
  Proof.
    intros P Q (A & B & C). split; [exact A|]. split; intros t.
    - rewrite B. split; apply Permutation_in; [|apply Permutation_sym]; assumption.
    - rewrite C. split; apply Permutation_in; [|apply Permutation_sym]; assumption.
  Qed.

  Lemma tags_shown env name p strong weak s w :
    (name = lit "If-Match" /\ p = PIfMatch) \/ (name = lit "If-None-Match" /\ p = PIfNoneMatch) ->
    (forall t, In t (strong ++ weak) -> fine_tag t) ->
    Permutation strong s -> Permutation weak w ->
    carries env name (et_to_header (tag_set s w)) ->
    exists e, shows cu ch env p (VTags e) /\ same_tags e strong weak.
  Proof.
    intros NP H PS PW C.
    destruct (tags_read (et_to_header (tag_set s w)) s w) as (e & E & S); [|reflexivity|].
    { intros t I. apply H. apply in_app_iff in I. apply in_app_iff.
      destruct I as [I|I]; [left|right]; (eapply Permutation_in; [apply Permutation_sym; eassumption|exact I]). }
    exists e. split; [|eapply same_tags_perm; [apply Permutation_sym|apply Permutation_sym|]; eassumption].
    apply shows_fresh. destruct NP as [[-> ->]|[-> ->]]; key C; cbn [ModelRequestObject.fresh];
      use C; rewrite E; reflexivity.
  Qed.
  Lemma tags_star env name p :
    (name = lit "If-Match" /\ p = PIfMatch) \/ (name = lit "If-None-Match" /\ p = PIfNoneMatch) ->
    carries env name (et_to_header (ET [] [] true)) ->
    exists e, shows cu ch env p (VTags e) /\ forall t, et_contains e t = true.
  Proof.
    intros NP C. exists (ET [] [] true). split; [|reflexivity].
    apply shows_fresh. destruct NP as [[-> ->]|[-> ->]]; key C; cbn [ModelRequestObject.fresh];
      use C; reflexivity.
  Qed.

  Lemma dates_shown env name p d t :
    (name = lit "Date" /\ p = PDate) \/ (name = lit "If-Modified-Since" /\ p = PIfModifiedSince)
    \/ (name = lit "If-Unmodified-Since" /\ p = PIfUnmodifiedSince) ->
    real_date d -> (100 <= dt_year d)%Z -> http_date (DDatetime d None) = Ok t ->
    carries env name t -> shows cu ch env p (VDate (Some d)).
  Proof.
    intros NP R Y W C. apply shows_fresh.
    pose proof (http_date_read d t R Y W) as E.
    destruct NP as [[-> ->]|[[-> ->]|[-> ->]]]; key C; cbn [ModelRequestObject.fresh]; unfold req_date;
      use C; rewrite E; reflexivity.
  Qed.
  Lemma if_range_shown_date env d tag t : real_date d -> (100 <= dt_year d)%Z ->
    if_range_to_header (mk_if_range tag (Some d)) = Ok t -> carries env (lit "If-Range") t ->
    shows cu ch env PIfRange (VIfRange (mk_if_range None (Some d))).
  Proof.
    intros R Y W C. apply shows_fresh. key C. cbn [ModelRequestObject.fresh]. use C.
    unfold if_range_to_header in W. cbn [ir_date] in W.
    pose proof (http_date_read d t R Y W) as E.
    unfold parse_if_range_header. destruct t as [|c t]; [discriminate E|].
    rewrite E. reflexivity.
  Qed.
  Lemma if_range_shown_tag env x t : two_words x -> ~ In 34 x ->
    if_range_to_header (mk_if_range (Some x) None) = Ok t -> carries env (lit "If-Range") t ->
    shows cu ch env PIfRange (VIfRange (mk_if_range (Some x) None)).
  Proof.
    intros TW Q W C. apply shows_fresh. key C. cbn [ModelRequestObject.fresh]. use C.
    unfold if_range_to_header in W. cbn [ir_date ir_etag] in W.
    apply quote_etag_ok in W as [-> _].
    pose proof (if_range_tag Strong x TW) as E. change (write_tag (Strong, x)) with (34 :: x ++ [34]) in E.
    cbn [app]. rewrite E. reflexivity.
  Qed.
  Lemma range_shown env u ms : ~ In 61 u -> strip u = u -> lower u = u -> ms <> [] -> increasing 0 ms ->
    carries env (lit "Range") (range_to_header (Rng u ms)) ->
    shows cu ch env PRange (VRange (Some (Rng u ms))).
  Proof.
    intros A B L N I C. apply shows_fresh. key C. cbn [ModelRequestObject.fresh].
    use C. rewrite range_roundtrip by assumption. reflexivity.
  Qed.
  Lemma cache_shown env ops :
    Forall (fun o => is_token (op_key o)) ops ->
    Forall (fun kv => match py_str (snd kv) with Some s => ~ wears_quotes s | None => True end) (cc_run ops) ->
    carries env (lit "Cache-Control") (cc_to_header (cc_run ops)) ->
    shows cu ch env PCacheControl (VCache (map (fun kv => (fst kv, retext (snd kv))) (cc_run ops))).
  Proof.
    intros A B C. apply shows_fresh. key C. cbn [ModelRequestObject.fresh].
    use C. rewrite (cc_header_exact (cc_run ops) (cc_run_keys ops A) B). reflexivity.
  Qed.
  Lemma basic_shown env scheme ws user password :
    same_letters scheme (lit "basic") -> ws <> [] -> (forall c, In c ws -> SpecAuth.blank c) ->
    bytes_text user -> bytes_text password -> ~ In 58 user ->
    carries env (lit "Authorization") (scheme ++ ws ++ base64 (user ++ 58 :: password)) ->
    shows cu ch env PAuthorization (VAuth (Some (ABasic user password))).
  Proof.
    intros A B D U P N C. apply shows_fresh. key C. cbn [ModelRequestObject.fresh].
    use C. rewrite basic_roundtrip by assumption. reflexivity.
  Qed.
  Lemma digest_shown env scheme ws d :
    same_letters scheme (lit "digest") -> ws <> [] -> (forall c, In c ws -> SpecAuth.blank c) ->
    d <> [] -> NoDup (map fst d) -> Forall (fun kv => is_token (fst kv)) d ->
    (forall k v, In (k, Some v) d -> bytes_text v /\ ~ wears_quotes v) -> complete_digest d ->
    carries env (lit "Authorization") (scheme ++ ws ++ dump_header_dict true d) ->
    shows cu ch env PAuthorization (VAuth (Some (ADigest d))).
  Proof.
    intros A B D U P N W K C. apply shows_fresh. key C. cbn [ModelRequestObject.fresh].
    use C. destruct (digest_roundtrip scheme ws d) as [E _]; try assumption. rewrite E by assumption. reflexivity.
  Qed.
  Lemma type_shown env h opts :
    option_name h -> Forall (fun kv => option_name (fst kv)) opts -> NoDup (map fst opts) ->
    Forall (fun kv => forall v, snd kv = Some v ->
              v <> [] /\ (fst kv = lit "filename" -> forall r, v <> 92 :: r)) opts ->
    carries env (lit "Content-Type") (dump_options_header (Some h) opts) ->
    shows cu ch env PContentType (VMaybe (Some (dump_options_header (Some h) opts)))
    /\ shows cu ch env PMimetype (VText (lower h)) /\ shows cu ch env PMimetypeParams (VParams opts).
  Proof.
    intros A B N V C. key C.
    assert (E : req_options env = Ok (h, opts)).
    { unfold req_options. use C. apply ProofOptions.options_roundtrip_spec; assumption. }
    repeat split; apply shows_fresh; cbn [ModelRequestObject.fresh].
    - unfold get_env. use C. reflexivity.
    - rewrite E. reflexivity.
    - rewrite E. reflexivity.
  Qed.
  Lemma length_shown env n : (0 <= n)%Z -> carries env (lit "Content-Length") (zdec n) ->
    shows cu ch env PContentLength (VNumber (Some n)).
  Proof.
    intros N C. apply shows_fresh. key C. cbn [ModelRequestObject.fresh]. unfold get_content_length.
    use C. rewrite py_int_zdec. cbn [option_map]. rewrite Z.max_r by exact N. reflexivity.
  Qed.
  Lemma pragma_shown env l : Forall (fun v => ~ wears_quotes v) l -> l <> [[]] ->
    carries env (lit "Pragma") (dump_header_list true l) ->
    exists s, shows cu ch env PPragma (VNames s) /\ hs_iter s = l.
  Proof.
    intros W N C. key C. eexists. split.
    - apply shows_fresh. cbn [ModelRequestObject.fresh]. use C. reflexivity.
    - assert (E : parse_list_header (dump_header_list true l) = l)
        by (apply list_header_roundtrip; [intros ->; contradiction|exact W]).
      unfold parse_set_header. destruct (dump_header_list true l) as [|c r] eqn:D.
      + cbn in E. subst l. reflexivity.
      + rewrite E. reflexivity.
  Qed.
  Lemma plain_shown env name p v :
    In (name, p) [(lit "Referer", PReferrer); (lit "Content-Encoding", PContentEncoding);
                  (lit "Content-MD5", PContentMd5); (lit "Content-Type", PContentType)] ->
    (carries env name v -> shows cu ch env p (VMaybe (Some v)))
    /\ (without env name -> shows cu ch env p (VMaybe None)).
  Proof.
    intros I. cbn [In] in I.
    destruct I as [E|[E|[E|[E|[]]]]]; injection E as <- <-;
      (split; intros C; apply shows_fresh; key C; cbn [ModelRequestObject.fresh]; unfold get_env; use C; reflexivity).
  Qed.
  Lemma forwards_shown env n : carries env (lit "Max-Forwards") (zdec n) ->
    shows cu ch env PMaxForwards (VNumber (Some n)).
  Proof.
    intros C. apply shows_fresh. key C. cbn [ModelRequestObject.fresh]. unfold req_max_forwards.
    use C. rewrite py_int_zdec. reflexivity.
  Qed.

  Lemma absent_shown env name p v : In (name, p, v) when_absent -> without env name -> shows cu ch env p v.
  Proof.
    intros I C. unfold when_absent in I. cbn [In] in I.
    repeat (destruct I as [E|I]; [injection E as <- <- <-; apply shows_fresh; key C;
      cbn [ModelRequestObject.fresh]; unfold req_cookies, req_options, req_date, get_content_length;
      use C; reflexivity | ]).
    destruct I.
  Qed.
End object.

(** ** Closing *)
Section closing.
  Variable does : nat -> effect.
  Lemma close_files_quiet files : forall calls, (forall f, In f files -> ef_raises (does f) = None) ->
    close_files does files calls = (calls ++ files, None).
  Proof.
    induction files as [|f files IH]; intros calls H; cbn [close_files].
    - rewrite app_nil_r. reflexivity.
    - rewrite (H f (or_introl eq_refl)). rewrite IH by (intros g I; apply H; right; exact I).
      rewrite <- app_assoc. reflexivity.
  Qed.
  Lemma close_files_raises files : forall calls c e, close_files does files calls = (c, Some e) ->
    exists pre f post, files = pre ++ f :: post /\ c = calls ++ pre ++ [f] /\ ef_raises (does f) = Some e
      /\ forall g, In g pre -> ef_raises (does g) = None.
  Proof.
    induction files as [|f files IH]; intros calls c e H; cbn [close_files] in H; [discriminate|].
    destruct (ef_raises (does f)) as [x|] eqn:E.
    - injection H as <- <-. exists [], f, files. repeat split; auto. intros g [].
    - apply IH in H as (pre & g & post & -> & -> & R & P).
      exists (f :: pre), g, post. rewrite <- app_assoc. repeat split; auto.
      intros h [<-|I]; auto.
  Qed.
  Lemma close_files_none files : forall calls c, close_files does files calls = (c, None) ->
    c = calls ++ files /\ forall g, In g files -> ef_raises (does g) = None.
  Proof.
    induction files as [|f files IH]; intros calls c H; cbn [close_files] in H.
    - injection H as <-. rewrite app_nil_r. split; [reflexivity|intros g []].
    - destruct (ef_raises (does f)) as [x|] eqn:E; [discriminate|].
      apply IH in H as [-> P]. rewrite <- app_assoc. split; [reflexivity|].
      intros g [<-|I]; auto.
  Qed.
  Lemma close_funcs_ended fuel : forall pending done c l e, close_funcs does fuel pending done = Some (c, l, e) ->
    exists more, l = done ++ pending ++ more /\
      match e with
      | None => c = l /\ forall g, In g (pending ++ more) -> ef_raises (does g) = None
      | Some x => exists pre f post, pending ++ more = pre ++ f :: post /\ c = done ++ pre ++ [f]
                    /\ ef_raises (does f) = Some x /\ forall g, In g pre -> ef_raises (does g) = None
      end.
  Proof.
    induction fuel as [|fuel IH]; intros pending done c l e H; destruct pending as [|f rest]; cbn [close_funcs] in H.
    - injection H as <- <- <-. exists []. rewrite app_nil_r. split; [reflexivity|]. split; [reflexivity|intros g []].
    - discriminate.
    - injection H as <- <- <-. exists []. rewrite app_nil_r. split; [reflexivity|]. split; [reflexivity|intros g []].
    - destruct (ef_raises (does f)) as [x|] eqn:R.
      + injection H as <- <- <-. exists (ef_adds (does f)). split; [reflexivity|].
        exists [], f, (rest ++ ef_adds (does f)). repeat split; auto. intros g [].
      + apply IH in H as (more & -> & K). exists (ef_adds (does f) ++ more).
        split; [rewrite <- !app_assoc; reflexivity|].
        rewrite <- app_assoc in K.
        destruct e as [x|].
        * destruct K as (pre & g & post & E & -> & G & P). exists (f :: pre), g, post.
          cbn [app]. rewrite E. rewrite <- !app_assoc. repeat split; auto.
          intros h [<-|I]; auto.
        * destruct K as [-> P]. rewrite <- !app_assoc. split; [reflexivity|].
          cbn [app]. intros g [<-|I]; auto.
  Qed.
  Lemma close_funcs_quiet fuel : forall pending done, (length pending <= fuel)%nat ->
    (forall f, In f pending -> quiet does f) ->
    close_funcs does fuel pending done = Some (done ++ pending, done ++ pending, None).
  Proof.
    induction fuel as [|fuel IH]; intros pending done L Q; destruct pending as [|f rest]; cbn [close_funcs length] in *.
    - rewrite app_nil_r. reflexivity.
    - lia.
    - rewrite app_nil_r. reflexivity.
    - destruct (Q f (or_introl eq_refl)) as [A R]. rewrite R, A, app_nil_r.
      rewrite IH; [rewrite <- app_assoc; reflexivity|lia|]. intros g I. apply Q. right. exact I.
  Qed.

  Lemma close_quiet fuel files on_close : (length on_close <= fuel)%nat ->
    (forall f, In f (files ++ on_close) -> quiet does f) ->
    close_request does fuel files on_close = Some (files ++ on_close, on_close, None).
  Proof.
    intros L Q. unfold close_request.
    rewrite close_files_quiet by (intros f I; apply Q; apply in_app_iff; auto).
    rewrite close_funcs_quiet; [reflexivity|exact L|]. intros f I. apply Q. apply in_app_iff. auto.
  Qed.
  Lemma close_ended fuel files on_close calls final e :
    close_request does fuel files on_close = Some (calls, final, e) ->
    exists more, final = on_close ++ more /\
      match e with
      | None => calls = files ++ final
      | Some x => exists pre f post, files ++ final = pre ++ f :: post /\ calls = pre ++ [f]
                    /\ ef_raises (does f) = Some x /\ forall g, In g pre -> ef_raises (does g) = None
      end.
  Proof.
    unfold close_request. destruct (close_files does files []) as [c [x|]] eqn:E.
    - intros H. injection H as <- <- <-. exists []. rewrite app_nil_r. split; [reflexivity|].
      apply close_files_raises in E as (pre & f & post & -> & -> & R & P).
      exists pre, f, (post ++ on_close). rewrite <- app_assoc. auto.
    - apply close_files_none in E as [-> PF]. cbn [app].
      destruct (close_funcs does fuel on_close []) as [[[c l] e']|] eqn:F; cbn [option_map fst snd]; [|discriminate].
      intros H. injection H as <- <- <-.
      apply close_funcs_ended in F as (more & -> & K). exists more. cbn [app] in *. split; [reflexivity|].
      destruct e' as [x|].
      + destruct K as (pre & f & post & EQ & -> & R & P).
        exists (files ++ pre), f, post. rewrite EQ, <- !app_assoc. repeat split; auto.
        intros g I. apply in_app_iff in I as [I|I]; auto.
      + destruct K as [-> _]. reflexivity.
  Qed.
End closing.

(** ** Attributes without a header object *)
Lemma lower_letters v w : (forall c, In c w -> 97 <= c <= 122) -> lower v = w <-> same_letters v w.
Proof.
  intros Hw. split.
  - intros <-. induction v as [|c v IH]; [constructor|]. constructor.
    + pose proof (Hw (lower_c c) (or_introl eq_refl)) as H. revert H.
      unfold lower_c, is_ascii_upper, between.
      destruct ((65 <=? c) && (c <=? 90)) eqn:E; [lia|].
      destruct ((192 <=? c) && (c <=? 222) && negb (c =? 215)) eqn:E2; lia.
    + apply IH. intros d Hd. apply Hw. right. exact Hd.
  - induction 1 as [|c d v w H _ IH]; [reflexivity|]. cbn [lower map]. f_equal.
    + pose proof (Hw d (or_introl eq_refl)) as Hd. unfold lower_c, is_ascii_upper, between.
      destruct ((65 <=? c) && (c <=? 90)) eqn:E; [lia|].
      destruct ((192 <=? c) && (c <=? 222) && negb (c =? 215)) eqn:E2; lia.
    + apply IH. intros e He. apply Hw. right. exact He.
Qed.
Lemma xhr_shown cu ch env :
  (forall v, carries env (lit "X-Requested-With") v ->
     exists b, shows cu ch env PIsXhr (VFlag b) /\ (b = true <-> same_letters v (lit "xmlhttprequest")))
  /\ (without env (lit "X-Requested-With") -> shows cu ch env PIsXhr (VFlag false)).
Proof.
  split.
  - intros v H. exists (req_is_xhr env). split; [reflexivity|]. unfold req_is_xhr, env_or.
    change (cgi_key (lit "X-Requested-With")) with (lit "HTTP_X_REQUESTED_WITH") in H.
    unfold carries in H. change (cgi_key (lit "X-Requested-With")) with (lit "HTTP_X_REQUESTED_WITH") in H.
    rewrite H, lower_idem. rewrite eqs_eq. apply lower_letters. cbn. intros c Hc. lia.
  - unfold without. change (cgi_key (lit "X-Requested-With")) with (lit "HTTP_X_REQUESTED_WITH"). intros H.
    change (Ok (VFlag (req_is_xhr env)) = Ok (VFlag false)). unfold req_is_xhr, env_or. rewrite H. reflexivity.
Qed.
Lemma method_shown cu ch env m : dget env (lit "REQUEST_METHOD") = Some m ->
  exists r, shows cu ch env PMethod (VText r) /\ same_letters m r /\ (forall c, In c r -> ~ 97 <= c <= 122).
Proof.
  intros H. exists (upper m). split; [|split].
  - change (Ok (VText (req_method env)) = Ok (VText (upper m))). unfold req_method. rewrite H. reflexivity.
  - clear H. induction m as [|c m IH]; constructor; auto. unfold upper_c, is_ascii_lower, between.
    destruct ((97 <=? c) && (c <=? 122)) eqn:E; lia.
  - intros c Hc. apply in_map_iff in Hc as (d & <- & _). unfold upper_c, is_ascii_lower, between.
    destruct ((97 <=? d) && (d <=? 122)) eqn:E; lia.
Qed.
