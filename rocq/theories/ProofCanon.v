(** Lemmas about canonical URLs. *)
From Coq Require Import Arith List NArith ZArith Bool Lia ZifyBool ZifyN ZifyNat Permutation Sorted.
From Verif Require Import PyStr PyStrFacts Regex RegexFacts Utf8 Utf8Facts ModelUrls SpecUrls ProofUrls ModelRoute SpecRoute ProofRoute ModelUrlMap SpecUrlMap ProofUrlMap SpecCanon.
Import ListNotations.
Open Scope N_scope.

Lemma text_alike p q : text_eqb (trace_text p) (trace_text q) = true <-> alike p q.
Proof.
  destruct p, q; unfold text_eqb; cbn [trace_text fst snd Bool.eqb andb].
  - rewrite eqs_eq. split; [intros ->; constructor|intros H; inv H; auto].
  - split; [discriminate|intros H; inv H].
  - split; [discriminate|intros H; inv H].
  - rewrite eqs_eq. split; [intros ->; constructor|intros H; inv H; auto].
Qed.
Lemma texts_alike l l' : list_eqb text_eqb (map trace_text l) (map trace_text l') = true <-> Forall2 alike l l'.
Proof.
  revert l'. induction l as [|p l IH]; intros [|q l']; cbn [map list_eqb].
  - split; [constructor|auto].
  - split; [discriminate|intros H; inv H].
  - split; [discriminate|intros H; inv H].
  - rewrite andb_true_iff, text_alike, IH. split; [intros [H1 H2]; constructor; auto|intros H; inv H; auto].
Qed.
Lemma same_set_spec a b : same_set a b = true <-> forall k, In k a <-> In k b.
Proof.
  unfold same_set. rewrite andb_true_iff, !forallb_forall. split.
  - intros [H1 H2] k. split; intros H; [apply H1 in H|apply H2 in H]; apply existsb_exists in H as (y & H & E); apply eqs_eq in E; subst; auto.
  - intros H. split; intros x Hx; apply existsb_exists; exists x; (split; [apply H; auto|apply eqs_eq; auto]).
Qed.
Lemma provides_spec a b : provides_defaults_for a b = true <->
  r_build_only a = false /\ r_defaults a <> [] /\ r_endpoint a = r_endpoint b /\
  ~ Forall2 alike (template a) (template b) /\ forall k, takes a k <-> takes b k.
Proof.
  unfold provides_defaults_for, route_eqb. rewrite !andb_true_iff, !negb_true_iff, eqs_eq, same_set_spec.
  assert (D : match r_defaults a with [] => false | _ => true end = true <-> r_defaults a <> []) by (destruct (r_defaults a); split; congruence).
  assert (T : list_eqb text_eqb (map trace_text (trace a)) (map trace_text (trace b)) = false <-> ~ Forall2 alike (template a) (template b)).
  { change (template a) with (trace a). change (template b) with (trace b). rewrite <- texts_alike.
    destruct (list_eqb text_eqb (map trace_text (trace a)) (map trace_text (trace b))); split; congruence. }
  assert (K : (forall k, In k (arguments a) <-> In k (arguments b)) <-> forall k, takes a k <-> takes b k).
  { split; intros H k; specialize (H k); rewrite ?takes_in in *; auto. }
  rewrite D, T, K. tauto.
Qed.
Lemma precedes_irrefl x y : precedes x y -> precedes y x -> False.
Proof.
  intros [H|[H I]] [H'|[H' I']].
  - apply build_before_spec in H, H'. pose proof (build_trans _ _ _ H H') as T. rewrite build_irrefl in T. discriminate.
  - destruct H' as (A & (n & N1 & N2) & D). apply takes_many_iff in N1, N2.
    apply build_before_spec, build_ltb_key in H. unfold bkey_lt, build_key in H. rewrite A in H.
    destruct (r_alias (b_route x)); lia.
  - destruct H as (A & (n & N1 & N2) & D). apply takes_many_iff in N1, N2.
    apply build_before_spec, build_ltb_key in H'. unfold bkey_lt, build_key in H'. rewrite A in H'.
    destruct (r_alias (b_route y)); lia.
  - lia.
Qed.
Lemma update_all_get {V} (e : dict V) : NoDup (map fst e) -> forall d k,
  dget (update_all d e) k = match dget e k with Some v => Some v | None => dget d k end.
Proof.
  unfold update_all. induction e as [|[k0 v0] e IH]; intros N d k; cbn [fold_left fst snd]; [reflexivity|].
  cbn in N. apply NoDup_cons_iff in N as [N1 N2]. rewrite IH by auto. rewrite dget_dset. cbn [dget].
  destruct (dget e k) as [v|] eqn:E.
  - destruct (eqs k k0) eqn:Ek; auto. apply eqs_eq in Ek. subst. exfalso. apply N1. apply dget_In in E. apply (in_map fst) in E. auto.
  - destruct (eqs k k0); auto.
Qed.

Section Canon.
  Variables (ip_ok nfkc_ok : str -> bool).
  Notation match_path := (match_path ip_ok nfkc_ok).

  (** what the loop does *)
  Definition canon_answer (a : adapter) (r : broute) (values : dict value) (q : str) : res (option str) :=
    do rv <- route_build (b_route r) (update_all values (r_defaults (b_route r))) true;
    match rv with
    | None => Raise TypeError
    | Some (domain_part, path) => Ok (Some (make_redirect_url a path q (Some domain_part)))
    end.
  Lemma default_redirect_cases a l b values q :
    StronglySorted precedes l -> (forall x y, In x l -> In y l -> b_id x = b_id y -> x = y) -> In b l ->
    (forall x, In x l -> r_endpoint (b_route x) = r_endpoint (b_route b)) ->
    (default_redirect a l b values q = Ok None /\ forall r, In r l -> ~ canonical values b r) \/
    (exists r, In r l /\ canonical values b r /\ (forall r', In r' l -> canonical values b r' -> r' = r \/ precedes r r') /\
       default_redirect a l b values q = canon_answer a r values q).
  Proof.
    intros S U Hb He. induction S as [|x l S IH F]; [destruct Hb|]. cbn [default_redirect].
    rewrite Forall_forall in F.
    destruct (b_id x =? b_id b)%nat eqn:Ei.
    - apply Nat.eqb_eq in Ei. apply U in Ei; [subst x|left; auto|auto]. left. split; [auto|].
      intros r Hr C. pose proof (ca_precedes _ _ _ C) as P. destruct Hr as [<-|Hr].
      + eapply precedes_irrefl; eauto.
      + eapply precedes_irrefl; [exact P|]. apply F. auto.
    - apply Nat.eqb_neq in Ei. destruct Hb as [->|Hb]; [congruence|].
      destruct (provides_defaults_for (b_route x) (b_route b) && suitable_for (b_route x) values) eqn:E.
      + apply andb_true_iff in E as [E1 E2]. apply provides_spec in E1 as (P1 & P2 & P3 & P4 & P5). apply suitable_iff in E2.
        right. exists x. split; [left; auto|]. split; [constructor; auto|]. split; [|reflexivity].
        intros r' [->|Hr'] _; auto.
      + assert (Nx : ~ canonical values b x).
        { intros [C1 C2 C3 C4 C5 C6 C7]. assert (P : provides_defaults_for (b_route x) (b_route b) = true) by (apply provides_spec; auto).
          apply suitable_iff in C7. rewrite P, C7 in E. discriminate. }
        destruct IH as [[H1 H2]|(r & H1 & H2 & H3 & H4)]; auto.
        * intros y z Hy Hz. apply U; right; auto.
        * intros y Hy. apply He. right; auto.
        * left. split; [auto|]. intros r [<-|Hr]; auto.
        * right. exists r. split; [right; auto|]. split; [auto|]. split; [|auto]. intros r' [->|Hr'] C; [contradiction|auto].
  Qed.

  Lemma endpoint_sorted mk g m e : made mk g m -> StronglySorted precedes (endpoint_routes (update m) e).
  Proof.
    intros M. pose proof (made_inv _ _ _ M) as I. destruct (update_inv _ I) as (I' & R & P).
    pose proof (mi_bsorted _ I' R e) as S. clear - S. induction S as [|x l S IH F]; constructor; auto. eapply Forall_impl; [|exact F].
    intros y [O|[O1 O2]]; [left; apply build_before_spec; auto|].
    destruct (build_ltb x y) eqn:E; [left; apply build_before_spec; auto|]. right. split; [apply same_build_spec; auto|auto].
  Qed.
  Lemma endpoint_member mk g m e x : made mk g m ->
    In x (endpoint_routes (update m) e) <-> In x (m_routes m) /\ r_endpoint (b_route x) = e.
  Proof.
    intros M. pose proof (made_inv _ _ _ M) as I. destruct (update_inv _ I) as (I' & R & P).
    pose proof (mi_perm _ I' e) as Q. split.
    - intros H. apply (Permutation_in _ Q) in H. apply filter_In in H as [H E]. apply eqs_eq in E.
      split; auto. apply (Permutation_in _ P). auto.
    - intros [H E]. apply (Permutation_in _ (Permutation_sym Q)). apply filter_In. split; [|apply eqs_eq; auto].
      apply (Permutation_in _ (Permutation_sym P)). auto.
  Qed.
  Lemma nodup_inj {A B} (f : A -> B) l x y : NoDup (map f l) -> In x l -> In y l -> f x = f y -> x = y.
  Proof.
    induction l as [|z l IH]; intros N Hx Hy E; [destruct Hx|]. cbn in N. apply NoDup_cons_iff in N as [N1 N2].
    destruct Hx as [->|Hx], Hy as [->|Hy]; auto.
    - exfalso. apply N1. rewrite E. apply in_map. auto.
    - exfalso. apply N1. rewrite <- E. apply in_map. auto.
  Qed.
  Lemma landing_url a path q d root : a_scheme a <> [] -> get_host a (Some d) <> [] -> root_of (a_script a) root ->
    landing a d path q (make_redirect_url a path q (Some d)).
  Proof.
    intros Hs Hh R. pose proof (relative_lstrip path) as P. rewrite (redirect_url a path q (Some d) root _ Hs Hh R P).
    pose proof (get_host_some a d) as T.
    destruct (is_nil (lstrip_slash path) && (length root <=? 1)%nat) eqn:E.
    - apply andb_true_iff in E as [E1 E2]. apply Nat.leb_le in E2. cbn [app]. apply la_top; auto.
      + inversion R as [s0 Hs0|s1 name s2 Z1 Z2 Z3 Z4 Z5]; subst; auto. exfalso. cbn [length] in E2. rewrite app_length in E2. cbn in E2. lia.
      + destruct P as (s & Es & Hsl & _). destruct (lstrip_slash path); [|discriminate]. rewrite app_nil_r in Es. subst. auto.
    - rewrite <- app_assoc. apply la_path; auto. apply andb_false_iff in E as [E|E].
      + right. destruct (lstrip_slash path); [discriminate|congruence].
      + left. intros ->. cbn in E. discriminate.
  Qed.
  Lemma default_canonical mk g a p q b path values root : made mk g (a_map a) -> asked a p path ->
    best (g_redirect_defaults (m_config (a_map a))) path (m_routes (a_map a)) b ->
    route_match (g_redirect_defaults (m_config (a_map a))) (b_route b) path = Ok (MValues values) ->
    (forall r, In r (m_routes (a_map a)) -> NoDup (map fst (r_defaults (b_route r)))) ->
    a_scheme a <> [] -> root_of (a_script a) root ->
    (g_redirect_defaults (m_config (a_map a)) = false \/ (forall r, In r (m_routes (a_map a)) -> ~ canonical values b r) ->
       b_redirect b = NoRedirect -> snd (match_path a p q) = Ok (Found b values)) /\
    (g_redirect_defaults (m_config (a_map a)) = true -> (exists r, In r (m_routes (a_map a)) /\ canonical values b r) ->
     exists r vals, In r (m_routes (a_map a)) /\ canonical values b r /\
       (forall r', In r' (m_routes (a_map a)) -> canonical values b r' -> r' = r \/ precedes r r') /\
       with_defaults values (r_defaults (b_route r)) vals /\
       match route_build (b_route r) vals true with
       | Ok (Some (d, x)) => forall host, target_host a d host -> host <> [] -> exists u, landing a d x q u /\ snd (match_path a p q) = Ok (Redirect u)
       | Ok None => snd (match_path a p q) = Raise TypeError
       | Raise e => snd (match_path a p q) = Raise e
       end).
  Proof.
    intros M A B Hm Nd Hs R. set (rd := g_redirect_defaults (m_config (a_map a))) in *.
    pose proof (asked_path _ _ _ A) as E. subst path.
    pose proof (best_chosen _ _ _ _ _ _ M B) as C.
    rewrite (match_chosen ip_ok nfkc_ok a p q b C). unfold respond. rewrite update_adapter_rd, update_adapter_path.
    change (rdefaults a) with rd. rewrite Hm. cbn [bind]. unfold matched. cbn [a_map update_adapter]. rewrite update_config. fold rd.
    change (UrlMap (m_config (update (a_map a)))) with (UrlMap (m_config (update (a_map a)))).
    assert (X := default_redirect_cases (update_adapter a) (endpoint_routes (update (a_map a)) (r_endpoint (b_route b))) b values q).
    pose proof (made_inv _ _ _ M) as I.
    destruct X as [[X1 X2]|(r & X1 & X2 & X3 & X4)].
    - eapply endpoint_sorted; eauto.
    - intros x y Hx Hy Hid. apply (endpoint_member mk g) in Hx as [Hx _]; auto. apply (endpoint_member mk g) in Hy as [Hy _]; auto.
      eapply nodup_inj; [apply (mi_nodup _ I)| | |]; auto.
    - apply (endpoint_member mk g); auto. split; auto. apply (best_in _ _ _ _ B).
    - intros x Hx. apply (endpoint_member mk g) in Hx; tauto.
    - split.
      + intros _ Hn. rewrite X1. destruct rd; cbn [bind]; rewrite Hn; auto.
      + intros _ (r & Hr & Cr). exfalso. apply (X2 r); auto. apply (endpoint_member mk g); auto. split; auto. apply (ca_endpoint _ _ _ Cr).
    - apply (endpoint_member mk g) in X1 as [Xr Xe]; auto. split.
      + intros [Hrd|Hno] Hn; [rewrite Hrd; cbn [bind]; rewrite Hn; auto|]. exfalso. apply (Hno r); auto.
      + intros Hrd _. exists r, (update_all values (r_defaults (b_route r))). split; [auto|]. split; [auto|]. split.
        { intros r' Hr' Cr'. apply X3; auto. apply (endpoint_member mk g); auto. split; auto. apply (ca_endpoint _ _ _ Cr'). }
        split; [intros k; apply update_all_get; auto|].
        rewrite Hrd, X4. unfold canon_answer.
        destruct (route_build (b_route r) (update_all values (r_defaults (b_route r))) true) as [[[d x]|]|e] eqn:Eb; cbn [bind]; auto.
        rewrite update_redirect_url. intros host T Hh. eexists. split; [|reflexivity]. eapply landing_url; eauto. rewrite <- (target_unique _ _ _ T). auto.
  Qed.
  Lemma drop_given values : given (map (fun kv => (fst kv, Some (snd kv))) values) values.
  Proof. induction values as [|[k v] l IH]; cbn; constructor; auto. Qed.
  Lemma alias_canonical mk g a p q b path values : made mk g (a_map a) -> asked a p path ->
    best (g_redirect_defaults (m_config (a_map a))) path (m_routes (a_map a)) b ->
    route_match (g_redirect_defaults (m_config (a_map a))) (b_route b) path = Ok (MAlias values) ->
    a_scheme a <> [] -> ends [47] (a_script a) = true ->
    (g_host_matching (m_config (a_map a)) = false -> a_subdomain a <> None) ->
    (snd (match_path a p q) = Raise BuildError /\
       forall r, In r (m_routes (a_map a)) -> r_endpoint (b_route r) = r_endpoint (b_route b) -> refused values false r) \/
    exists r, In r (m_routes (a_map a)) /\ r_endpoint (b_route r) = r_endpoint (b_route b) /\ suits (b_route r) values /\
      (forall r', In r' (m_routes (a_map a)) -> r_endpoint (b_route r') = r_endpoint (b_route b) -> precedes r' r -> refused values false r') /\
      match route_build (b_route r) values false with
      | Ok (Some (d, x)) => forall host, target_host a d host -> host <> [] -> exists u, addressed ip_ok nfkc_ok a true d x (Ok u) /\
          snd (match_path a p q) = (if eqs (u ++ query_suffix q) path then Raise AssertionError else Ok (Redirect (u ++ query_suffix q)))
      | Ok None => False
      | Raise e => snd (match_path a p q) = Raise e
      end.
  Proof.
    intros M A B Hm Hs He Hsub. set (rd := g_redirect_defaults (m_config (a_map a))) in *.
    pose proof (asked_path _ _ _ A) as E. subst path.
    pose proof (best_chosen _ _ _ _ _ _ M B) as C.
    rewrite (match_chosen ip_ok nfkc_ok a p q b C). unfold respond. rewrite update_adapter_rd, update_adapter_path.
    change (rdefaults a) with rd. rewrite Hm. cbn [bind]. unfold alias_redirect.
    assert (Eb : build_updated ip_ok nfkc_ok (update_adapter a) (r_endpoint (b_route b)) values true false =
      snd (build ip_ok nfkc_ok a (r_endpoint (b_route b)) (map (fun kv => (fst kv, Some (snd kv))) values) true false)).
    { unfold build. cbn [snd]. rewrite <- (given_unique _ _ (drop_given values)). auto. }
    rewrite Eb.
    destruct (build_cases ip_ok nfkc_ok mk g a (r_endpoint (b_route b)) _ values true false M (drop_given values)) as (l & Pl & Sl & Cases).
    assert (Hl : forall x, In x l <-> In x (m_routes (a_map a)) /\ r_endpoint (b_route x) = r_endpoint (b_route b)).
    { intros x. split; intros H.
      - apply (Permutation_in _ Pl), filter_In in H as [H1 H2]. apply eqs_eq in H2. auto.
      - apply (Permutation_in _ (Permutation_sym Pl)), filter_In. destruct H as [H1 H2]. split; auto. apply eqs_eq; auto. }
    destruct Cases as [[E H]|(l1 & r & l2 & El & H1 & H2 & H3)].
    - left. rewrite E. cbn [bind]. split; auto. intros r Hr Er. apply H, Hl. auto.
    - right. exists r. assert (Hr : In r l) by (rewrite El; apply in_or_app; right; left; auto). apply Hl in Hr as [Hr1 Hr2].
      split; [auto|]. split; [auto|]. split; [auto|]. split.
      { intros r' Hr' Er' P. assert (Hi : In r' l) by (apply Hl; auto). rewrite El in Hi. apply in_app_iff in Hi as [Hi|[<-|Hi]]; auto.
        - exfalso. eapply precedes_irrefl; eauto.
        - exfalso. rewrite El in Sl. eapply precedes_irrefl; [exact P|]. eapply sorted_pairs in Sl; eauto. }
      destruct H3 as [(d & x & Eb' & H3)|(e & Eb' & H3)]; rewrite Eb'; [|rewrite H3; reflexivity].
      intros h0 T0 Hh. rewrite (target_unique _ _ _ T0) in Hh. assert (Had := H3 Hs He Hh Hsub). clear H3.
      remember (snd (build ip_ok nfkc_ok a (r_endpoint (b_route b)) (map (fun kv => (fst kv, Some (snd kv))) values) true false)) as bu eqn:Ebu.
      destruct Had as [host rel rt u T1 T2 T3 T4 T5 T6 T7|host rel T1 T2 T3 T4]; [|discriminate].
      exists u. split; [eapply ad_external; eauto|]. cbn [bind].
      replace (if is_nil q then u else u ++ 63 :: q) with (u ++ query_suffix q) by (destruct q; cbn; [apply app_nil_r|auto]).
      destruct (eqs (u ++ query_suffix q) (full_path a p)); auto.
  Qed.
End Canon.
