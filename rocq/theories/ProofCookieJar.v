(** Lemmas about the cookies of the test client. *)
From Coq Require Import Arith List NArith ZArith Bool Lia ZifyBool ZifyN ZifyNat.
From Verif Require Import PyStr PyStrFacts Utf8 Utf8Facts ModelUrls SpecUrls ModelHeaders SpecHeaders ProofHeaders ProofUrls ModelCookie SpecCookie ProofCookie
  ModelMultiDict ModelCombined ModelStream SpecStream ModelWsgi ModelRequest SpecRequest ProofRequest ProofCurrent
  ModelTest SpecTest ProofTest ProofBuilder ProofEnviron ProofClient ModelCookieJar SpecCookieJar.
Import ListNotations.
Open Scope N_scope.
Ltac inv H := inversion H; subst; clear H.

(** ** Headers *)
Lemma get_all_values h name : values_of name h (get_all h name).
Proof.
  unfold get_all. induction h as [|[k v] h IH]; [constructor|]. cbn [filter fst].
  destruct (eqs (lower k) (lower name)) eqn:E; cbn [map snd].
  - apply vo_hit; auto. unfold same_name. apply eqs_eq. exact E.
  - apply vo_miss; auto. unfold same_name. intros X. apply eqs_eq in X. congruence.
Qed.
Lemma line_of l : l <> [] -> cookie_line l (join (lit "; ") (map (fun nv => fst nv ++ [61] ++ value_text (snd nv)) l)).
Proof.
  induction l as [|[n v] l IH]; [congruence|]. intros _. destruct l as [|c l].
  - destruct v; cbn [map join fst snd value_text]; constructor.
  - specialize (IH ltac:(discriminate)).
    change (join (lit "; ") (map (fun nv => fst nv ++ [61] ++ value_text (snd nv)) ((n, v) :: c :: l)))
      with ((n ++ [61] ++ value_text v) ++ lit "; " ++ join (lit "; ") (map (fun nv : str * option str => fst nv ++ [61] ++ value_text (snd nv)) (c :: l))).
    destruct v as [s|]; cbn [value_text].
    + replace ((n ++ [61] ++ s) ++ lit "; " ++ join (lit "; ") (map (fun nv : str * option str => fst nv ++ [61] ++ value_text (snd nv)) (c :: l)))
        with (n ++ [61] ++ s ++ lit "; " ++ join (lit "; ") (map (fun nv : str * option str => fst nv ++ [61] ++ value_text (snd nv)) (c :: l))) by (rewrite <- !app_assoc; reflexivity).
      apply line_more. exact IH.
    + replace ((n ++ [61] ++ lit "None") ++ lit "; " ++ join (lit "; ") (map (fun nv : str * option str => fst nv ++ [61] ++ value_text (snd nv)) (c :: l)))
        with (n ++ lit "=None; " ++ join (lit "; ") (map (fun nv : str * option str => fst nv ++ [61] ++ value_text (snd nv)) (c :: l))) by (rewrite <- !app_assoc; reflexivity).
      apply line_bare_more. exact IH.
Qed.
Lemma inject_nil e : inject [] e = e.
Proof. reflexivity. Qed.
Lemma inject_cons l e : l <> [] ->
  inject l e = dset e (lit "HTTP_COOKIE") (join (lit "; ") (map (fun nv => fst nv ++ [61] ++ value_text (snd nv)) l)).
Proof. destruct l; [congruence|reflexivity]. Qed.
Lemma inject_carries l e : carries_cookies l e (inject l e).
Proof.
  destruct l as [|c l]; [left; auto|]. right. rewrite inject_cons by discriminate.
  eexists. split; [apply line_of; discriminate|]. split; [apply dget_dset_eq|]. intros k Hk. apply dget_dset_neq; auto.
Qed.
Lemma inject_other l e k : k <> lit "HTTP_COOKIE" -> dget (inject l e) k = dget e k.
Proof. intros H. destruct (inject_carries l e) as [[_ ->]|(s & _ & _ & X)]; auto. Qed.

Section jar.
  Variable guess : str -> option str.
  Variables (idna_part idna_decode_part : str -> res str) (ip_ok nfkc_ok : str -> bool).
  Variable jar : Type.
  Variable cookies : jar -> list (str * option str).
  Variable store : jar -> list str -> list str -> str -> res jar.
  Variable application : nat -> dict str -> str -> res (str * headers).
  Notation run := (run idna_part idna_decode_part ip_ok nfkc_ok jar cookies store application).
  Notation follow_j := (follow_j guess idna_part idna_decode_part ip_ok nfkc_ok jar cookies store application).
  Notation open_j := (open_j guess idna_part idna_decode_part ip_ok nfkc_ok jar cookies store application).
  Notation visits := (visits jar cookies store
    (fun e => get_current_url idna_part idna_decode_part ip_ok nfkc_ok e false false false None) application).

  Lemma run_visit n j r l j2 : forall v jo, run n (Some j) r = (v, jo) ->
    exists j1, jo = Some j1 /\ v_request v = r /\ (visits (S n) j1 l j2 -> visits n j (v :: l) j2).
  Proof.
    intros v jo H. unfold ModelCookieJar.run in H.
    destruct (application n (inject (cookies j) (fst r)) (u_left (snd r))) as [[status h]|e] eqn:A.
    - unfold extract in H. cbn [snd] in H.
      destruct (get_current_url _ _ _ _ _ _ _ _ _) as [url|e] eqn:U; cbn [bind] in H.
      + destruct (store j (get_all h (lit "Set-Cookie2")) (get_all h (lit "Set-Cookie")) url) as [j1|e] eqn:S; inv H; eexists; (split; [reflexivity|]); (split; [reflexivity|]); intros V.
        * eapply visits_ok; cbn [v_request v_sent v_outcome]; eauto using inject_carries, get_all_values.
        * eapply visits_refused; cbn [v_request v_sent v_outcome]; eauto using inject_carries, get_all_values.
      + inv H. eexists. split; [reflexivity|]. split; [reflexivity|]. intros V.
        eapply visits_refused; cbn [v_request v_sent v_outcome]; eauto using inject_carries, get_all_values.
    - inv H. eexists. split; [reflexivity|]. split; [reflexivity|]. intros V.
      eapply visits_fails; cbn [v_request v_sent v_outcome]; eauto using inject_carries.
  Qed.
  Lemma visits_app n j l1 j1 l2 j2 : visits n j l1 j1 -> visits (n + length l1) j1 l2 j2 -> visits n j (l1 ++ l2) j2.
  Proof.
    induction 1; cbn [app length]; intros V.
    - rewrite Nat.add_0_r in V. exact V.
    - rewrite Nat.add_succ_r in V. eapply visits_ok; eauto.
    - rewrite Nat.add_succ_r in V. eapply visits_fails; eauto.
    - rewrite Nat.add_succ_r in V. eapply visits_refused; eauto.
  Qed.
  Lemma follow_visits fuel : forall allow j0 j environ response chain trail x c t jo,
    visits 0 j0 trail j -> follow_j fuel allow (Some j) environ response chain trail = (x, c, t, jo) ->
    exists j2, jo = Some j2 /\ visits 0 j0 t j2.
  Proof.
    induction fuel as [|fuel IH]; intros allow j0 j environ response chain trail x c t jo V H; cbn [ModelCookieJar.follow_j] in H;
      (destruct (status_number (fst response)) as [code|]; [|inv H; eauto]);
      (destruct (negb (is_redirect code)); [inv H; eauto|]);
      (destruct (h_getitem (snd response) (lit "location")) as [location|]; [|inv H; eauto]);
      (destruct (existsb _ chain); [inv H; eauto|]);
      (destruct (redirect_environ _ _ _ _ allow (fst response) location environ) as [r|]; [|inv H; eauto]);
      (destruct (run (length trail) (Some j) r) as [v jo1] eqn:R);
      (destruct (run_visit _ _ _ [] j _ _ R) as (j1 & -> & _ & _));
      (assert (V' : visits 0 j0 (trail ++ [v]) j1) by
        (destruct (run_visit _ _ _ [] j1 _ _ R) as (j1' & E & _ & F); inv E; eapply visits_app; [exact V|apply F; constructor]));
      (destruct (v_outcome v) as [response'|]; [|inv H; eauto]).
    - inv H. eauto.
    - eapply IH; eauto.
  Qed.
  Lemma open_visits fuel allow f j r x c t jo : open_j fuel allow f (Some j) r = (x, c, t, jo) ->
    exists j2, jo = Some j2 /\ visits 0 j t j2.
  Proof.
    unfold ModelCookieJar.open_j. destruct (run 0 (Some j) r) as [v jo1] eqn:R.
    destruct (run_visit _ _ _ [] j _ _ R) as (j1 & -> & _ & _).
    assert (V : visits 0 j [v] j1) by (destruct (run_visit _ _ _ [] j1 _ _ R) as (j1' & E & _ & F); inv E; apply F; constructor).
    destruct (v_outcome v) as [response|]; [|intros H; inv H; eauto].
    destruct f; [apply follow_visits; auto|]. destruct (status_number (fst response)); intros H; inv H; eauto.
  Qed.

  (** ** Cookies do not change where the client goes *)
  Definition outcome_at (t : list visit) (n : nat) (e : dict str) (b : str) : res (str * headers) :=
    match nth_error t n with Some v => v_outcome v | None => Raise RuntimeError end.
  Definition agree (e e' : dict str) : Prop := forall k, k <> lit "HTTP_COOKIE" -> dget e k = dget e' k.
  Lemma redirect_agree allow status location e e' : agree e e' ->
    redirect_environ guess idna_part ip_ok nfkc_ok allow status location e = redirect_environ guess idna_part ip_ok nfkc_ok allow status location e'.
  Proof.
    intros H. unfold redirect_environ, get_host.
    rewrite !(H (lit "HTTP_X_FORWARDED_HOST")), !(H (lit "HTTP_HOST")), !(H (lit "SERVER_NAME")), !(H (lit "wsgi.url_scheme")),
      !(H (lit "SERVER_PORT")), !(H (lit "REQUEST_METHOD")) by discriminate. reflexivity.
  Qed.
  Lemma run_request n jo r v jo1 : run n jo r = (v, jo1) -> v_request v = r /\ agree (fst r) (v_sent v).
  Proof.
    unfold ModelCookieJar.run. destruct jo as [j|].
    - destruct (application _ _ _) as [resp|]; [destruct (extract _ _ _ _ _ _ _ _ _)|]; intros H; inv H; split; auto; intros k Hk; cbn [v_sent]; rewrite inject_other; auto.
    - intros H. inv H. split; auto. intros k _. reflexivity.
  Qed.
  Definition plainly (x : option (res (dict str * (str * headers)))) : option (res (str * headers)) :=
    match x with Some (Ok (_, r)) => Some (Ok r) | Some (Raise e) => Some (Raise e) | None => None end.
  Lemma follow_same fuel : forall app allow jo environ environ' response chain trail x c t jo2,
    agree environ' environ ->
    follow_j fuel allow jo environ response chain trail = (x, c, t, jo2) ->
    (forall n e b, (n < length t)%nat -> app n e b = outcome_at t n e b) ->
    (exists suffix, t = trail ++ suffix) /\
    exists y, follow guess idna_part ip_ok nfkc_ok app fuel allow environ' response chain (map v_request trail) = (y, c, map v_request t) /\
      plainly y = plainly x.
  Proof.
    induction fuel as [|fuel IH]; intros app allow jo environ environ' response chain trail x c t jo2 Ag H Ha; cbn [ModelCookieJar.follow_j ModelTest.follow] in H |- *;
      (destruct (status_number (fst response)) as [code|]; [|inv H; split; [exists []; rewrite app_nil_r; auto|eauto]]);
      (destruct (negb (is_redirect code)); [inv H; split; [exists []; rewrite app_nil_r; auto|eauto]|]);
      (destruct (h_getitem (snd response) (lit "location")) as [location|]; [|inv H; split; [exists []; rewrite app_nil_r; auto|eauto]]);
      (destruct (existsb _ chain); [inv H; split; [exists []; rewrite app_nil_r; auto|eauto]|]);
      rewrite (redirect_agree allow (fst response) location environ' environ Ag) in *;
      (destruct (redirect_environ _ _ _ _ allow (fst response) location environ) as [r|]; [|inv H; split; [exists []; rewrite app_nil_r; auto|eauto]]);
      (destruct (run (length trail) jo r) as [v jo1] eqn:R);
      destruct (run_request _ _ _ _ _ R) as [Rv Ra];
      rewrite map_length.
    - assert (t = trail ++ [v]) as -> by (destruct (v_outcome v); inv H; auto).
      assert (E : request_of app (length trail) r = v_outcome v).
      { unfold request_of. rewrite Ha by (rewrite app_length; cbn; lia). unfold outcome_at.
        rewrite nth_error_app2, Nat.sub_diag by lia. reflexivity. }
      rewrite E. split; [eauto|]. destruct (v_outcome v); inv H; rewrite map_app; cbn [map]; eauto.
    - destruct (v_outcome v) as [response'|] eqn:O.
      + assert (X : exists suffix, t = (trail ++ [v]) ++ suffix).
        { (* the trail only grows *)
          clear - H. revert H. generalize (v_sent v) response' (chain ++ [(location, code)]) (trail ++ [v]) jo1.
          induction fuel as [|fuel IH]; intros e0 r0 ch tr jo0 H; cbn [ModelCookieJar.follow_j] in H;
            (destruct (status_number (fst r0)); [|inv H; exists []; rewrite app_nil_r; auto]);
            (destruct (negb _); [inv H; exists []; rewrite app_nil_r; auto|]);
            (destruct (h_getitem (snd r0) _); [|inv H; exists []; rewrite app_nil_r; auto]);
            (destruct (existsb _ ch); [inv H; exists []; rewrite app_nil_r; auto|]);
            (destruct (redirect_environ _ _ _ _ _ _ _ _); [|inv H; exists []; rewrite app_nil_r; auto]);
            destruct (run _ _ _) as [v0 jo2']; (destruct (v_outcome v0); [|inv H; eauto]).
          - inv H. eauto.
          - apply IH in H as (s1 & ->). rewrite <- app_assoc. eauto. }
        destruct X as (suffix & ->).
        assert (E : request_of app (length trail) r = Ok response').
        { unfold request_of. rewrite Ha by (rewrite !app_length; cbn; lia). unfold outcome_at.
          rewrite <- app_assoc, nth_error_app2, Nat.sub_diag by lia. exact O. }
        rewrite E. destruct (IH app allow jo1 (v_sent v) (fst r) response' (chain ++ [(location, code)]) (trail ++ [v]) x c _ jo2 Ra H Ha) as (_ & y & F & P).
        split; [rewrite <- app_assoc; eauto|]. exists y. split; auto. rewrite map_app in F. cbn [map] in F. rewrite Rv in F. exact F.
      + inv H. assert (E : request_of app (length trail) (v_request v) = Raise e).
        { unfold request_of. rewrite Ha by (rewrite app_length; cbn; lia). unfold outcome_at.
          rewrite nth_error_app2, Nat.sub_diag by lia. exact O. }
        rewrite E. split; [eauto|]. rewrite map_app. cbn [map]. eauto.
  Qed.
  Lemma open_same fuel allow f jo r x c t jo2 : open_j fuel allow f jo r = (x, c, t, jo2) ->
    exists y, client_open guess idna_part ip_ok nfkc_ok (outcome_at t) fuel allow f r = (y, c, map v_request t) /\ plainly y = plainly x.
  Proof.
    unfold ModelCookieJar.open_j, client_open. destruct (run 0 jo r) as [v jo1] eqn:R. destruct (run_request _ _ _ _ _ R) as [Rv Ra].
    destruct (v_outcome v) as [response|] eqn:O.
    - destruct f.
      + intros H. destruct (follow_same fuel (outcome_at t) allow jo1 (v_sent v) (fst r) response [] [v] x c t jo2 Ra H) as ((s & ->) & y & F & P); auto.
        unfold request_of, outcome_at at 1. cbn [app nth_error]. rewrite O. exists y. cbn [map] in F. rewrite Rv in F. auto.
      + destruct (status_number (fst response)) eqn:St; intros H; inv H; unfold request_of, outcome_at; cbn [nth_error]; rewrite O, St; cbn [map]; eauto.
    - intros H. inv H. unfold request_of, outcome_at. cbn [nth_error]. rewrite O. cbn [map]. eauto.
  Qed.
  Lemma open_without fuel allow f r x c t jo : open_j fuel allow f None r = (x, c, t, jo) ->
    jo = None /\ Forall (fun v => v_sent v = fst (v_request v)) t.
  Proof.
    assert (R : forall n r, run n None r = (Visit r (fst r) (application n (fst r) (u_left (snd r))), None)) by reflexivity.
    assert (F : forall fuel allow environ response chain trail x c t jo,
      follow_j fuel allow None environ response chain trail = (x, c, t, jo) ->
      Forall (fun v => v_sent v = fst (v_request v)) trail -> jo = None /\ Forall (fun v => v_sent v = fst (v_request v)) t).
    { clear - R. induction fuel as [|fuel IH]; intros allow e0 r0 ch tr x c t jo H P; cbn [ModelCookieJar.follow_j] in H;
        (destruct (status_number (fst r0)); [|inv H; auto]);
        (destruct (negb _); [inv H; auto|]);
        (destruct (h_getitem (snd r0) _); [|inv H; auto]);
        (destruct (existsb _ ch); [inv H; auto|]);
        (destruct (redirect_environ _ _ _ _ _ _ _ _) as [q|]; [|inv H; auto]);
        rewrite R in H; cbn [v_outcome v_sent] in H;
        (assert (P' : forall v, v_sent v = fst (v_request v) -> Forall (fun v => v_sent v = fst (v_request v)) (tr ++ [v])) by (intros v Hv; apply Forall_app; auto));
        (destruct (application _ _ _); [|inv H; auto]).
      - inv H. auto.
      - eapply IH; eauto. }
    unfold ModelCookieJar.open_j. rewrite R. cbn [v_outcome v_sent].
    destruct (application 0%nat (fst r) (u_left (snd r))) as [response|]; [|intros H; inv H; auto].
    destruct f; [intros H; apply F in H; auto|]. destruct (status_number (fst response)); intros H; inv H; auto.
  Qed.

  (** ** Setting cookies *)
  Variable date_after : Z -> str.
  Notation set_cookie := (set_cookie guess idna_part idna_decode_part ip_ok nfkc_ok date_after jar store).
  Notation delete_cookie := (delete_cookie guess idna_part idna_decode_part ip_ok nfkc_ok date_after jar store).
  Notation tell := (tell guess idna_part idna_decode_part ip_ok nfkc_ok date_after jar store).
  Notation dump := (dump_cookie idna_part ip_ok nfkc_ok date_after).
  Lemma get_all_one h : get_all [(lit "Set-Cookie", h)] (lit "Set-Cookie2") = [] /\ get_all [(lit "Set-Cookie", h)] (lit "Set-Cookie") = [h].
  Proof. split; reflexivity. Qed.
  Lemma set_cookie_calls j server name path text key value max_age expires domain secure httponly h :
    plain_host name server -> (forall p, In p (split_on 46 name) -> idna_decode_part p = Ok p) -> path_argument path text ->
    dump key value (Args max_age expires (Some path) domain secure httponly true) = Ok h ->
    set_cookie (Some j) server key value max_age expires path domain secure httponly =
      store j [] [h] (lit "http://" ++ server ++ shown_path text).
  Proof.
    intros Hh Hi Hp Hd. unfold ModelCookieJar.set_cookie. rewrite Hd. cbn [bind].
    set (a := mk_args path (Some (lit "http://" ++ server)) NoQuery (lit "GET") None None None [] NoData [] []).
    assert (A : asks_for a text []) by (apply ask_path; auto).
    assert (B : base_for (a_base_url a) (lit "http") name server []).
    { change (a_base_url a) with (Some (lit "http" ++ lit "://" ++ server)). apply base_bare; auto. }
    assert (U : unicode_text []) by (intros c []).
    assert (H1 : fit_headers a) by (split; [intros k v []|discriminate]).
    assert (W : without_data a) by (split; auto; intros k v []).
    assert (Si : silent_on_host a) by (split; [reflexivity|intros k v []]).
    destruct (create_total guess idna_part ip_ok nfkc_ok [] a text [] (lit "http") name server [] A B U H1 (or_intror W)) as (e & u & E).
    rewrite E. cbn [bind fst]. unfold extract. destruct (get_all_one h) as [-> ->].
    destruct (request_full guess idna_part ip_ok nfkc_ok [] a e u (lit "http") name server [] text [] E eq_refl Si A B)
      as ([F1 F2 F3 F4 F5 F6 F7] & ws & wp & qs & S1 & S2 & P1 & P2 & Q1 & Q2).
    destruct Hp as (_ & _ & _ & _ & _ & (r & -> & Hr)).
    cbn in Q2. inv Q2. cbn in S2. inv S2.
    rewrite (current_parts idna_part idna_decode_part ip_ok nfkc_ok e None (lit "http") server [] r false false [] []).
    - cbn [bind]. unfold address. rewrite app_nil_r. reflexivity.
    - split; auto.
      + exists name. auto.
      + exists O, []. cbn. repeat split; auto. intros x X. destruct x; discriminate.
      + exists 1%nat, wp. auto.
    - cbn [orb]. unfold get_query_string, env_or. rewrite Q1. reflexivity.
    - reflexivity.
    - intros c [].
  Qed.
  Lemma name_encode n : legal_name n -> utf8_encode n = Ok n.
  Proof.
    intros (_ & H & _). apply utf8_ascii. apply forallb_forall. intros c Hc. apply H, name_char_range in Hc. lia.
  Qed.
  Lemma dump_setting key value b path p : legal_name key -> utf8_encode value = Ok b -> iri_to_uri idna_part ip_ok nfkc_ok path = Ok p ->
    dump key value (Args None None (Some path) None false false true) = Ok (setting key (cookie_quote b) p).
  Proof.
    intros Hk Hv Hp. unfold dump_cookie. rewrite (name_encode _ Hk), Hv. cbn [bind ModelCookie.a_path a_domain a_expires a_max_age a_sync a_secure a_httponly].
    rewrite Hp. cbn [bind make_cookie_domain option_map attr app join]. unfold setting. f_equal.
    rewrite <- !app_assoc. cbn [app]. reflexivity.
  Qed.
  Lemma dump_removing key path p : legal_name key -> iri_to_uri idna_part ip_ok nfkc_ok path = Ok p ->
    dump key [] (Args (Some 0%Z) (Some epoch) (Some path) None false false true) = Ok (removing key (cookie_quote []) p).
  Proof.
    intros Hk Hp. unfold dump_cookie. rewrite (name_encode _ Hk). change (utf8_encode []) with (@Ok str []).
    cbn [bind ModelCookie.a_path a_domain a_expires a_max_age a_sync a_secure a_httponly]. rewrite Hp.
    assert (utf8_encode epoch = Ok epoch) as E by (apply utf8_ascii; reflexivity).
    cbn [bind make_cookie_domain]. rewrite E. cbn [bind option_map attr app join]. unfold removing. f_equal.
    rewrite <- !app_assoc. cbn [app]. reflexivity.
  Qed.
  Lemma set_disabled server key value max_age expires path domain secure httponly :
    set_cookie None server key value max_age expires path domain secure httponly = Raise AssertionError.
  Proof. reflexivity. Qed.

  (** ** A session with a library that keeps cookies *)
  Definition holds (done : list (str * option str)) (j : jar) : Prop :=
    (forall x, In x (cookies j) -> exists n v b, x = (n, Some (cookie_quote b)) /\ utf8_encode v = Ok b /\ legal_name n /\ current done n = Some v) /\
    (forall n v, current done n = Some v -> exists w, In (n, w) (cookies j)).
  Lemma current_snoc l c k : current (l ++ [c]) k = if eqs k (fst c) then snd c else current l k.
  Proof. unfold current. rewrite fold_left_app. reflexivity. Qed.
  Lemma quoted_wire v b : utf8_encode v = Ok b -> Forall wire_byte (cookie_quote b).
  Proof. intros H. apply Forall_forall. apply quote_wire. apply is_bytes_text. eapply utf8_encode_bytes; eauto. Qed.
  Lemma tell_holds server name path text p l : plain_host name server -> (forall p, In p (split_on 46 name) -> idna_decode_part p = Ok p) ->
    path_argument path text -> iri_to_uri idna_part ip_ok nfkc_ok path = Ok p ->
    keeps jar cookies store (lit "http://" ++ server ++ shown_path text) p ->
    Forall proper l -> forall done j, holds done j -> exists j', tell j server path l = Ok j' /\ holds (done ++ l) j'.
  Proof.
    intros Hh Hi Hp Hu [Ks Kr] Hl. induction Hl as [|[k o] l [Hk Hv] _ IH]; intros done j [I1 I2]; cbn [ModelCookieJar.tell].
    - exists j. rewrite app_nil_r. repeat split; auto.
    - cbn [fst snd] in *. replace (done ++ (k, o) :: l) with ((done ++ [(k, o)]) ++ l) by (rewrite <- app_assoc; reflexivity).
      destruct o as [v|].
      + destruct Hv as [b Eb].
        rewrite (set_cookie_calls j server name path text k v None None None false false _ Hh Hi Hp (dump_setting k v b path p Hk Eb Hu)).
        destruct (Ks j k (cookie_quote b) Hk (quoted_wire _ _ Eb)) as (j1 & E & C). rewrite E. cbn [bind]. apply IH. split.
        * intros [m w] X. apply C in X as [[-> ->]|[Hm X]].
          -- exists k, v, b. rewrite current_snoc. cbn [fst snd]. rewrite eqs_refl. auto.
          -- apply I1 in X as (n & v' & b' & X & E1 & E2 & E3). inv X. exists n, v', b'. rewrite current_snoc. cbn [fst snd].
             destruct (eqs n k) eqn:Q; [apply eqs_eq in Q; congruence|]. auto.
        * intros n v'. rewrite current_snoc. cbn [fst snd]. destruct (eqs n k) eqn:Q.
          -- apply eqs_eq in Q. subst. intros _. eexists. apply C. left. eauto.
          -- intros X. apply I2 in X as [w X]. exists w. apply C. right. split; auto. intros ->. rewrite eqs_refl in Q. discriminate.
      + unfold ModelCookieJar.delete_cookie.
        rewrite (set_cookie_calls j server name path text k [] _ _ None false false _ Hh Hi Hp (dump_removing k path p Hk Hu)).
        destruct (Kr j k (cookie_quote []) Hk (quoted_wire [] [] eq_refl)) as (j1 & E & C). rewrite E. cbn [bind]. apply IH. split.
        * intros [m w] X. apply C in X as [Hm X].
          apply I1 in X as (n & v' & b' & X & E1 & E2 & E3). inv X. exists n, v', b'. rewrite current_snoc. cbn [fst snd].
          destruct (eqs n k) eqn:Q; [apply eqs_eq in Q; congruence|]. auto.
        * intros n v'. rewrite current_snoc. cbn [fst snd]. destruct (eqs n k) eqn:Q; [discriminate|].
          intros X. apply I2 in X as [w X]. exists w. apply C. split; auto. intros ->. rewrite eqs_refl in Q. discriminate.
  Qed.
  Lemma line_header bl : join (lit "; ") (map (fun nv => fst nv ++ [61] ++ value_text (snd nv)) (map (fun nb => (fst nb, Some (cookie_quote (snd nb)))) bl))
    = cookie_header cookie_quote bl.
  Proof.
    induction bl as [|[n b] bl IH]; [reflexivity|]. destruct bl as [|q bl]; [reflexivity|].
    change (cookie_header cookie_quote ((n, b) :: q :: bl)) with (n ++ [61] ++ cookie_quote b ++ [59; 32] ++ cookie_header cookie_quote (q :: bl)).
    rewrite <- IH. cbn [map fst snd value_text join].
    change (lit "; ") with [59; 32]. rewrite <- !app_assoc. reflexivity.
  Qed.
  Lemma holds_lists done cs : (forall x, In x cs -> exists n v b, x = (n, Some (cookie_quote b)) /\ utf8_encode v = Ok b /\ legal_name n /\ current done n = Some v) ->
    exists l bl, encoded l bl /\ cs = map (fun nb => (fst nb, Some (cookie_quote (snd nb)))) bl /\
      forall n v, In (n, v) l -> legal_name n /\ current done n = Some v.
  Proof.
    induction cs as [|x cs IH]; intros H.
    - exists [], []. split; [constructor|]. split; auto. intros n v [].
    - destruct IH as (l & bl & E & C & F); [intros y Hy; apply H; right; auto|].
      destruct (H x (or_introl eq_refl)) as (n & v & b & -> & E1 & E2 & E3).
      exists ((n, v) :: l), ((n, b) :: bl). split; [constructor; auto|]. split; [cbn; rewrite C; auto|].
      intros n' v' [X|X]; [inv X; auto|auto].
  Qed.
  Lemma last_value_some l n v : last_value l n = Some v -> In (n, v) l.
  Proof.
    unfold last_value. induction l as [|[k w] l IH] using rev_ind; [discriminate|]. rewrite fold_left_app. cbn [fold_left fst snd].
    destruct (eqs n k) eqn:Q; intros X; apply in_or_app; [apply eqs_eq in Q; inv X; right; left; auto|left; auto].
  Qed.
  Lemma last_value_none l n : last_value l n = None -> forall v, ~ In (n, v) l.
  Proof.
    unfold last_value. induction l as [|[k w] l IH] using rev_ind; [intros _ v []|]. rewrite fold_left_app. cbn [fold_left fst snd].
    destruct (eqs n k) eqn:Q; intros X v Hi; [discriminate|]. apply in_app_or in Hi as [Hi|[Hi|[]]]; [eapply IH; eauto|]. inv Hi. rewrite eqs_refl in Q. discriminate.
  Qed.
  Lemma holds_seen done j e fuel : holds done j -> dget e (lit "HTTP_COOKIE") = None ->
    (length (env_or (inject (cookies j) e) (lit "HTTP_COOKIE")) < fuel)%nat ->
    exists d, parse_cookie fuel (env_or (inject (cookies j) e) (lit "HTTP_COOKIE")) = Some (Ok d) /\ forall k, dget d k = current done k.
  Proof.
    intros [I1 I2] He Hf. destruct (holds_lists _ _ I1) as (l & bl & E & C & F).
    assert (X : env_or (inject (cookies j) e) (lit "HTTP_COOKIE") = cookie_header cookie_quote bl).
    { rewrite C. destruct bl as [|q bl].
      - cbn [map]. rewrite inject_nil. unfold env_or. rewrite He. reflexivity.
      - rewrite inject_cons by discriminate. unfold env_or. rewrite dget_dset_eq. apply line_header. }
    rewrite X in *. destruct (parse_cookie_roundtrip l bl fuel E) as (d & D1 & D2); auto.
    { intros n v Hi. apply F in Hi. tauto. }
    exists d. split; auto. intros k. rewrite D2. destruct (last_value l k) as [v|] eqn:L.
    - apply last_value_some, F in L. symmetry. tauto.
    - destruct (current done k) as [v|] eqn:Q; auto. apply I2 in Q as [w Q]. rewrite C in Q. apply in_map_iff in Q as ([n b] & Q1 & Q2).
      cbn [fst snd] in Q1. inv Q1. exfalso. clear - E L Q2. 
      assert (exists v, In (k, v) l) as [v V].
      { clear L. induction E as [|[n v] [n' b'] l bl [E1 _] E IH]; [destruct Q2|]. cbn [fst snd] in *. subst n'. destruct Q2 as [Q2|Q2].
        - inv Q2. exists v. left. auto.
        - destruct (IH Q2) as [v' V]. exists v'. right. auto. }
      eapply last_value_none; eauto.
  Qed.
  Theorem cookies_seen server name path text p l j0 : plain_host name server -> (forall p, In p (split_on 46 name) -> idna_decode_part p = Ok p) ->
    path_argument path text -> iri_to_uri idna_part ip_ok nfkc_ok path = Ok p ->
    keeps jar cookies store (lit "http://" ++ server ++ shown_path text) p ->
    Forall proper l -> cookies j0 = [] ->
    exists j, tell j0 server path l = Ok j /\
      forall n r v jo fuel, run n (Some j) r = (v, jo) -> dget (fst r) (lit "HTTP_COOKIE") = None ->
        (length (env_or (v_sent v) (lit "HTTP_COOKIE")) < fuel)%nat ->
        exists d, parse_cookie fuel (env_or (v_sent v) (lit "HTTP_COOKIE")) = Some (Ok d) /\ forall k, dget d k = current l k.
  Proof.
    intros Hh Hi Hp Hu K Hl H0. destruct (tell_holds server name path text p l Hh Hi Hp Hu K Hl [] j0) as (j & E & H).
    { split; [rewrite H0; intros x []|intros n v X; discriminate]. }
    exists j. split; auto. intros n r v jo fuel R He Hf.
    assert (v_sent v = inject (cookies j) (fst r)) as S.
    { unfold ModelCookieJar.run in R. destruct (application _ _ _) as [resp|]; [destruct (extract _ _ _ _ _ _ _ _ _)|]; inv R; reflexivity. }
    rewrite S in *. apply holds_seen; auto.
  Qed.
End jar.
