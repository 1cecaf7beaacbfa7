(** Proofs about the attributes of EnvironBuilder that exclude each other and about the
    redirects of Client. *)
From Coq Require Import Arith List NArith ZArith Bool Lia ZifyBool ZifyN ZifyNat.
From Verif Require Import PyStr PyStrFacts Utf8 Utf8Facts ModelUrls SpecUrls ProofUrls ProofIri ModelHeaders SpecHeaders ProofHeaders ModelMultiDict ModelCombined
  ModelStream SpecStream ModelWsgi ModelRequest SpecRequest ProofRequest ProofCurrent ModelTest SpecTest ProofTest ProofBuilder ProofEnviron.
Import ListNotations.
Open Scope N_scope.
Ltac inv H := inversion H; subst; clear H.

Lemma request_address guess idna_part idna_decode_part ip_ok nfkc_ok boundary a e u scheme name host script path query :
  create_environ guess idna_part ip_ok nfkc_ok boundary a = Ok (e, u) -> a_overrides a = [] -> silent_on_host a ->
  asks_for a path query -> base_for (a_base_url a) scheme name host script ->
  script = [] \/ (exists r, script = 47 :: r) -> (forall p, In p (split_on 46 name) -> idna_decode_part p = Ok p) ->
  get_current_url idna_part idna_decode_part ip_ok nfkc_ok e false true false None =
    Ok (scheme ++ lit "://" ++ host ++ shown_path (script ++ path)).
Proof.
  intros E Ho Hs Ha Hb Hsc Hi. destruct (request_full _ _ _ _ _ _ _ _ _ _ _ _ _ _ E Ho Hs Ha Hb)
    as ([F1 F2 F3 F4 F5 F6 F7] & ws & wp & qs & S1 & S2 & P1 & P2 & _ & _).
  destruct (base_spec guess idna_part ip_ok nfkc_ok _ _ _ _ _ Hb) as (Hh & Hf & Hw & _).
  assert (exists r, path = 47 :: r /\ no_first_slash r) as (r & -> & Hr).
  { inv Ha; match goal with H : path_argument _ _ |- _ => destruct H as (_ & _ & _ & _ & _ & X); exact X end. }
  rewrite (current_plain idna_part idna_decode_part ip_ok nfkc_ok e None scheme host script r false); auto.
  split; auto.
  - exists name. auto.
  - exists O, ws. cbn [repeat]. rewrite app_nil_r. auto.
  - exists 1%nat, wp. auto.
Qed.

(** ** Exclusive attributes *)
Definition exclusive (b : builder) : Prop :=
  (b_input b = None \/ (b_form b = None /\ b_files b = None)) /\ (b_query b = None \/ b_args b = None).
Lemma step_exclusive b o : exclusive b -> exclusive (b_step b o).
Proof.
  unfold exclusive. intros [H1 H2]. destruct o; cbn [b_step].
  - cbn. auto.
  - cbn. auto.
  - cbn. auto.
  - unfold get_form. destruct (b_input b) eqn:E; [cbn [snd]; rewrite E; auto|]. destruct (b_form b); cbn [snd]; [rewrite E; auto|]. cbn. auto.
  - unfold get_files. destruct (b_input b) eqn:E; [cbn [snd]; rewrite E; auto|]. destruct (b_files b); cbn [snd]; [rewrite E; auto|]. cbn. auto.
  - cbn. auto.
  - cbn. auto.
  - unfold get_args. destruct (b_query b) eqn:E; [cbn [snd]; rewrite E; auto|]. destruct (b_args b); cbn [snd]; [rewrite E; auto|]. cbn. auto.
  - destruct (set_content_type b t) as [b'|] eqn:E; auto. apply same_set_type in E as (S & -> & -> & ->). unfold same_request in S. intuition congruence.
  - destruct (set_content_length b n) as [b'|] eqn:E; auto. apply same_set_length in E as (S & -> & -> & ->). unfold same_request in S. intuition congruence.
Qed.
Lemma run_exclusive ops : forall b, exclusive b -> exclusive (b_run b ops).
Proof. unfold b_run. induction ops; intros b H; cbn [fold_left]; auto. apply IHops. apply step_exclusive. auto. Qed.
Lemma add_field_exclusive guess b k v b' : add_field guess b k v = Ok b' -> b_input b' = None.
Proof.
  assert (F : forall x b', (let '(f, b) := get_form b in do f <- f; Ok (set_form b (Some (m_add f k x)))) = Ok b' -> b_input b' = None).
  { intros x b0. unfold get_form. destruct (b_input b); [discriminate|]. destruct (b_form b); cbn [bind]; intros H; inv H; auto. }
  assert (G : forall u n t b', (let '(f, b) := get_files b in do f <- f; do f <- add_file guess f k u n t; Ok (set_files b (Some f))) = Ok b' -> b_input b' = None).
  { intros u n t b0. unfold get_files. destruct (b_input b); [discriminate|].
    destruct (b_files b); cbn [bind]; destruct (add_file guess _ k u n t); cbn [bind]; intros H; inv H; auto. }
  unfold add_field. destruct v; [apply F|apply F|apply G|apply G].
Qed.
Lemma add_fields_exclusive guess l : forall b b', add_fields guess b l = Ok b' -> l <> [] -> b_input b' = None.
Proof.
  induction l as [|[k v] l IH]; intros b b' H N; [congruence|]. cbn [add_fields] in H.
  destruct (add_field guess b k v) as [b1|] eqn:E; cbn [bind] in H; [|discriminate].
  destruct l as [|x l]; [|eapply IH; eauto; discriminate]. cbn in H. inv H. eapply add_field_exclusive; eauto.
Qed.
Lemma new_exclusive guess idna_part ip_ok nfkc_ok a b : new_builder guess idna_part ip_ok nfkc_ok a = Ok b -> exclusive b.
Proof.
  intros H. pose proof H as H'. apply new_builder_same in H' as (_ & _ & _ & _ & _ & _ & _ & _ & _ & _ & B5 & B6 & _).
  apply new_builder_inv in H as (uri & scheme & host & script & b0 & b1 & _ & _ & _ & E3 & E4 & E5).
  split.
  - assert (I : b_form b1 = None /\ b_files b1 = None).
    { destruct (a_content_type a) as [t|].
      - destruct (set_content_type b0 (Some t)) as [b'|] eqn:Et; cbn [bind] in E4; [|discriminate].
        apply same_set_type in Et as (_ & _ & F1 & F2). apply same_set_length in E4 as (_ & _ & F3 & F4).
        rewrite F3, F4, F1, F2, E3. auto.
      - cbn [bind] in E4. apply same_set_length in E4 as (_ & _ & F3 & F4). rewrite F3, F4, E3. auto. }
    destruct I as [I1 I2].
    assert (B : forall x, match x with [] => Ok b1 | _ => match a_input a with Some _ => Raise TypeError | None =>
                   let b := set_input_stream b1 (Some (mk_seekable x 0)) in
                   match get_length b with Some _ => Ok b | None => set_content_length b (Some (Z.of_nat (length x))) end end end = Ok b ->
                   b_form b = None /\ b_files b = None).
    { intros [|c x]; [intros X; inv X; auto|]. destruct (a_input a); [discriminate|]. cbv zeta.
      destruct (get_length _); [intros X; inv X; auto|]. intros X. apply same_set_length in X as (_ & _ & -> & ->). auto. }
    unfold add_data in E5. destruct (a_data a) as [|s|x|l].
    + inv E5. auto.
    + right. destruct s as [|c s].
      * destruct (a_input a); cbn in E5; inv E5; auto.
      * destruct (a_input a); [discriminate|]. destruct (utf8_encode (c :: s)) as [x|]; cbn [bind] in E5; [|discriminate]. eapply B; eauto.
    + right. eapply B; eauto.
    + destruct l as [|kv l]; [inv E5; auto|]. destruct (a_input a); [discriminate|]. left. eapply add_fields_exclusive; eauto. discriminate.
  - rewrite B5, B6. destruct (snd (split_args a)); cbn; auto.
Qed.
Lemma get_form_raises b e : fst (get_form b) = Raise e <-> e = AttributeError /\ b_input b <> None.
Proof. unfold get_form. destruct (b_input b); [cbn; split; [intros H; inv H; split; auto; discriminate|intros [-> _]; auto]|]. destruct (b_form b); cbn; split; try discriminate; intros [_ H]; congruence. Qed.
Lemma get_files_raises b e : fst (get_files b) = Raise e <-> e = AttributeError /\ b_input b <> None.
Proof. unfold get_files. destruct (b_input b); [cbn; split; [intros H; inv H; split; auto; discriminate|intros [-> _]; auto]|]. destruct (b_files b); cbn; split; try discriminate; intros [_ H]; congruence. Qed.
Lemma get_args_raises b e : fst (get_args b) = Raise e <-> e = AttributeError /\ b_query b <> None.
Proof. unfold get_args. destruct (b_query b); [cbn; split; [intros H; inv H; split; auto; discriminate|intros [-> _]; auto]|]. destruct (b_args b); cbn; split; try discriminate; intros [_ H]; congruence. Qed.

(** ** The last one to be set counts *)
Definition same_query (b b' : builder) : Prop := get_query b' = get_query b /\ fst (get_args b') = fst (get_args b).
Lemma same_query_eq b b' : b_query b' = b_query b -> b_args b' = b_args b -> same_query b b'.
Proof. intros E1 E2. unfold same_query, get_query, get_args. rewrite E1, E2. split; auto. destruct (b_query b); auto. destruct (b_args b); auto. Qed.
Lemma step_query b o : ~ sets_query o -> same_query b (b_step b o).
Proof.
  intros H. destruct o; cbn [b_step]; try (cbn in H; tauto); try (apply same_query_eq; reflexivity).
  - unfold get_form. destruct (b_input b); [split; auto|]. destruct (b_form b); apply same_query_eq; auto.
  - unfold get_files. destruct (b_input b); [split; auto|]. destruct (b_files b); apply same_query_eq; auto.
  - unfold get_args. destruct (b_query b) eqn:E; [split; auto|]. destruct (b_args b) eqn:E2; cbn [snd]; [split; auto|].
    unfold same_query, get_query, get_args. cbn. rewrite E, E2. split; auto.
  - destruct (set_content_type b t) as [b'|] eqn:E; [|split; auto]. apply same_set_type in E as (S & _). unfold same_request in S. apply same_query_eq; tauto.
  - destruct (set_content_length b n) as [b'|] eqn:E; [|split; auto]. apply same_set_length in E as (S & _). unfold same_request in S. apply same_query_eq; tauto.
Qed.
Lemma run_query ops : forall b, Forall (fun o => ~ sets_query o) ops -> same_query b (b_run b ops).
Proof.
  unfold b_run. induction ops; intros b H; cbn [fold_left]; [split; auto|]. inv H.
  destruct (step_query b a) as [S1 S2]; auto. destruct (IHops (b_step b a)) as [R1 R2]; auto. split; congruence.
Qed.
Definition same_body (b b' : builder) : Prop :=
  b_input b' = b_input b /\ fst (get_form b') = fst (get_form b) /\ fst (get_files b') = fst (get_files b).
Lemma same_body_eq b b' : b_input b' = b_input b -> b_form b' = b_form b -> b_files b' = b_files b -> same_body b b'.
Proof. intros E1 E2 E3. unfold same_body, get_form, get_files. rewrite E1, E2, E3. destruct (b_input b), (b_form b), (b_files b); auto. Qed.
Lemma step_body b o : ~ sets_body o -> same_body b (b_step b o).
Proof.
  intros H. destruct o; cbn [b_step]; try (cbn in H; tauto); try (apply same_body_eq; reflexivity).
  - unfold get_form. destruct (b_input b) eqn:E; [apply same_body_eq; auto|]. destruct (b_form b) eqn:E2; cbn [snd]; [apply same_body_eq; auto|].
    unfold same_body, get_form, get_files. cbn. rewrite E, E2. destruct (b_files b); auto.
  - unfold get_files. destruct (b_input b) eqn:E; [apply same_body_eq; auto|]. destruct (b_files b) eqn:E2; cbn [snd]; [apply same_body_eq; auto|].
    unfold same_body, get_form, get_files. cbn. rewrite E, E2. destruct (b_form b); auto.
  - unfold get_args. destruct (b_query b); [apply same_body_eq; auto|]. destruct (b_args b); apply same_body_eq; auto.
  - destruct (set_content_type b t) as [b'|] eqn:E; [|apply same_body_eq; auto]. apply same_set_type in E as (_ & E1 & E2 & E3). apply same_body_eq; auto.
  - destruct (set_content_length b n) as [b'|] eqn:E; [|apply same_body_eq; auto]. apply same_set_length in E as (_ & E1 & E2 & E3). apply same_body_eq; auto.
Qed.
Lemma run_body ops : forall b, Forall (fun o => ~ sets_body o) ops -> same_body b (b_run b ops).
Proof.
  unfold b_run. induction ops; intros b H; cbn [fold_left]; [repeat split; auto|]. inv H.
  destruct (step_body b a) as (S1 & S2 & S3); auto. destruct (IHops (b_step b a)) as (R1 & R2 & R3); auto. repeat split; congruence.
Qed.
Lemma run_split b pre o post : b_run b (pre ++ o :: post) = b_run (b_step (b_run b pre) o) post.
Proof. unfold b_run. rewrite fold_left_app. auto. Qed.

Lemma last_query b pre q post : Forall (fun o => ~ sets_query o) post ->
  get_query (b_run b (pre ++ SetQuery (Some q) :: post)) = Ok q.
Proof. intros H. rewrite run_split. destruct (run_query post (b_step (b_run b pre) (SetQuery (Some q))) H) as [-> _]. reflexivity. Qed.
Lemma last_args b pre a post : Forall (fun o => ~ sets_query o) post ->
  fst (get_args (b_run b (pre ++ SetArgs (Some a) :: post))) = Ok a.
Proof. intros H. rewrite run_split. destruct (run_query post (b_step (b_run b pre) (SetArgs (Some a))) H) as [_ ->]. reflexivity. Qed.
Lemma last_input b pre i post : Forall (fun o => ~ sets_body o) post ->
  b_input (b_run b (pre ++ SetInput i :: post)) = i.
Proof. intros H. rewrite run_split. destruct (run_body post (b_step (b_run b pre) (SetInput i)) H) as [-> _]. reflexivity. Qed.
Lemma last_form b pre f post : Forall (fun o => ~ sets_body o) post ->
  fst (get_form (b_run b (pre ++ SetForm (Some f) :: post))) = Ok f.
Proof. intros H. rewrite run_split. destruct (run_body post (b_step (b_run b pre) (SetForm (Some f))) H) as (_ & -> & _). reflexivity. Qed.
Lemma last_files b pre f post : Forall (fun o => ~ sets_body o) post ->
  fst (get_files (b_run b (pre ++ SetFiles (Some f) :: post))) = Ok f.
Proof. intros H. rewrite run_split. destruct (run_body post (b_step (b_run b pre) (SetFiles (Some f))) H) as (_ & _ & ->). reflexivity. Qed.

(** ** Redirects *)
Section client.
  Variable guess : str -> option str.
  Variables (idna_part : str -> res str) (ip_ok nfkc_ok : str -> bool).
  Variable application : nat -> dict str -> str -> res (str * headers).
  Notation follow := (follow guess idna_part ip_ok nfkc_ok application).
  Notation client_open := (client_open guess idna_part ip_ok nfkc_ok application).
  Notation redirect_environ := (redirect_environ guess idna_part ip_ok nfkc_ok).

  Lemma is_redirect_spec code : is_redirect code = true <-> redirect_code code.
  Proof.
    unfold is_redirect, redirect_code. rewrite existsb_exists. split.
    - intros (x & Hx & E). apply Z.eqb_eq in E. congruence.
    - intros H. exists code. split; auto. apply Z.eqb_refl.
  Qed.
  Lemma seen_before chain location code :
    existsb (fun lc : str * Z => eqs (fst lc) location && (snd lc =? code)%Z) chain = true <-> In (location, code) chain.
  Proof.
    rewrite existsb_exists. split.
    - intros ([l c] & Hi & E). cbn [fst snd] in E. apply andb_true_iff in E as [E1 E2]. apply eqs_eq in E1. apply Z.eqb_eq in E2. congruence.
    - intros H. exists (location, code). split; auto. cbn. rewrite eqs_refl, Z.eqb_refl. auto.
  Qed.
  (* one round *)
  Lemma follow_unfold fuel allow environ response chain trail :
    follow fuel allow environ response chain trail =
    match status_number (fst response) with
    | Raise e => (Some (Raise e), chain, trail)
    | Ok code =>
        if negb (is_redirect code) then (Some (Ok (environ, response)), chain, trail)
        else
          match h_getitem (snd response) (lit "location") with
          | Raise e => (Some (Raise e), chain, trail)
          | Ok location =>
              if existsb (fun lc => eqs (fst lc) location && (snd lc =? code)%Z) chain
              then (Some (Raise ClientRedirectError), chain, trail)
              else
                match redirect_environ allow (fst response) location environ with
                | Raise e => (Some (Raise e), chain ++ [(location, code)], trail)
                | Ok r =>
                    match request_of application (length trail) r with
                    | Raise e => (Some (Raise e), chain ++ [(location, code)], trail ++ [r])
                    | Ok response =>
                        match fuel with
                        | O => (None, chain ++ [(location, code)], trail ++ [r])
                        | S fuel => follow fuel allow (fst r) response (chain ++ [(location, code)]) (trail ++ [r])
                        end
                    end
                end
          end
    end.
  Proof. destruct fuel; reflexivity. Qed.

  Notation hops allow := (hops (redirect_environ allow) application).
  Lemma follow_ok fuel : forall allow environ response chain trail environ' last chain' trail',
    follow fuel allow environ response chain trail = (Some (Ok (environ', last)), chain', trail') ->
    exists c t, chain' = chain ++ c /\ trail' = trail ++ t /\ hops allow (length trail) environ response c t environ' last /\
      (exists code, status_number (fst last) = Ok code /\ ~ redirect_code code).
  Proof.
    induction fuel as [|fuel IH]; intros allow environ response chain trail environ' last chain' trail' H; rewrite follow_unfold in H;
      destruct (status_number (fst response)) as [code|] eqn:Es; try discriminate;
      destruct (is_redirect code) eqn:Er; cbn [negb] in H;
      try (inv H; exists [], []; rewrite !app_nil_r; split; auto; split; auto; split; [constructor|]; exists code; split; auto;
           intros X; apply is_redirect_spec in X; congruence);
      destruct (h_getitem (snd response) (lit "location")) as [location|] eqn:El; try discriminate;
      destruct (existsb _ chain); try discriminate;
      destruct (redirect_environ allow (fst response) location environ) as [r|] eqn:Ee; try discriminate;
      destruct (request_of application (length trail) r) as [response'|] eqn:Ea; try discriminate.
    apply IH in H as (c & t & -> & -> & Hh & Hl). exists ((location, code) :: c), (r :: t). rewrite <- !app_assoc. split; auto. split; auto. split; auto.
    econstructor; eauto; [split; auto|apply is_redirect_spec; auto|]. rewrite app_length in Hh. cbn [length] in Hh. rewrite Nat.add_1_r in Hh. auto.
  Qed.
  Lemma follow_chain fuel : forall allow environ response chain trail x chain' trail',
    follow fuel allow environ response chain trail = (x, chain', trail') -> NoDup chain -> NoDup chain' /\
      (length trail' <= length trail + (length chain' - length chain))%nat /\ (length chain <= length chain')%nat.
  Proof.
    induction fuel as [|fuel IH]; intros allow environ response chain trail x chain' trail' H Nd; rewrite follow_unfold in H;
      destruct (status_number (fst response)) as [code|] eqn:Es; try (inv H; split; auto; lia);
      destruct (is_redirect code) eqn:Er; cbn [negb] in H; try (inv H; split; auto; lia);
      destruct (h_getitem (snd response) (lit "location")) as [location|] eqn:El; try (inv H; split; auto; lia);
      destruct (existsb _ chain) eqn:Ex; try (inv H; split; auto; lia);
      (assert (Nd' : NoDup (chain ++ [(location, code)])) by (apply NoDup_snoc; auto; intros X; apply seen_before in X; congruence));
      (assert (Ln : length (chain ++ [(location, code)]) = S (length chain)) by (rewrite app_length; cbn; lia));
      destruct (redirect_environ allow (fst response) location environ) as [r|] eqn:Ee; try (inv H; split; auto; rewrite ?app_length in *; cbn [length] in *; lia);
      destruct (request_of application (length trail) r) as [response'|] eqn:Ea; try (inv H; split; auto; rewrite ?app_length in *; cbn [length] in *; lia).
    apply IH in H as (H1 & H2 & H3); auto. split; auto. rewrite app_length in H2. cbn [length] in H2. lia.
  Qed.
  Lemma follow_bounded l : within application l -> forall fuel allow environ response chain trail,
    (exists n e b, application n e b = Ok response) ->
    NoDup chain -> incl chain l -> (length l <= fuel + length chain)%nat ->
    fst (fst (follow fuel allow environ response chain trail)) <> None.
  Proof.
    intros W. induction fuel as [|fuel IH]; intros allow environ response chain trail (n & e & bd & Ha) Nd Hi Hl; rewrite follow_unfold;
      destruct (status_number (fst response)) as [code|] eqn:Es; try discriminate;
      destruct (is_redirect code) eqn:Er; cbn [negb]; try discriminate;
      destruct (h_getitem (snd response) (lit "location")) as [location|] eqn:El; try discriminate;
      destruct (existsb _ chain) eqn:Ex; try discriminate;
      (assert (Nd' : NoDup (chain ++ [(location, code)])) by (apply NoDup_snoc; auto; intros X; apply seen_before in X; congruence));
      (assert (Hi' : incl (chain ++ [(location, code)]) l) by
         (intros x Hx; apply in_app_or in Hx as [Hx|[<-|[]]]; auto; eapply W; eauto; [split; auto|apply is_redirect_spec; auto]));
      pose proof (NoDup_incl_length Nd' Hi') as Hm; rewrite app_length in Hm; cbn [length] in Hm; [lia|];
      destruct (redirect_environ allow (fst response) location environ) as [r|] eqn:Ee; try discriminate;
      destruct (request_of application (length trail) r) as [response'|] eqn:Er'; try discriminate.
    apply IH; auto; [unfold request_of in Er'; eauto|]. rewrite app_length. cbn [length]. lia.
  Qed.
  Lemma open_bounded l allow follow_redirects r : within application l -> fst (fst (client_open (length l) allow follow_redirects r)) <> None.
  Proof.
    intros W. unfold ModelTest.client_open. destruct (request_of application 0 r) as [response|] eqn:E; [|discriminate].
    destruct follow_redirects; [|destruct (status_number (fst response)); discriminate].
    apply follow_bounded with (l := l); auto; [unfold request_of in E; eauto|constructor|intros x []|cbn; lia].
  Qed.
  Lemma open_chain fuel allow f r x chain trail : client_open fuel allow f r = (x, chain, trail) ->
    NoDup chain /\ (length trail <= 1 + length chain)%nat.
  Proof.
    unfold ModelTest.client_open. destruct (request_of application 0 r) as [response|]; [|intros H; inv H; split; [constructor|auto]].
    destruct f.
    - intros H. apply follow_chain in H as (H1 & H2 & _); [|constructor]. cbn [length] in H2. split; auto. lia.
    - destruct (status_number (fst response)); intros H; inv H; split; try constructor; auto.
  Qed.
  Lemma open_ok fuel allow r environ last chain trail : client_open fuel allow true r = (Some (Ok (environ, last)), chain, trail) ->
    (exists code, status_number (fst last) = Ok code /\ ~ redirect_code code) /\
    exists first t, application 0 (fst r) (u_left (snd r)) = Ok first /\ trail = r :: t /\ hops allow 1 (fst r) first chain t environ last.
  Proof.
    unfold ModelTest.client_open, request_of. destruct (application 0 (fst r) (u_left (snd r))) as [response|]; [|discriminate].
    intros H. apply follow_ok in H as (c & t & -> & -> & Hh & Hl). split; auto. exists response, t. auto.
  Qed.

  (** An ordinary redirect *)
  Lemma labels_first name host : plain_host name host -> server_labels true host = split_on 46 name.
  Proof.
    intros Hh. unfold server_labels. destruct Hh as [name Hn Hc|name p Hn Hc Hp].
    - rewrite (proj2 (split1_none _ _)); auto. intros X. apply Hc in X. unfold SpecRequest.name_char in X. lia.
    - cbn [app]. rewrite split1_app; auto. intros X. apply Hc in X. unfold SpecRequest.name_char in X. lia.
  Qed.
  Lemma labels_last name host : plain_host name host -> server_labels false host = split_on 46 name.
  Proof.
    intros Hh. unfold server_labels. destruct Hh as [name Hn Hc|name p Hn Hc Hp].
    - rewrite (proj2 (rsplit1_none _ _)); auto. intros X. apply Hc in X. unfold SpecRequest.name_char in X. lia.
    - cbn [app]. assert (rsplit1 58 (name ++ 58 :: dec p) = Some (name, dec p)) as ->; auto.
      apply rsplit1_some. split; auto. pose proof (dec_digits p) as D. rewrite forallb_forall in D. intros X. apply D in X. discriminate.
  Qed.
  Lemma split_inj name name' : split_on 46 name = split_on 46 name' -> name = name'.
  Proof. intros H. rewrite <- (join_split 46 name), <- (join_split 46 name'). congruence. Qed.

  Lemma unsplit_host scheme name host : scheme = lit "http" \/ scheme = lit "https" -> plain_host name host ->
    rstrip_by (N.eqb 47) (urlunsplit (Split scheme host [] [] [])) ++ [47] = scheme ++ lit "://" ++ host ++ [47].
  Proof.
    intros Hs Hh. destruct (host_parts idna_part ip_ok nfkc_ok _ _ Hh) as (p & _ & _ & _ & _ & Hc & _ & Hne).
    assert (E : urlunsplit (Split scheme host [] [] []) = (scheme ++ lit "://") ++ host).
    { destruct host as [|c host]; [congruence|]. destruct Hs as [->| ->]; cbn; rewrite ?app_nil_r; reflexivity. }
    rewrite E. destruct host as [|c host _] using rev_ind; [congruence|]. rewrite !app_assoc, rstrip_by_id; [rewrite <- !app_assoc; auto|].
    intros x r X. apply app_inj_tail in X as [_ ->]. apply N.eqb_neq. intros <-. destruct (Hc 47) as [_ X]; [apply in_or_app; right; left; auto|]. apply X. cbn. auto.
  Qed.
  Lemma location_parts scheme name host arg text query :
    scheme = lit "http" \/ scheme = lit "https" -> plain_host name host -> path_argument arg text ->
    ~ In 35 query -> SpecRequest.one_line query ->
    urlsplit ip_ok nfkc_ok (address scheme host arg query) = Ok (Split scheme host arg query []).
  Proof.
    intros Hs Hh ((r & -> & _) & H63 & H35 & (H9 & H10 & H13) & _) Hq1 Hq2.
    apply (split_address idna_part ip_ok nfkc_ok scheme name); auto.
    - intros c Hc. split; intros ->; [apply H63|apply H35]; right; auto.
    - repeat split; intros X; [apply H9|apply H10|apply H13]; right; auto.
  Qed.
  Theorem redirect_ok environ status code method scheme name host0 host arg text query :
    get_host idna_part environ None = Ok host0 -> plain_host name host0 ->
    scheme = lit "http" \/ scheme = lit "https" -> plain_host name host -> path_argument arg text ->
    ~ In 35 query -> SpecRequest.one_line query -> unicode_text query ->
    status_number status = Ok code -> dget environ (lit "REQUEST_METHOD") = Some method ->
    exists e, redirect_environ false status (address scheme host arg query) environ = Ok (e, fresh [] []) /\
      request_for idna_part e (if (code =? 307)%Z then method else lit "GET") scheme name host [] text query.
  Proof.
    intros Hg H0 Hs Hh Hp Hq1 Hq2 Hu Hc Hm. unfold ModelTest.redirect_environ.
    rewrite (location_parts _ name _ _ text) by auto. cbn [bind u_scheme u_netloc u_path u_query]. rewrite Hg. cbn [bind].
    rewrite (labels_first name host), (labels_last name host0) by auto.
    destruct (list_eq_dec _ _ _) as [_|X]; [|congruence]. cbn [bind negb]. rewrite Hc. cbn [bind]. rewrite Hm, (unsplit_host _ name) by auto.
    set (a := fun m => mk_args arg (Some (scheme ++ lit "://" ++ host ++ [47])) (QueryString (QText query)) m None None None [] NoData [] []).
    assert (A : forall m, asks_for (a m) text query) by (intros m; apply ask_query; auto).
    assert (B : forall m, base_for (a_base_url (a m)) scheme name host []).
    { intros m. change (a_base_url (a m)) with (Some (scheme ++ lit "://" ++ host ++ [] ++ repeat 47 1)).
      apply base_url; auto; try (intros X; exact X); [cbn; eauto|intros r E; destruct r; discriminate|repeat split; intros X; exact X| |intros r E; destruct r; discriminate].
      exists []. split; auto. exists []. split; auto. constructor. }
    assert (W : forall m, without_data (a m)) by (intros m; split; auto; intros k v []).
    assert (R : forall m, exists e, create_environ guess idna_part ip_ok nfkc_ok [] (a m) = Ok (e, fresh [] []) /\ request_for idna_part e m scheme name host [] text query).
    { intros m. destruct (create_total guess idna_part ip_ok nfkc_ok [] (a m) text query scheme name host []) as (e & u & E); auto.
      - split; [intros k v []|discriminate].
      - exists e. destruct (no_body_spec _ _ _ _ _ _ _ _ E eq_refl (W m)) as [-> _]. split; auto.
        change m with (a_method (a m)). eapply request_spec; eauto. split; auto. }
    destruct (code =? 307)%Z; cbn [bind]; apply R.
  Qed.
  Theorem redirect_external environ status scheme name0 name host0 host arg text query :
    get_host idna_part environ None = Ok host0 -> plain_host name0 host0 -> name <> name0 ->
    scheme = lit "http" \/ scheme = lit "https" -> plain_host name host -> path_argument arg text ->
    ~ In 35 query -> SpecRequest.one_line query ->
    redirect_environ false status (address scheme host arg query) environ = Raise RuntimeError.
  Proof.
    intros Hg H0 Hn Hs Hh Hp Hq1 Hq2. unfold ModelTest.redirect_environ.
    rewrite (location_parts _ name _ _ text) by auto. cbn [bind u_scheme u_netloc u_path u_query]. rewrite Hg. cbn [bind].
    rewrite (labels_first name host), (labels_last name0 host0) by auto.
    destruct (list_eq_dec _ _ _) as [X|_]; [apply split_inj in X; congruence|]. reflexivity.
  Qed.
End client.
