(** Proofs about the data of a request made by EnvironBuilder and about the redirects of
    Client. *)
From Coq Require Import Arith List NArith ZArith Bool Lia ZifyBool ZifyN ZifyNat.
From Verif Require Import PyStr PyStrFacts Utf8 Utf8Facts ModelUrls SpecUrls ProofUrls ProofIri ModelHeaders SpecHeaders ProofHeaders ProofUtils ModelMultiDict ModelCombined
  ModelStream SpecStream ModelWsgi ModelRequest SpecRequest ProofRequest ProofCurrent ModelTest SpecTest ProofTest ProofBuilder.
Import ListNotations.
Open Scope N_scope.
Ltac inv H := inversion H; subst; clear H.

Section environ.
  Variable guess : str -> option str.
  Variables (idna_part : str -> res str) (ip_ok nfkc_ok : str -> bool).
  Notation create := (create_environ guess idna_part ip_ok nfkc_ok).
  Notation newb := (new_builder guess idna_part ip_ok nfkc_ok).

  (** ** The body *)
  Lemma type_length_input a b0 b1 : b_input b0 = a_input a ->
    (do b <- match a_content_type a with None => Ok b0 | t => set_content_type b0 t end; set_content_length b (a_content_length a)) = Ok b1 ->
    b_input b1 = a_input a.
  Proof.
    intros E H. destruct (a_content_type a) as [t|].
    - destruct (set_content_type b0 (Some t)) as [b'|] eqn:Et; cbn [bind] in H; [|discriminate].
      apply same_set_type in Et as (_ & Et & _). apply same_set_length in H as (_ & H & _). congruence.
    - cbn [bind] in H. apply same_set_length in H as (_ & H & _). congruence.
  Qed.
  Lemma bytes_input b x b' :
    match x with [] => Ok b | _ =>
                   let b := set_input_stream b (Some (mk_seekable x 0)) in
                   match get_length b with Some _ => Ok b | None => set_content_length b (Some (Z.of_nat (length x))) end end = Ok b' -> x <> [] ->
    b_input b' = Some (mk_seekable x 0).
  Proof.
    destruct x as [|c x]; [congruence|]. cbv zeta. intros H _. destruct (get_length _); [inv H; auto|].
    apply same_set_length in H as (_ & H & _). auto.
  Qed.
  Lemma carried_input a b d : newb a = Ok b -> carries a d ->
    exists i, b_input b = Some i /\ skipn (i_pos i) (i_data i) = d /\ (i_pos i <= length (i_data i))%nat.
  Proof.
    intros H C. apply new_builder_inv in H as (uri & scheme & host & script & b0 & b1 & _ & _ & _ & E3 & E4 & E5).
    assert (I : b_input b1 = a_input a) by (eapply type_length_input; eauto; rewrite E3; auto).
    destruct C as [a d Hi Hd Hn|a s d Hi Hd Hn Hs|a i Hi Hd Hl].
    - rewrite Hi in *. rewrite Hd in E5. cbn [add_data] in E5. exists (mk_seekable d 0). split; [|cbn; split; auto; lia]. eapply bytes_input; eauto.
    - rewrite Hi in *. rewrite Hd in E5. cbn [add_data] in E5. destruct s as [|c s]; [cbn in Hs; congruence|].
      rewrite Hs in E5. cbn [bind] in E5. exists (mk_seekable d 0). split; [|cbn; split; auto; lia]. eapply bytes_input; eauto.
    - rewrite Hd in E5. cbn [add_data] in E5. inv E5. exists i. rewrite I. auto.
  Qed.
  Theorem body_spec boundary a e u d : create boundary a = Ok (e, u) -> a_overrides a = [] -> carries a d ->
    u = fresh d [] /\ dget e (lit "CONTENT_LENGTH") = Some (zdec (Z.of_nat (length d))) /\
    forall cache, exists st, get_data e false cache false (new_request false u) = (Ok d, st).
  Proof.
    unfold create_environ. intros H Hov C. destruct (newb a) as [b|] eqn:Eb; cbn [bind] in H; [|discriminate].
    destruct (new_builder_same _ _ _ _ _ _ Eb) as (uri & scheme' & host' & raw & E1 & E2 & B1 & B2 & B3 & B4 & B5 & B6 & B7 & B8 & B9).
    destruct (carried_input _ _ _ Eb C) as (i & Hi & Hd & Hl).
    apply get_environ_inv in H as (input & len & ctype & q & qs & ws & wp & port & G1 & G2 & G3 & G4 & G5 & G6 & -> & ->).
    unfold request_body in G1. rewrite Hi in G1. injection G1 as <- <- <-. rewrite Hd, B9, Hov.
    match goal with |- context [d_update ?x []] => change (d_update x []) with x end.
    split; auto.
    match goal with |- dget ?x _ = _ /\ _ => set (e := x) end.
    assert (Ln : (Z.of_nat (length (i_data i)) - Z.of_nat (i_pos i))%Z = Z.of_nat (length d)).
    { rewrite <- Hd, skipn_length. lia. }
    assert (L : dget e (lit "CONTENT_LENGTH") = Some (zdec (Z.of_nat (length d)))).
    { unfold e; apply (env_var guess idna_part ip_ok nfkc_ok); [reflexivity|]. unfold base_vars. cbn [In]. do 9 right. left. f_equal. unfold length_text. rewrite Ln.
      destruct d; reflexivity. }
    split; auto. intros cache.
    assert (G : get_content_length e = Some (Z.of_nat (length d))).
    { unfold get_content_length. rewrite L, py_int_zdec. cbn [option_map]. f_equal. lia. }
    destruct (plain_read e _ d cache G) as (d' & st & P & ->); [lia|]. exists st. unfold fresh in P. rewrite P.
    f_equal. f_equal. rewrite Nat2Z.id. apply firstn_all.
  Qed.
  (** Without data, and without a content type that announces a form, there is none. *)
  Lemma get_content_type_same b : b_input b = None -> b_form b = None -> b_files b = None ->
    get_content_type b = h_get (b_headers b) (lit "Content-Type").
  Proof. intros H1 H2 H3. unfold get_content_type. rewrite H1, H2, H3. destruct (h_get _ _); auto. Qed.
  Lemma no_body_builder a b : without_data a -> newb a = Ok b -> b_input b = None /\ get_content_type b = None /\ get_length b = None.
  Proof.
    intros [Hi Hd Ht Hl Hh] Eb.
    assert (Hn : forall k v, In (k, v) (b_headers b) -> ~ same_name k (lit "Content-Type")).
    { apply new_builder_inv in Eb as (uri & scheme & host & script & b0 & b1 & _ & _ & E2 & E3 & E4 & E5).
      rewrite Hd in E5. cbn [add_data] in E5. inv E5. rewrite Ht, Hl in E4. cbn [bind] in E4.
      unfold set_content_length in E4. destruct (h_pop_name _ _ _) as [h|] eqn:P; cbn [bind] in E4; [|discriminate]. inv E4.
      cbn [b_headers set_headers]. intros k v X. apply (in_map fst) in X. eapply h_pop_names in X; eauto.
      apply in_map_iff in X as ([k' v'] & E & X). cbn [fst] in E. subst k'. eapply extend_names in E2; eauto.
      cbn [map In] in E2. destruct E2 as [[]|E2]. apply in_map_iff in E2 as ([k' v2] & E & X2). cbn [fst] in E. subst k'. eauto. }
    assert (Hb : b_input b = None /\ b_form b = None /\ b_files b = None /\ get_length b = None).
    { apply new_builder_inv in Eb as (uri & scheme & host & script & b0 & b1 & _ & _ & E2 & E3 & E4 & E5).
      rewrite Hd in E5. cbn [add_data] in E5. inv E5. rewrite Ht, Hl in E4. cbn [bind] in E4.
      unfold set_content_length in E4. destruct (h_pop_name _ _ _) as [h|] eqn:P; cbn [bind] in E4; [|discriminate]. inv E4.
      rewrite E3. cbn. repeat split; auto. unfold get_length. cbn [b_headers set_headers].
      assert (h_getitem h (lit "Content-Length") = Raise KeyError) as K; [|unfold h_get; rewrite K; auto].
      apply getitem_missing. unfold h_pop_name in P. destruct (h_getitem (b_headers b0) (lit "Content-Length")) as [v|x] eqn:G; inv P.
      - apply without_absent with (a := b_headers b0). apply without_filter.
      - apply getitem_missing. destruct (getitem_cases (b_headers b0) (lit "Content-Length")) as [[v G']|G']; congruence. }
    destruct Hb as (F1 & F2 & F3 & F4). split; auto. split; auto.
    rewrite get_content_type_same by auto. unfold h_get.
      assert (h_getitem (b_headers b) (lit "Content-Type") = Raise KeyError) as ->; auto.
      apply getitem_missing. apply Forall_forall. intros [k v] X. cbn [fst]. eapply Hn; eauto.
  Qed.
  Theorem no_body_spec boundary a e u : create boundary a = Ok (e, u) -> a_overrides a = [] ->
    without_data a ->
    u = fresh [] [] /\ forall cache, exists st, get_data e false cache false (new_request false u) = (Ok [], st).
  Proof.
    unfold create_environ. intros H Hov [Hi Hd Ht Hl Hh]. destruct (newb a) as [b|] eqn:Eb; cbn [bind] in H; [|discriminate].
    destruct (new_builder_same _ _ _ _ _ _ Eb) as (_ & _ & _ & _ & _ & _ & _ & _ & _ & _ & _ & _ & _ & _ & B9).
    destruct (no_body_builder _ _ (Build_without_data _ Hi Hd Ht Hl Hh) Eb) as (F1 & Ct & F4).
    apply get_environ_inv in H as (input & len & ctype & q & qs & ws & wp & port & G1 & G2 & G3 & G4 & G5 & G6 & -> & ->).
    unfold request_body in G1. rewrite F1, Ct, F4 in G1. injection G1 as <- <- <-. rewrite B9, Hov.
    match goal with |- context [d_update ?x []] => change (d_update x []) with x end.
    split; auto. intros cache.
    match goal with |- exists st, get_data ?x _ _ _ _ = _ => set (e := x) end.
    assert (L : dget e (lit "CONTENT_LENGTH") = Some (lit "0")).
    { unfold e; apply (env_var guess idna_part ip_ok nfkc_ok); [reflexivity|]. unfold base_vars. cbn [In]. do 9 right. left. reflexivity. }
    assert (G : get_content_length e = Some 0%Z) by (unfold get_content_length; rewrite L; reflexivity).
    destruct (plain_read e _ [] cache G) as (d' & st & P & ->); [lia|]. exists st. exact P.
  Qed.

  (** ** The arguments of the query string *)
  Lemma adds_new (l : list (str * str)) : forall d, NoDup (map fst d ++ map fst l) ->
    m_adds d l = d ++ map (fun kv => (fst kv, [snd kv])) l.
  Proof.
    unfold m_adds. induction l as [|[k v] l IH]; intros d Nd; cbn [fold_left map]; [rewrite app_nil_r; auto|].
    cbn [fst snd map] in *. pose proof (NoDup_remove_2 _ _ _ Nd) as Hk. assert (dget d k = None) as E.
    { apply dget_none. intros X. apply Hk. apply in_or_app. auto. }
    unfold m_add at 2. rewrite E, dset_notin by auto. rewrite IH.
    - rewrite <- app_assoc. auto.
    - rewrite map_app, <- app_assoc. auto.
  Qed.
  Lemma items_single (l : list (str * str)) : m_items (map (fun kv => (fst kv, [snd kv])) l) = Ok l.
  Proof. unfold m_items. induction l as [|[k v] l IH]; auto. cbn [map traverse fst snd first bind]. rewrite IH. reflexivity. Qed.
  Theorem args_spec' boundary a e u pairs : create boundary a = Ok (e, u) -> a_overrides a = [] ->
    a_query a = QueryDict (SPairs pairs) -> NoDup (map fst pairs) -> Forall (fun kv => snd kv <> []) pairs ->
    exists d, req_args e = Ok d /\ forall k, m_getlist d k = values_for pairs k.
  Proof.
    unfold create_environ. intros H Hov Hq Nd F. destruct (newb a) as [b|] eqn:Eb; cbn [bind] in H; [|discriminate].
    destruct (new_builder_same _ _ _ _ _ _ Eb) as (uri & scheme' & host' & raw & E1 & E2 & B1 & B2 & B3 & B4 & B5 & B6 & B7 & B8 & B9).
    assert (split_args a = (a_path a, QueryDict (SPairs pairs))) as Es by (unfold split_args; rewrite Hq; auto).
    rewrite Es in B5, B6. cbn [fst snd query_of m_init] in B5, B6.
    apply get_environ_inv in H as (input & len & ctype & q & qs & ws & wp & port & G1 & G2 & G3 & G4 & G5 & G6 & -> & ->).
    unfold get_query in G2. rewrite B5, B6 in G2. rewrite adds_new in G2 by auto. cbn [app] in G2. rewrite items_single in G2. cbn [bind] in G2.
    destruct (urlencode pairs) as [t|] eqn:U; cbn [bind] in G2; [|discriminate]. injection G2 as <-.
    rewrite B9, Hov. match goal with |- context [d_update ?x []] => change (d_update x []) with x end.
    assert (qs = t).
    { destruct (urlencode_means _ _ U F) as (raws & -> & M). destruct (parse_pieces Replace raws _ M) as [_ A].
      unfold wsgi_encoding_dance in G3. rewrite ascii_utf8 in G3 by exact A. congruence. }
    subst qs. eapply args_roundtrip; eauto. apply (env_var guess idna_part ip_ok nfkc_ok); auto. unfold base_vars. cbn [In]. auto 20.
  Qed.

  (** ** The headers *)
  Lemma lower_upper a b : Forall (fun c => c < 128) b -> lower a = lower b -> upper a = upper b.
  Proof.
    revert b. induction a as [|x a IH]; intros [|y b] F H; try discriminate; auto. cbn [lower map] in H. injection H as H1 H2.
    inv F. cbn [upper map]. f_equal; [|apply IH; auto].
    unfold lower_c, upper_c, is_ascii_upper, is_ascii_lower, between in *.
    destruct ((65 <=? x) && (x <=? 90)) eqn:A, ((65 <=? y) && (y <=? 90)) eqn:B, ((97 <=? x) && (x <=? 122)) eqn:C, ((97 <=? y) && (y <=? 122)) eqn:D,
      ((192 <=? x) && (x <=? 222) && negb (x =? 215)) eqn:E, ((192 <=? y) && (y <=? 222) && negb (y =? 215)) eqn:G; lia.
  Qed.
  Lemma same_key k n : Forall (fun c => c < 128) n -> same k n = true -> header_key k = header_key n.
  Proof. intros F H. unfold header_key. f_equal. f_equal. apply lower_upper; auto. apply same_spec; auto. Qed.
  Definition under_key (x : str) (h : headers) : list str := map snd (filter (fun kv => eqs (header_key (fst kv)) x) h).
  Lemma under_key_put x h : forall environ, dget (put_headers environ h) x = match rev (under_key x h) with v :: _ => Some v | [] => dget environ x end.
  Proof.
    unfold put_headers. induction h as [|[k v] h IH] using rev_ind; intros environ; auto.
    rewrite fold_left_app. cbn [fold_left fst snd]. unfold under_key. rewrite filter_app, map_app, rev_app_distr. cbn [filter fst].
    destruct (eqs (header_key k) x) eqn:E.
    - apply eqs_eq in E. rewrite E. cbn [map snd rev app]. apply dget_dset_eq.
    - cbn [map rev app]. rewrite dget_dset_neq; [apply IH|]. intros X. rewrite X, eqs_refl in E. discriminate.
  Qed.
  Lemma under_key_remove n x h : Forall (fun c => c < 128) n -> header_key n <> x -> under_key x (h_remove h n) = under_key x h.
  Proof.
    intros F N. unfold under_key, h_remove. f_equal. induction h as [|[k v] h IH]; auto. cbn [filter fst].
    destruct (same k n) eqn:S; cbn [negb].
    - rewrite IH. destruct (eqs (header_key k) x) eqn:E; auto. apply eqs_eq in E. apply same_key in S; auto. congruence.
    - cbn [filter fst]. rewrite IH. auto.
  Qed.
  Lemma under_key_loop n v x h : Forall (fun c => c < 128) n -> header_key n <> x -> forall h', set_loop h n v = Some h' -> under_key x h' = under_key x h.
  Proof.
    intros F N. induction h as [|[k w] h IH]; intros h' H; cbn [set_loop] in H; [discriminate|].
    destruct (same k n) eqn:S.
    - injection H as <-. unfold under_key at 1. cbn [filter fst]. destruct (eqs (header_key n) x) eqn:E; [apply eqs_eq in E; contradiction|].
      fold (h_remove h n). fold (under_key x (h_remove h n)). rewrite under_key_remove by auto. unfold under_key. cbn [filter fst].
      destruct (eqs (header_key k) x) eqn:E2; auto. apply eqs_eq in E2. apply same_key in S; auto. congruence.
    - destruct (set_loop h n v) as [r|]; [|discriminate]. injection H as <-. specialize (IH _ eq_refl). unfold under_key in *. cbn [filter fst].
      destruct (eqs (header_key k) x); cbn [map]; congruence.
  Qed.
  Lemma under_key_set n v x h h' : Forall (fun c => c < 128) n -> header_key n <> x -> h_set h n v [] = Ok h' -> under_key x h' = under_key x h.
  Proof.
    intros F N. unfold h_set. destruct (validate_value _); [|discriminate]. destruct (set_loop h n _) as [r|] eqn:E; intros H; injection H as <-.
    - eapply under_key_loop; eauto.
    - unfold under_key. rewrite filter_app, map_app. cbn [filter fst]. destruct (eqs (header_key n) x) eqn:E2; [apply eqs_eq in E2; contradiction|].
      cbn [map]. apply app_nil_r.
  Qed.
  Lemma under_key_pop n x h h' : Forall (fun c => c < 128) n -> header_key n <> x -> h_pop_name h n true = Ok h' -> under_key x h' = under_key x h.
  Proof.
    intros F N. unfold h_pop_name. destruct (h_getitem h n); intros H; injection H as <-; auto. apply under_key_remove; auto.
  Qed.
  Definition own_var (x : str) : Prop := x = lit "HTTP_CONTENT_TYPE" \/ x = lit "HTTP_CONTENT_LENGTH".
  Lemma ascii_type : Forall (fun c => c < 128) (lit "Content-Type").
  Proof. apply Forall_forall. intros c H. cbn in H. lia. Qed.
  Lemma ascii_length : Forall (fun c => c < 128) (lit "Content-Length").
  Proof. apply Forall_forall. intros c H. cbn in H. lia. Qed.
  Lemma under_key_type x b t b' : ~ own_var x -> set_content_type b t = Ok b' -> under_key x (b_headers b') = under_key x (b_headers b).
  Proof.
    unfold set_content_type, own_var. intros N. pose proof ascii_type.
    assert (header_key (lit "Content-Type") <> x) by (intros E; apply N; left; rewrite <- E; reflexivity).
    destruct t; [destruct (h_set _ _ _ _) as [h|] eqn:E|destruct (h_pop_name _ _ _) as [h|] eqn:E]; cbn [bind]; intros X; inv X; cbn [b_headers set_headers].
    - eapply under_key_set; eauto.
    - eapply under_key_pop; eauto.
  Qed.
  Lemma under_key_length x b t b' : ~ own_var x -> set_content_length b t = Ok b' -> under_key x (b_headers b') = under_key x (b_headers b).
  Proof.
    unfold set_content_length, own_var. intros N. pose proof ascii_length.
    assert (header_key (lit "Content-Length") <> x) by (intros E; apply N; right; rewrite <- E; reflexivity).
    destruct t; [destruct (h_set _ _ _ _) as [h|] eqn:E|destruct (h_pop_name _ _ _) as [h|] eqn:E]; cbn [bind]; intros X; inv X; cbn [b_headers set_headers].
    - eapply under_key_set; eauto.
    - eapply under_key_pop; eauto.
  Qed.
  Lemma under_key_data x b i d b' : ~ own_var x -> add_data guess b i d = Ok b' -> under_key x (b_headers b') = under_key x (b_headers b).
  Proof.
    intros N.
    assert (B : forall t b', match t with [] => Ok b | _ => match i with Some _ => Raise TypeError | None =>
                   let b := set_input_stream b (Some (mk_seekable t 0)) in
                   match get_length b with Some _ => Ok b | None => set_content_length b (Some (Z.of_nat (length t))) end end end = Ok b' ->
                   under_key x (b_headers b') = under_key x (b_headers b)).
    { intros t b0. destruct t as [|c t]; [intros H; inv H; auto|]. destruct i; [discriminate|]. cbv zeta.
      destruct (get_length _); [intros H; inv H; auto|]. intros H. apply (under_key_length x) in H; auto. }
    unfold add_data. destruct d as [|s|t|l].
    - intros H; inv H. auto.
    - destruct s as [|c s].
      + cbn [utf8_encode forallb flat_map bind]. destruct i; cbn; intros H; inv H; auto.
      + destruct i; [discriminate|]. destruct (utf8_encode (c :: s)) as [t|]; cbn [bind]; [|discriminate]. apply B.
    - apply B.
    - destruct l as [|kv l]; [intros H; inv H; auto|]. destruct i; [discriminate|].
      intros H. apply same_add_fields in H as [_ ->]. auto.
  Qed.
  Lemma extend_all items : forall l l', h_extend l items = (l', None) -> l' = l ++ map (fun kv => (fst kv, text (snd kv))) items.
  Proof.
    induction items as [|[k v] items IH]; intros l l' H; cbn [h_extend] in H.
    - inv H. rewrite app_nil_r. auto.
    - unfold h_add in H. rewrite stored_nil in H. destruct (validate_value _); [|discriminate]. apply IH in H. rewrite H, <- app_assoc. auto.
  Qed.
  Theorem headers_spec boundary a e u pre k v post : create boundary a = Ok (e, u) -> a_overrides a = [] ->
    a_headers a = pre ++ (k, v) :: post -> variable_of k <> lit "HTTP_CONTENT_TYPE" -> variable_of k <> lit "HTTP_CONTENT_LENGTH" ->
    (forall k' v', In (k', v') post -> variable_of k' <> variable_of k) ->
    dget e (variable_of k) = Some (text v).
  Proof.
    unfold create_environ. intros H Hov Hh N1 N2 Hp. destruct (newb a) as [b|] eqn:Eb; cbn [bind] in H; [|discriminate].
    destruct (new_builder_same _ _ _ _ _ _ Eb) as (_ & _ & _ & _ & _ & _ & _ & _ & _ & _ & _ & _ & _ & _ & B9).
    apply get_environ_inv in H as (input & len & ctype & q & qs & ws & wp & port & G1 & G2 & G3 & G4 & G5 & G6 & -> & ->).
    rewrite B9, Hov. match goal with |- context [d_update ?x []] => change (d_update x []) with x end.
    assert (N : ~ own_var (variable_of k)) by (intros [X|X]; auto).
    rewrite under_key_put.
    assert (U : under_key (variable_of k) (b_headers b) = under_key (variable_of k) (map (fun kv => (fst kv, text (snd kv))) (a_headers a))).
    { apply new_builder_inv in Eb as (uri & scheme & host & script & b0 & b1 & _ & _ & E2 & E3 & E4 & E5).
      apply (under_key_data (variable_of k)) in E5; auto. rewrite E5. apply extend_all in E2. cbn [app] in E2. rewrite <- E2.
      destruct (a_content_type a) as [t|].
      - destruct (set_content_type b0 (Some t)) as [b'|] eqn:Et; cbn [bind] in E4; [|discriminate].
        apply (under_key_type (variable_of k)) in Et; auto. apply (under_key_length (variable_of k)) in E4; auto. congruence.
      - cbn [bind] in E4. apply (under_key_length (variable_of k)) in E4; auto. }
    rewrite U, Hh, map_app. unfold under_key. rewrite filter_app, map_app. cbn [map filter fst snd].
    change (header_key k) with (variable_of k). rewrite eqs_refl. cbn [map snd].
    assert (filter (fun kv : str * str => eqs (header_key (fst kv)) (variable_of k)) (map (fun kv : str * hval => (fst kv, text (snd kv))) post) = []) as ->.
    { clear - Hp. induction post as [|[k' v'] post IH]; auto. cbn [map filter fst].
      destruct (eqs (header_key k') (variable_of k)) eqn:E.
      - apply eqs_eq in E. rewrite header_key_variable in E. exfalso. eapply Hp; eauto. left. reflexivity.
      - apply IH. intros k2 v2 X. eapply Hp. right. eauto. }
    cbn [map]. rewrite rev_app_distr. reflexivity.
  Qed.

  (** ** Ordinary arguments are accepted *)
  Lemma extend_total items : (forall k v, In (k, v) items -> SpecHeaders.one_line (text v)) -> forall l, exists l', h_extend l items = (l', None).
  Proof.
    induction items as [|[k v] items IH]; intros H l; cbn [h_extend]; eauto.
    unfold h_add. rewrite stored_nil. assert (validate_value (text v) = true) as -> by (apply validate_spec; eapply H; left; eauto).
    apply IH. intros. eapply H. right. eauto.
  Qed.
  Lemma type_total b t : SpecHeaders.one_line t -> exists b', set_content_type b (Some t) = Ok b'.
  Proof. intros H. unfold set_content_type. destruct (h_set_one_line (b_headers b) (lit "Content-Type") (HStr t)) as [h ->]; auto. cbn [bind]. eauto. Qed.
  Lemma length_total b n : exists b', set_content_length b n = Ok b'.
  Proof.
    unfold set_content_length. destruct n as [n|].
    - destruct (h_set_one_line (b_headers b) (lit "Content-Length") (HStr (zdec n))) as [h ->]; [apply ProofResponse.zdec_one_line|]. cbn [bind]. eauto.
    - unfold h_pop_name. destruct (h_getitem _ _); cbn [bind]; eauto.
  Qed.
  Lemma bytes_total b x : exists b', match x with [] => Ok b | _ =>
                   let b := set_input_stream b (Some (mk_seekable x 0)) in
                   match get_length b with Some _ => Ok b | None => set_content_length b (Some (Z.of_nat (length x))) end end = Ok b'.
  Proof. destruct x; eauto. cbv zeta. destruct (get_length _); eauto. apply length_total. Qed.
  Lemma data_total a b : (exists d, carries a d) \/ without_data a -> exists b', add_data guess b (a_input a) (a_data a) = Ok b'.
  Proof.
    intros [[d C]|[Hi Hd _ _ _]].
    - destruct C as [a d Hi Hd Hn|a s d Hi Hd Hn Hs|a i Hi Hd Hl]; rewrite Hi, Hd; cbn [add_data]; eauto.
      + apply bytes_total.
      + rewrite Hs. cbn [bind]. destruct (bytes_total b d) as [b' E]. exists b'. destruct s; auto.
    - rewrite Hd. cbn [add_data]. eauto.
  Qed.
  Lemma port_total name host b : plain_host name host -> b_host b = host -> exists p, b_server_port b = Ok p.
  Proof.
    intros Hh E. unfold b_server_port. rewrite E. destruct Hh as [name Hn Hc|name p Hn Hc Hp].
    - rewrite (proj2 (split1_none _ _)); eauto. intros X. apply Hc in X. unfold SpecRequest.name_char in X. lia.
    - cbn [app]. rewrite split1_app by (intros X; apply Hc in X; unfold SpecRequest.name_char in X; lia).
      rewrite py_int_dec. destruct (isdigit (dec p)); eauto.
  Qed.
  Theorem create_total boundary a path query scheme name host script :
    asks_for a path query -> base_for (a_base_url a) scheme name host script -> unicode_text query -> fit_headers a ->
    (exists d, carries a d) \/ without_data a -> exists e u, create boundary a = Ok (e, u).
  Proof.
    intros Ha Hb Hq [Hh Ht] Hd.
    destruct (base_spec guess idna_part ip_ok nfkc_ok _ _ _ _ _ Hb) as (Hho & Hf & _ & raw & w & E3 & E4 & E5).
    destruct (query_asked _ _ _ Ha) as [Hp Hqq]. destruct (iri_path guess idna_part ip_ok nfkc_ok _ _ Hp) as (uri & wp & F1 & F2 & F3).
    assert (exists b, newb a = Ok b) as [b Eb].
    { unfold new_builder. destruct (split_args a) as [p q]. cbn [fst snd] in *. rewrite F1. cbn [bind].
      destruct (match a_base_url a with None => _ | Some _ => _ end) as [base|] eqn:B; cbn [bind] in E3; [|discriminate]. cbn [bind]. rewrite E3. cbn [bind].
      destruct (query_of q) as [q' args]. destruct (extend_total _ Hh []) as [h Eh]. unfold h_init_pairs. rewrite Eh. cbn [bind].
      match goal with |- context [set_content_type ?x _] => set (b0 := x) end.
      assert (exists b1, match a_content_type a with None => Ok b0 | t => set_content_type b0 t end = Ok b1) as [b1 ->].
      { destruct (a_content_type a) as [t|]; eauto. apply type_total. auto. }
      cbn [bind]. destruct (length_total b1 (a_content_length a)) as [b2 ->]. cbn [bind]. apply data_total; auto. }
    unfold create_environ. rewrite Eb. cbn [bind].
    destruct (new_builder_same _ _ _ _ _ _ Eb) as (uri' & scheme' & host' & raw' & E1 & E2 & B1 & B2 & B3 & B4 & B5 & B6 & B7 & B8 & B9).
    rewrite E3 in E2. injection E2 as X1 X2 X3. rewrite <- X2 in B3. rewrite <- X3 in B4. rewrite F1 in E1. injection E1 as X4. rewrite <- X4 in B1.
    assert (exists input len ctype, request_body guess boundary b = Ok (input, len, ctype)) as (input & len & ctype & R).
    { unfold request_body. destruct Hd as [[d C]|Hd].
      - destruct (carried_input _ _ _ Eb C) as (i & -> & _). eauto.
      - destruct (no_body_builder _ _ Hd Eb) as (-> & -> & ->). eauto. }
    assert (exists q qs, get_query b = Ok q /\ match q with QText s => wsgi_encoding_dance s | QBytes x => Ok x end = Ok qs) as (q & qs & Q1 & Q2).
    { unfold get_query. rewrite B5, B6. destruct (query_of (snd (split_args a))) as [[q'|] [l|]]; cbn [fst snd]; try contradiction.
      - subst q'. apply scalar_text in Hq. exists (QText query). unfold wsgi_encoding_dance, utf8_encode. rewrite Hq. eauto.
      - destruct Hqq as [-> ->]. cbn. eexists. eexists. split; reflexivity. }
    destruct (port_total _ _ b Hho B3) as [port Ep].
    unfold get_environ. rewrite R. cbn [bind]. rewrite Q1. cbn [bind]. rewrite Q2. cbn [bind]. rewrite B4, E4, B1, F2. cbn [bind]. rewrite Ep. cbn [bind]. eauto.
  Qed.
End environ.
