(** Proofs about EnvironBuilder and the redirects of Client. *)
From Coq Require Import Arith List NArith ZArith Bool Lia ZifyBool ZifyN ZifyNat.
From Verif Require Import PyStr PyStrFacts Utf8 Utf8Facts ModelUrls SpecUrls ProofUrls ProofIri ModelHeaders ModelMultiDict ModelCombined
  ModelStream SpecStream ModelWsgi ModelRequest SpecRequest ProofRequest ProofCurrent ModelTest SpecTest ProofTest.
Import ListNotations.
Open Scope N_scope.
Ltac inv H := inversion H; subst; clear H.

(** ** What stays when a builder is changed *)
Definition same_request (b b' : builder) : Prop :=
  b_path b' = b_path b /\ b_scheme b' = b_scheme b /\ b_host b' = b_host b /\ b_script b' = b_script b /\
  b_query b' = b_query b /\ b_args b' = b_args b /\ b_method b' = b_method b /\
  b_base b' = b_base b /\ b_overrides b' = b_overrides b.
Lemma same_refl b : same_request b b.
Proof. repeat split. Qed.
Lemma same_trans a b c : same_request a b -> same_request b c -> same_request a c.
Proof. unfold same_request. intuition congruence. Qed.
Lemma same_set_type b t b' : set_content_type b t = Ok b' -> same_request b b' /\ b_input b' = b_input b /\ b_form b' = b_form b /\ b_files b' = b_files b.
Proof. unfold set_content_type. destruct (match t with Some _ => _ | None => _ end); cbn [bind]; [|discriminate]. intros H; inv H. repeat split. Qed.
Lemma same_set_length b t b' : set_content_length b t = Ok b' -> same_request b b' /\ b_input b' = b_input b /\ b_form b' = b_form b /\ b_files b' = b_files b.
Proof. unfold set_content_length. destruct (match t with Some _ => _ | None => _ end); cbn [bind]; [|discriminate]. intros H; inv H. repeat split. Qed.

Section builder.
  Variable guess : str -> option str.
  Variables (idna_part : str -> res str) (ip_ok nfkc_ok : str -> bool).
  Notation create := (create_environ guess idna_part ip_ok nfkc_ok).
  Notation newb := (new_builder guess idna_part ip_ok nfkc_ok).

  Lemma same_add_field b k v b' : add_field guess b k v = Ok b' -> same_request b b' /\ b_headers b' = b_headers b.
  Proof.
    assert (F : forall x b', (let '(f, b) := get_form b in do f <- f; Ok (set_form b (Some (m_add f k x)))) = Ok b' -> same_request b b' /\ b_headers b' = b_headers b).
    { intros x b0. unfold get_form. destruct (b_input b); [discriminate|]. destruct (b_form b); cbn [bind]; intros H; inv H; split; repeat split. }
    assert (G : forall u n t b', (let '(f, b) := get_files b in do f <- f; do f <- add_file guess f k u n t; Ok (set_files b (Some f))) = Ok b' -> same_request b b' /\ b_headers b' = b_headers b).
    { intros u n t b0. unfold get_files. destruct (b_input b); [discriminate|].
      destruct (b_files b); cbn [bind]; destruct (add_file guess _ k u n t); cbn [bind]; intros H; inv H; split; repeat split. }
    unfold add_field. destruct v; [apply F|apply F|apply G|apply G].
  Qed.
  Lemma same_add_fields l : forall b b', add_fields guess b l = Ok b' -> same_request b b' /\ b_headers b' = b_headers b.
  Proof.
    induction l as [|[k v] l IH]; intros b b' H; cbn [add_fields] in H; [inv H; split; auto; apply same_refl|].
    destruct (add_field guess b k v) as [b1|] eqn:E; cbn [bind] in H; [|discriminate].
    apply same_add_field in E as [E1 E2]. apply IH in H as [H1 H2]. split; [eapply same_trans; eauto|congruence].
  Qed.
  Lemma same_add_data b i d b' : add_data guess b i d = Ok b' -> same_request b b'.
  Proof.
    assert (B : forall x b', match x with [] => Ok b | _ => match i with Some _ => Raise TypeError | None =>
                   let b := set_input_stream b (Some (mk_seekable x 0)) in
                   match get_length b with Some _ => Ok b | None => set_content_length b (Some (Z.of_nat (length x))) end end end = Ok b' -> same_request b b').
    { intros x b0. destruct x as [|c x]; [intros H; inv H; apply same_refl|]. destruct i; [discriminate|]. cbv zeta.
      destruct (get_length _); [intros H; inv H; repeat split|]. intros H. apply same_set_length in H as [H _].
      eapply same_trans; [|exact H]. repeat split. }
    unfold add_data. destruct d as [|s|x|l].
    - intros H; inv H. apply same_refl.
    - destruct s as [|c s].
      + cbn [utf8_encode forallb flat_map bind]. destruct i; cbn; intros H; inv H; apply same_refl.
      + destruct i; [discriminate|]. destruct (utf8_encode (c :: s)) as [x|]; cbn [bind]; [|discriminate]. apply B.
    - apply B.
    - destruct l as [|kv l]; [intros H; inv H; apply same_refl|]. destruct i; [discriminate|].
      intros H. apply same_add_fields in H as [H _]. auto.
  Qed.

  (* the parts of a builder made from arguments *)
  Lemma new_builder_inv a b : newb a = Ok b ->
    exists uri scheme host script b0 b1,
      iri_to_uri idna_part ip_ok nfkc_ok (fst (split_args a)) = Ok uri /\
      (do base <- match a_base_url a with None => Ok None | Some u => do u <- url_fix idna_part ip_ok nfkc_ok u; Ok (Some u) end;
       split_base_url ip_ok nfkc_ok base) = Ok (scheme, host, script) /\
      h_init_pairs (a_headers a) = (b_headers b0, None) /\
      b0 = mk_builder uri scheme host script (fst (query_of (snd (split_args a)))) (snd (query_of (snd (split_args a)))) (a_method a) (b_headers b0)
             (a_input a) None None (a_environ_base a) (a_overrides a) /\
      (do b <- match a_content_type a with None => Ok b0 | t => set_content_type b0 t end; set_content_length b (a_content_length a)) = Ok b1 /\
      add_data guess b1 (a_input a) (a_data a) = Ok b.
  Proof.
    unfold new_builder. destruct (split_args a) as [path query]. cbn [fst snd].
    destruct (iri_to_uri idna_part ip_ok nfkc_ok path) as [uri|]; cbn [bind]; [|discriminate].
    destruct (match a_base_url a with None => _ | Some _ => _ end) as [base|]; cbn [bind]; [|discriminate].
    destruct (split_base_url ip_ok nfkc_ok base) as [[[scheme host] script]|]; cbn [bind]; [|discriminate].
    destruct (query_of query) as [q args]. destruct (h_init_pairs (a_headers a)) as [h [e|]] eqn:Eh; cbn [bind]; [discriminate|].
    set (b0 := mk_builder uri scheme host script q args (a_method a) h (a_input a) None None (a_environ_base a) (a_overrides a)).
    destruct (match a_content_type a with None => Ok b0 | t => set_content_type b0 t end) as [b'|] eqn:E1; cbn [bind]; [|discriminate].
    destruct (set_content_length b' (a_content_length a)) as [b1|] eqn:E2; cbn [bind]; [|discriminate].
    intros H. exists uri, scheme, host, script, b0, b1. repeat (split; [reflexivity|]).
    rewrite E1. cbn [bind]. auto.
  Qed.
  Lemma new_builder_same a b : newb a = Ok b ->
    exists uri scheme host script,
      iri_to_uri idna_part ip_ok nfkc_ok (fst (split_args a)) = Ok uri /\
      (do base <- match a_base_url a with None => Ok None | Some u => do u <- url_fix idna_part ip_ok nfkc_ok u; Ok (Some u) end;
       split_base_url ip_ok nfkc_ok base) = Ok (scheme, host, script) /\
      b_path b = uri /\ b_scheme b = scheme /\ b_host b = host /\ b_script b = script /\
      b_query b = fst (query_of (snd (split_args a))) /\ b_args b = snd (query_of (snd (split_args a))) /\
      b_method b = a_method a /\ b_base b = a_environ_base a /\ b_overrides b = a_overrides a.
  Proof.
    intros H. apply new_builder_inv in H as (uri & scheme & host & script & b0 & b1 & E1 & E2 & _ & E3 & E4 & E5).
    exists uri, scheme, host, script. split; auto. split; auto.
    assert (S : same_request b0 b).
    { eapply same_trans; [|eapply same_add_data; eauto]. destruct (a_content_type a) as [s|].
      - destruct (set_content_type b0 (Some s)) as [b'|] eqn:E; cbn [bind] in E4; [|discriminate].
        apply same_set_type in E as [E _]. apply same_set_length in E4 as [E4 _]. eapply same_trans; eauto.
      - cbn [bind] in E4. apply same_set_length in E4 as [E4 _]. auto. }
    rewrite E3 in S. unfold same_request in S. cbn [b_path b_scheme b_host b_script b_query b_args b_method b_base b_overrides] in S.
    intuition congruence.
  Qed.

  (** ** The variables of the environ *)
  Lemma dget_d_update_not {X} (rv d : dict X) k : ~ In k (map fst d) -> dget (d_update rv d) k = dget rv k.
  Proof.
    unfold d_update. revert rv. induction d as [|[k' v] d IH]; intros rv H; cbn [fold_left]; auto.
    cbn [map fst In] in H. rewrite IH by tauto. cbn [fst snd]. apply dget_dset_neq. intros ->. apply H. left; auto.
  Qed.
  Lemma dget_put_not environ h k : ~ In k (map (fun kv => header_key (fst kv)) h) -> dget (put_headers environ h) k = dget environ k.
  Proof.
    unfold put_headers. revert environ. induction h as [|[k' v] h IH]; intros environ H; cbn [fold_left]; auto.
    cbn [map fst In] in H. rewrite IH by tauto. cbn [fst snd]. apply dget_dset_neq. intros E. apply H. left; auto.
  Qed.
  Lemma dget_put_plain environ h k : starts (lit "HTTP_") k = false -> dget (put_headers environ h) k = dget environ k.
  Proof.
    intros H. apply dget_put_not. intros Hi. apply in_map_iff in Hi as ([k' v] & <- & _). cbn in H. discriminate.
  Qed.
  Definition base_vars (b : builder) (script path qs : str) (port : Z) (len : option Z) (ctype : option str) : dict str :=
    [(lit "REQUEST_METHOD", b_method b); (lit "SCRIPT_NAME", script); (lit "PATH_INFO", path);
     (lit "QUERY_STRING", qs); (lit "SERVER_NAME", b_server_name b); (lit "SERVER_PORT", zdec port);
     (lit "HTTP_HOST", b_host b); (lit "SERVER_PROTOCOL", lit "HTTP/1.1");
     (lit "CONTENT_TYPE", match ctype with Some t => t | None => [] end); (lit "CONTENT_LENGTH", length_text len);
     (lit "wsgi.url_scheme", b_scheme b)].
  Lemma get_environ_inv boundary b e u : get_environ guess boundary b = Ok (e, u) ->
    exists input len ctype q qs script path port,
      request_body guess boundary b = Ok (input, len, ctype) /\ get_query b = Ok q /\
      match q with QText s => wsgi_encoding_dance s | QBytes x => Ok x end = Ok qs /\
      path_encode (b_script b) = Ok script /\ path_encode (b_path b) = Ok path /\ b_server_port b = Ok port /\
      u = mkUnder [] input [] /\
      e = d_update (put_headers (d_update (d_update [] (b_base b)) (base_vars b script path qs port len ctype)) (b_headers b)) (b_overrides b).
  Proof.
    unfold get_environ. destruct (request_body guess boundary b) as [[[input len] ctype]|]; cbn [bind]; [|discriminate].
    destruct (get_query b) as [q|]; cbn [bind]; [|discriminate].
    destruct (match q with QText s => wsgi_encoding_dance s | QBytes x => Ok x end) as [qs|] eqn:Eq; cbn [bind]; [|discriminate].
    destruct (path_encode (b_script b)) as [script|]; cbn [bind]; [|discriminate].
    destruct (path_encode (b_path b)) as [path|]; cbn [bind]; [|discriminate].
    destruct (b_server_port b) as [port|]; cbn [bind]; [|discriminate].
    intros H. inv H. exists input, len, ctype, q, qs, script, path, port. auto 10.
  Qed.
  Lemma update_vars {X} (rv d : dict X) k v : NoDup (map fst d) -> In (k, v) d -> dget (d_update rv d) k = Some v.
  Proof.
    unfold d_update. revert rv. induction d as [|[k' v'] d IH]; intros rv Nd H; [destruct H|]. cbn [fold_left fst snd].
    inv Nd. destruct H as [E|H]; [|auto]. inv E. fold (d_update (dset rv k v) d). rewrite dget_d_update_not; auto. apply dget_dset_eq.
  Qed.
  Lemma base_nodup b script path qs port len ctype : NoDup (map fst (base_vars b script path qs port len ctype)).
  Proof.
    unfold base_vars. cbn [map fst].
    assert (forall l : list str, (forallb (fun x => Nat.eqb (length (filter (eqs x) l)) 1) l = true) -> NoDup l) as H.
    { induction l as [|x l IH]; intros H; constructor.
      - intros Hi. cbn [forallb] in H. apply andb_true_iff in H as [H _]. cbn [filter] in H. rewrite eqs_refl in H. cbn [length] in H.
        assert (In x (filter (eqs x) l)) by (apply filter_In; split; auto; apply eqs_refl).
        destruct (filter (eqs x) l); [contradiction|]. cbn in H. discriminate.
      - apply IH. cbn [forallb] in H. apply andb_true_iff in H as [H1 H]. rewrite forallb_forall in H |- *. intros y Hy. specialize (H y Hy).
        cbn [filter] in H. destruct (eqs y x) eqn:E; auto. exfalso. apply eqs_eq in E. subst y.
        assert (In x (filter (eqs x) l)) by (apply filter_In; split; auto; apply eqs_refl).
        destruct (filter (eqs x) l); [contradiction|]. cbn in H. discriminate. }
    apply H. vm_compute. reflexivity.
  Qed.
  Lemma env_var b0 h b script path qs port len ctype k v : starts (lit "HTTP_") k = false ->
    In (k, v) (base_vars b script path qs port len ctype) ->
    dget (put_headers (d_update b0 (base_vars b script path qs port len ctype)) h) k = Some v.
  Proof. intros H Hi. rewrite dget_put_plain; auto. apply update_vars; auto. apply base_nodup. Qed.

  (** ** The path *)
  Lemma split_path r : no_first_slash r -> ~ In 63 (47 :: r) -> ~ In 35 (47 :: r) -> one_line (47 :: r) ->
    urlsplit ip_ok nfkc_ok (47 :: r) = Ok (Split [] [] (47 :: r) [] []).
  Proof.
    intros Hr H63 H35 (H9 & H10 & H13). unfold urlsplit.
    rewrite clean_id; [|intros c r' E; inv E; lia|intros c Hc [<-|[<-|[<-|[]]]]; auto].
    assert (S : split_scheme (47 :: r) = ([], 47 :: r)).
    { unfold split_scheme. destruct (split1 58 (47 :: r)) as [[[|c a] b]|] eqn:E; auto.
      apply split1_some in E as [E _]. cbn [app] in E. inv E. reflexivity. }
    rewrite S. replace (starts [47; 47] (47 :: r)) with false.
    2:{ destruct r as [|c r]; auto. cbn [starts]. destruct (N.eqb_spec 47 c) as [<-|]; [exfalso; eapply Hr; eauto|]. destruct c; auto. }
    rewrite partition_none by auto. rewrite partition_none by auto. reflexivity.
  Qed.
  Lemma quote_no_first safe b : bytes_text b -> no_first_slash b -> no_first_slash (quote_bytes safe b).
  Proof.
    intros Hb H r E. destruct b as [|c b]; [discriminate|].
    change (quote_bytes safe (c :: b)) with (quote_byte safe c ++ quote_bytes safe b) in E. unfold quote_byte in E.
    destruct (quote_safe safe c); [cbn [app] in E; inv E; eapply H; eauto|discriminate].
  Qed.
  Lemma unsplit_path r : no_first_slash r -> urlunsplit (Split [] [] (47 :: r) [] []) = 47 :: r.
  Proof.
    intros H. unfold urlunsplit. cbn [u_scheme u_netloc u_path u_query u_fragment is_nil negb andb orb prefix_if].
    replace (starts [47; 47] (47 :: r)) with false.
    2:{ destruct r as [|c r]; auto. cbn [starts]. destruct (N.eqb_spec 47 c) as [<-|]; [exfalso; eapply H; eauto|]. destruct c; auto. }
    rewrite !app_nil_r. auto.
  Qed.
  Lemma s37_path : In 37 path_safe.
  Proof. change path_safe with [47; 58; 126; 43; 37]. cbn. auto 6. Qed.
  Lemma iri_path arg text : path_argument arg text ->
    exists uri w, iri_to_uri idna_part ip_ok nfkc_ok arg = Ok uri /\ path_encode uri = Ok w /\ utf8_encode text = Ok w.
  Proof.
    intros ((r & -> & Hr) & H63 & H35 & H1 & (b & (e & He & Hd) & Ht) & _).
    unfold iri_to_uri. rewrite split_path; auto. cbn [bind u_netloc u_path u_query u_fragment u_scheme].
    change (encode_netloc idna_part []) with (Ok (A := str) []). cbn [bind].
    unfold urlquote. rewrite He. cbn [bind utf8_encode forallb flat_map quote_bytes].
    pose proof (utf8_encode_bytes _ _ He) as Hb. apply is_bytes_text in Hb.
    change (47 :: r) with ([47] ++ r) in He. pose proof He as He'. apply utf8_split in He' as (x & y & Ex & Ey & ->). inv Ex.
    cbn [app] in *. pose proof (utf8_encode_bytes _ _ Ey) as Hy. apply is_bytes_text in Hy.
    assert (Eq : quote_bytes path_safe (47 :: y) = 47 :: quote_bytes path_safe y) by reflexivity.
    rewrite Eq. rewrite unsplit_path by (apply quote_no_first; auto; eapply utf8_no_first; eauto). rewrite <- Eq.
    eexists _, b. split; [reflexivity|]. split; auto. unfold path_encode.
    rewrite (unquote_ascii Replace _ b text); auto.
    - apply quoted_ascii; auto.
    - apply quote_keeps_meaning; auto. apply s37_path.
  Qed.

  (** ** The base URL *)
  Definition fix_safe : str := lit "/%+$!*'(),".
  Lemma fix_safe_in c : In c fix_safe <-> c = 47 \/ c = 37 \/ c = 43 \/ c = 36 \/ c = 33 \/ c = 42 \/ c = 39 \/ c = 40 \/ c = 41 \/ c = 44.
  Proof. change fix_safe with [47; 37; 43; 36; 33; 42; 39; 40; 41; 44]. cbn [In]. intuition congruence. Qed.
  Lemma quote_final safe b : bytes_text b -> no_final_slash b -> no_final_slash (quote_bytes safe b).
  Proof.
    intros Hb H r E. destruct b as [|c b _] using rev_ind; [destruct r; discriminate|].
    rewrite quote_app in E. unfold quote_bytes in E at 2. cbn [flat_map] in E. rewrite app_nil_r in E. unfold quote_byte in E.
    destruct (quote_safe _ c) eqn:Q.
    - apply app_inj_tail in E as [_ ->]. eapply H; eauto.
    - assert (c < 256) as L by (apply Hb; apply in_or_app; right; left; auto).
      unfold pct in E. change (?x ++ [37; ?y; ?z]) with (x ++ [37; y] ++ [z]) in E. rewrite app_assoc in E. apply app_inj_tail in E as [_ E].
      pose proof (hex_upper_range (c mod 16)) as R. assert (c mod 16 < 16) by (apply N.mod_lt; lia). lia.
  Qed.
  Lemma quote_repeat n : quote_bytes fix_safe (repeat 47 n) = repeat 47 n.
  Proof. induction n; auto. cbn [repeat]. change (quote_bytes fix_safe (47 :: repeat 47 n)) with (47 :: quote_bytes fix_safe (repeat 47 n)). rewrite IHn. auto. Qed.
  Lemma plain_name name host c : plain_host name host -> In c name -> SpecRequest.name_char c.
  Proof. intros H Hi. destruct H as [name _ H|name p _ H _]; auto. Qed.
  Lemma plain_chars name host c : plain_host name host -> In c host -> SpecRequest.name_char c \/ c = 58.
  Proof.
    intros H Hi. destruct H as [name _ H|name p _ H _]; auto.
    rewrite !in_app_iff in Hi. destruct Hi as [Hi|[Hi|Hi]]; auto.
    - cbn in Hi. lia.
    - pose proof (dec_digits p) as D. rewrite forallb_forall in D. apply D in Hi. unfold is_ascii_digit, between in Hi. unfold SpecRequest.name_char. lia.
  Qed.
  Lemma encode_plain name host : plain_host name host -> encode_netloc idna_part host = Ok host.
  Proof.
    intros Hh. destruct (host_parts idna_part ip_ok nfkc_ok _ _ Hh) as (p & P1 & P2 & P3 & P4 & Hc & Hn & Hne).
    unfold encode_netloc. rewrite P1, P2. destruct name as [|n0 name]; [congruence|]. cbn [is_nil].
    assert (A : is_ascii (n0 :: name) = true).
    { apply is_ascii_text. intros c Hi. apply (plain_name _ _ _ Hh) in Hi. unfold SpecRequest.name_char in Hi. lia. }
    unfold encode_idna. rewrite A. cbn [bind]. rewrite A. cbn [bind]. unfold convert_auth. rewrite P4. cbn [bind]. rewrite P3. auto.
  Qed.
  Lemma no_swap s : ~ In 92 s -> map (fun c => if c =? 92 then 47 else c) s = s.
  Proof. intros H. rewrite <- (map_id s) at 2. apply map_ext_in. intros c Hc. destruct (N.eqb_spec c 92); auto. subst. contradiction. Qed.
  Lemma fixed_address scheme name host arg e n r :
    scheme = lit "http" \/ scheme = lit "https" -> plain_host name host -> arg ++ repeat 47 n = 47 :: r ->
    ~ In 63 arg -> ~ In 35 arg -> ~ In 92 arg -> one_line arg -> utf8_encode arg = Ok e ->
    exists r', url_fix idna_part ip_ok nfkc_ok (scheme ++ lit "://" ++ host ++ arg ++ repeat 47 n) = Ok (address scheme host (47 :: r') []) /\
      urlsplit ip_ok nfkc_ok (address scheme host (47 :: r') []) = Ok (Split scheme host (47 :: r') [] []) /\
      47 :: r' = quote_bytes fix_safe e ++ repeat 47 n.
  Proof.
    intros Hs Hh Ea H63 H35 H92 (H9 & H10 & H13) Ee.
    destruct (host_parts idna_part ip_ok nfkc_ok _ _ Hh) as (p & P1 & P2 & P3 & P4 & Hc & Hn & Hne).
    rewrite Ea. assert (A : scheme ++ lit "://" ++ host ++ 47 :: r = address scheme host (47 :: r) []) by (unfold address; rewrite app_nil_r; auto).
    rewrite A.
    assert (R : forall c, In c r -> In c arg \/ c = 47).
    { intros c Hi. assert (In c (arg ++ repeat 47 n)) as X by (rewrite Ea; right; auto). apply in_app_iff in X as [X|X]; auto. apply repeat_spec in X. auto. }
    assert (S0 : urlsplit ip_ok nfkc_ok (address scheme host (47 :: r) []) = Ok (Split scheme host (47 :: r) [] [])).
    { apply (split_address idna_part ip_ok nfkc_ok scheme name host); auto.
      - intros c Hi. apply R in Hi as [Hi|Hi]; [|lia]. split; intros ->; auto.
      - split; [|split]; intros Hi; apply R in Hi as [Hi|Hi]; auto; lia.
      - split; [|split]; intros []. }
    assert (Er : utf8_encode (47 :: r) = Ok (e ++ repeat 47 n)) by (rewrite <- Ea; apply utf8_join; auto; apply utf8_slashes).
    pose proof (utf8_encode_bytes _ _ Er) as Hb. apply is_bytes_text in Hb.
    assert (exists y, e ++ repeat 47 n = 47 :: y) as [y Ey].
    { change (47 :: r) with ([47] ++ r) in Er. apply utf8_split in Er as (x & y & Ex & _ & ->). inv Ex. eexists. reflexivity. }
    exists (quote_bytes fix_safe y).
    assert (Q : 47 :: quote_bytes fix_safe y = quote_bytes fix_safe e ++ repeat 47 n).
    { rewrite <- (quote_repeat n), <- quote_app, Ey. reflexivity. }
    split; [|split; auto].
    - unfold url_fix. rewrite no_swap.
      2:{ unfold address. rewrite app_nil_r. intros Hi. rewrite !in_app_iff in Hi. destruct Hi as [Hi|[Hi|[Hi|Hi]]].
          - destruct Hs as [->| ->]; cbn in Hi; lia.
          - cbn in Hi; lia.
          - apply (plain_chars _ _ _ Hh) in Hi. unfold SpecRequest.name_char in Hi. lia.
          - destruct Hi as [Hi|Hi]; [lia|]. apply R in Hi as [Hi|Hi]; [auto|lia]. }
      assert (F : starts (lit "file://") (address scheme host (47 :: r) []) = false) by (destruct Hs as [->| ->]; reflexivity).
      rewrite F. cbn [andb]. rewrite S0. cbn [bind u_netloc u_path u_query u_fragment u_scheme].
      rewrite (encode_plain name) by auto. cbn [bind]. unfold urlquote at 1. rewrite Er. cbn [bind]. fold fix_safe.
      change (urlquote_plus (lit ":&%=+$!*'(),") []) with (@Ok str []). cbn [bind].
      f_equal. rewrite Ey. change (quote_bytes fix_safe (47 :: y)) with (47 :: quote_bytes fix_safe y). apply unsplit_address; auto.
      destruct Hs as [->| ->]; discriminate.
    - assert (Hy : bytes_text y) by (intros c Hi; apply Hb; rewrite Ey; right; auto).
      assert (C : forall c, In c (quote_bytes fix_safe y) -> 32 < c < 128 /\ c <> 63 /\ c <> 35).
      { intros c X. apply quote_bytes_chars in X; auto. rewrite quote_safe_spec in X. unfold unreserved in X. rewrite fix_safe_in in X. lia. }
      apply (split_address idna_part ip_ok nfkc_ok scheme name host); auto.
      + intros c X. apply C in X. tauto.
      + split; [|split]; intros X; apply C in X; lia.
      + split; [|split]; intros [].
  Qed.
  Lemma split_bare scheme name host : scheme = lit "http" \/ scheme = lit "https" -> plain_host name host ->
    urlsplit ip_ok nfkc_ok (scheme ++ lit "://" ++ host) = Ok (Split scheme host [] [] []).
  Proof.
    intros Hs Hh. destruct (host_parts idna_part ip_ok nfkc_ok _ _ Hh) as (p & _ & _ & _ & _ & Hc & _ & Hne).
    unfold urlsplit.
    assert (C : url_clean (scheme ++ lit "://" ++ host) = scheme ++ lit "://" ++ host).
    { apply clean_id.
      - intros c r E. destruct Hs as [->| ->]; cbn in E; inv E; lia.
      - intros c Hi. rewrite !in_app_iff in Hi. cbn [In]. destruct Hi as [Hi|[Hi|Hi]].
        + destruct Hs as [->| ->]; cbn in Hi; lia.
        + cbn in Hi. lia.
        + apply Hc in Hi. lia. }
    rewrite C. clear C. change (lit "://") with (58 :: [47; 47]). cbn [app].
    rewrite split_scheme_some by (apply web_scheme; auto). cbn [starts andb]. rewrite !N.eqb_refl. cbn [andb skipn].
    rewrite <- (app_nil_r host) at 1. rewrite cut_app.
    - cbn [partition split1].
      assert (B : bracket_ok ip_ok host && (is_ascii host || nfkc_ok host) = true).
      { unfold bracket_ok. replace (mem 91 host) with false; [replace (mem 93 host) with false; [replace (is_ascii host) with true; auto|]|].
        - symmetry. apply is_ascii_text. intros c Hi. apply Hc in Hi. lia.
        - symmetry. apply mem_not_In. intros X. apply Hc in X. cbn [In] in X. tauto.
        - symmetry. apply mem_not_In. intros X. apply Hc in X. cbn [In] in X. tauto. }
      rewrite B. reflexivity.
    - apply forallb_forall. intros c Hi. apply Hc in Hi. assert (mem c [47; 63; 35] = false) as ->; auto.
      apply mem_not_In. cbn [In] in *. tauto.
    - left. reflexivity.
  Qed.
  Lemma fixed_bare scheme name host : scheme = lit "http" \/ scheme = lit "https" -> plain_host name host ->
    url_fix idna_part ip_ok nfkc_ok (scheme ++ lit "://" ++ host) = Ok (scheme ++ lit "://" ++ host).
  Proof.
    intros Hs Hh. destruct (host_parts idna_part ip_ok nfkc_ok _ _ Hh) as (p & _ & _ & _ & _ & _ & _ & Hne).
    unfold url_fix. rewrite no_swap.
    2:{ intros Hi. rewrite !in_app_iff in Hi. destruct Hi as [Hi|[Hi|Hi]].
        - destruct Hs as [->| ->]; cbn in Hi; lia.
        - cbn in Hi; lia.
        - apply (plain_chars _ _ _ Hh) in Hi. unfold SpecRequest.name_char in Hi. lia. }
    assert (F : starts (lit "file://") (scheme ++ lit "://" ++ host) = false) by (destruct Hs as [->| ->]; reflexivity).
    rewrite F. cbn [andb]. rewrite (split_bare _ name) by auto. cbn [bind u_netloc u_path u_query u_fragment u_scheme].
    rewrite (encode_plain name) by auto. cbn [bind].
    change (urlquote (lit "/%+$!*'(),") []) with (@Ok str []). change (urlquote_plus (lit ":&%=+$!*'(),") []) with (@Ok str []). cbn [bind].
    f_equal. destruct host as [|c host]; [congruence|]. destruct Hs as [->| ->]; cbn; rewrite ?app_nil_r; reflexivity.
  Qed.
  Lemma base_spec base scheme name host script : base_for base scheme name host script ->
    plain_host name host /\ no_final_slash script /\ (scheme = lit "http" \/ scheme = lit "https") /\
    exists raw w, (do base <- match base with None => Ok None | Some u => do u <- url_fix idna_part ip_ok nfkc_ok u; Ok (Some u) end;
       split_base_url ip_ok nfkc_ok base) = Ok (scheme, host, raw) /\ path_encode raw = Ok w /\ utf8_encode script = Ok w.
  Proof.
    intros H. destruct H as [|scheme name host Hs Hh|scheme name host arg n script Hs Hh (r & Er) Hf H63 H35 H92 H1 (b & (e & Ee & Hd) & Eb) Hfs].
    - split; [apply ph_name; [discriminate|]|].
      { intros c Hc. unfold SpecRequest.name_char. cbn in Hc. lia. }
      split; [intros r E; destruct r; discriminate|]. split; auto. exists [], []. split; auto.
    - split; auto. split; [intros r E; destruct r; discriminate|]. split; auto. exists [], [].
      rewrite (fixed_bare _ name) by auto. cbn [bind]. unfold split_base_url. rewrite (split_bare _ name) by auto.
      cbn [bind u_query u_fragment u_scheme u_netloc u_path]. split; auto.
    - split; auto. split; auto. split; auto.
      destruct (fixed_address scheme name host arg e n r) as (r' & F & S & Q); auto.
      rewrite F. cbn [bind]. unfold split_base_url. rewrite S. cbn [bind u_query u_fragment u_scheme u_netloc u_path].
      rewrite Q. rewrite rstrip_slashes.
      + exists (quote_bytes fix_safe e), b. split; auto. split; auto. unfold path_encode.
        pose proof (utf8_encode_bytes _ _ Ee) as Hb. apply is_bytes_text in Hb.
        rewrite (unquote_ascii Replace _ b script); auto.
        * apply quoted_ascii; auto.
        * apply quote_keeps_meaning; auto. apply fix_safe_in. auto.
      + apply quote_final; [apply is_bytes_text; eapply utf8_encode_bytes; eauto|]. eapply utf8_no_final; eauto.
  Qed.

  (** ** The names of the headers *)
  Definition own_name (k : str) : Prop := k = lit "Content-Type" \/ k = lit "Content-Length".
  Lemma extend_names items : forall l l', h_extend l items = (l', None) -> forall k v, In (k, v) l' -> In k (map fst l) \/ In k (map fst items).
  Proof.
    induction items as [|[k0 v0] items IH]; intros l l' H k v Hi; cbn [h_extend] in H.
    - inv H. left. apply in_map_iff. exists (k, v). auto.
    - unfold h_add in H. destruct (validate_value _); [|discriminate]. eapply IH in H; eauto.
      rewrite map_app, in_app_iff in H. cbn [map fst In] in *. tauto.
  Qed.
  Lemma set_loop_names l k v : forall l', set_loop l k v = Some l' -> forall x, In x (map fst l') -> In x (map fst l) \/ x = k.
  Proof.
    induction l as [|[k0 v0] l IH]; intros l' H x Hi; cbn [set_loop] in H; [discriminate|].
    destruct (same k0 k).
    - inv H. cbn [map fst In] in *. destruct Hi as [Hi|Hi]; auto.
      apply in_map_iff in Hi as (y & <- & Hy). apply filter_In in Hy as [Hy _]. left. right. apply in_map; auto.
    - destruct (set_loop l k v) as [r|]; [|discriminate]. inv H. cbn [map fst In] in *. destruct Hi as [Hi|Hi]; auto.
      eapply IH in Hi; eauto. tauto.
  Qed.
  Lemma h_set_names l k v l' x : h_set l k v [] = Ok l' -> In x (map fst l') -> In x (map fst l) \/ x = k.
  Proof.
    unfold h_set. destruct (validate_value _); [|discriminate]. destruct (set_loop l k _) as [r|] eqn:E; intros H Hi; inv H.
    - eapply set_loop_names; eauto.
    - rewrite map_app, in_app_iff in Hi. cbn [map fst In] in Hi. intuition auto.
  Qed.
  Lemma h_pop_names l k l' x : h_pop_name l k true = Ok l' -> In x (map fst l') -> In x (map fst l).
  Proof.
    unfold h_pop_name. destruct (h_getitem l k); intros H Hi; inv H; auto.
    apply in_map_iff in Hi as (y & <- & Hy). apply filter_In in Hy as [Hy _]. apply in_map; auto.
  Qed.
  Lemma type_names b t b' x : set_content_type b t = Ok b' -> In x (map fst (b_headers b')) -> In x (map fst (b_headers b)) \/ own_name x.
  Proof.
    unfold set_content_type, own_name. destruct t; [destruct (h_set _ _ _ _) as [hs|] eqn:E|destruct (h_pop_name _ _ _) as [hs|] eqn:E]; cbn [bind]; intros H Hi; inv H; cbn [b_headers set_headers] in Hi.
    - eapply h_set_names in E; eauto. tauto.
    - eapply h_pop_names in E; eauto.
  Qed.
  Lemma length_names b t b' x : set_content_length b t = Ok b' -> In x (map fst (b_headers b')) -> In x (map fst (b_headers b)) \/ own_name x.
  Proof.
    unfold set_content_length, own_name. destruct t; [destruct (h_set _ _ _ _) as [l|] eqn:E|destruct (h_pop_name _ _ _) as [l|] eqn:E]; cbn [bind]; intros H Hi; inv H; cbn [b_headers set_headers] in Hi.
    - eapply h_set_names in E; eauto. tauto.
    - eapply h_pop_names in E; eauto.
  Qed.
  Lemma data_names b i d b' x : add_data guess b i d = Ok b' -> In x (map fst (b_headers b')) -> In x (map fst (b_headers b)) \/ own_name x.
  Proof.
    assert (B : forall t b', match t with [] => Ok b | _ => match i with Some _ => Raise TypeError | None =>
                   let b := set_input_stream b (Some (mk_seekable t 0)) in
                   match get_length b with Some _ => Ok b | None => set_content_length b (Some (Z.of_nat (length t))) end end end = Ok b' ->
                   In x (map fst (b_headers b')) -> In x (map fst (b_headers b)) \/ own_name x).
    { intros t b0. destruct t as [|c t]; [intros H; inv H; auto|]. destruct i; [discriminate|]. cbv zeta.
      destruct (get_length _); [intros H; inv H; auto|]. intros H Hi. eapply length_names in H; eauto. }
    unfold add_data. destruct d as [|s|t|l].
    - intros H; inv H. auto.
    - destruct s as [|c s].
      + cbn [utf8_encode forallb flat_map bind]. destruct i; cbn; intros H; inv H; auto.
      + destruct i; [discriminate|]. destruct (utf8_encode (c :: s)) as [t|]; cbn [bind]; [|discriminate]. apply B.
    - apply B.
    - destruct l as [|kv l]; [intros H; inv H; auto|]. destruct i; [discriminate|].
      intros H. apply same_add_fields in H as [_ ->]. auto.
  Qed.
  Lemma builder_names a b x : newb a = Ok b -> In x (map fst (b_headers b)) -> In x (map fst (a_headers a)) \/ own_name x.
  Proof.
    intros H Hi. apply new_builder_inv in H as (uri & scheme & host & script & b0 & b1 & _ & _ & Eh & _ & E4 & E5).
    eapply data_names in E5 as [E5|E5]; eauto.
    assert (In x (map fst (b_headers b0)) \/ own_name x) as [H|H]; auto.
    { destruct (a_content_type a) as [t|].
      - destruct (set_content_type b0 (Some t)) as [b'|] eqn:E; cbn [bind] in E4; [|discriminate].
        eapply length_names in E4 as [E4|E4]; eauto. eapply type_names in E as [E|E]; eauto.
      - cbn [bind] in E4. eapply length_names in E4; eauto. }
    apply in_map_iff in H as ([k v] & <- & H). eapply extend_names in Eh; eauto. cbn [map In fst] in Eh. tauto.
  Qed.
  Lemma swap_upper s : swap_c 45 95 s = map (fun c => if c =? 45 then 95 else c) s.
  Proof. reflexivity. Qed.
  Lemma header_key_variable k : header_key k = variable_of k.
  Proof. reflexivity. Qed.

  Lemma query_asked a path query : asks_for a path query ->
    path_argument (fst (split_args a)) path /\
    match query_of (snd (split_args a)) with
    | (Some q, None) => q = QText query
    | (None, Some l) => l = [] /\ query = []
    | _ => False
    end.
  Proof.
    intros H. destruct H as [a path Hq Hp|a arg path query Hq Ha Hp|a path query Hq Hp]; unfold split_args; rewrite Hq.
    - rewrite (proj2 (split1_none _ _)) by (apply Hp). cbn [fst snd query_of]. auto.
    - rewrite Ha, split1_app by (apply Hp). cbn [fst snd query_of]. auto.
    - cbn [fst snd query_of]. auto.
  Qed.
  Lemma request_full boundary a e u scheme name host script path query :
    create boundary a = Ok (e, u) -> a_overrides a = [] -> silent_on_host a -> asks_for a path query ->
    base_for (a_base_url a) scheme name host script ->
    request_for idna_part e (a_method a) scheme name host script path query /\
    exists ws wp qs, dget e (lit "SCRIPT_NAME") = Some ws /\ utf8_encode script = Ok ws /\
      dget e (lit "PATH_INFO") = Some wp /\ utf8_encode path = Ok wp /\
      dget e (lit "QUERY_STRING") = Some qs /\ utf8_encode query = Ok qs.
  Proof.
    unfold create_environ. intros H Hov [Hs1 Hs2] Ha Hb. destruct (newb a) as [b|] eqn:Eb; cbn [bind] in H; [|discriminate].
    destruct (new_builder_same _ _ Eb) as (uri & scheme' & host' & raw & E1 & E2 & B1 & B2 & B3 & B4 & B5 & B6 & B7 & B8 & B9).
    destruct (base_spec _ _ _ _ _ Hb) as (Hh & Hf & _ & raw' & w & E3 & E4 & E5). rewrite E3 in E2. injection E2 as X1 X2 X3. rewrite <- X1 in B2. rewrite <- X2 in B3. rewrite <- X3 in B4. clear X1 X2 X3.
    destruct (query_asked _ _ _ Ha) as [Hp Hq].
    destruct (iri_path _ _ Hp) as (uri' & wp & F1 & F2 & F3). rewrite F1 in E1. injection E1 as X1. rewrite <- X1 in B1. clear X1.
    apply get_environ_inv in H as (input & len & ctype & q & qs & ws & wp' & port & G1 & G2 & G3 & G4 & G5 & G6 & -> & ->).
    rewrite B4, E4 in G4. injection G4 as ->. rewrite B1, F2 in G5. injection G5 as ->. rewrite B9, Hov.
    change (d_update ?x []) with x.
    set (e := put_headers _ _).
    assert (V : forall k v, starts (lit "HTTP_") k = false -> In (k, v) (base_vars b ws wp' qs port len ctype) -> dget e k = Some v).
    { intros k v Hk Hi. eapply env_var; eauto. }
    assert (N : forall k, (k = lit "HTTP_HOST" \/ k = lit "HTTP_X_FORWARDED_HOST") -> ~ In k (map (fun kv => header_key (fst kv)) (b_headers b))).
    { intros k Hk Hi. apply in_map_iff in Hi as ([k' v] & Ek & Hi). cbn [fst] in Ek. apply (in_map fst) in Hi. cbn [fst] in Hi.
      eapply builder_names in Hi as [Hi|[Hi|Hi]]; eauto.
      - apply in_map_iff in Hi as ([k2 v2] & Ek2 & Hi). cbn [fst] in Ek2. subst k2. apply Hs2 in Hi. rewrite header_key_variable in Ek. intuition congruence.
      - subst k'. destruct Hk as [-> | ->]; discriminate.
      - subst k'. destruct Hk as [-> | ->]; discriminate. }
    assert (Hhost : dget e (lit "HTTP_HOST") = Some (b_host b)).
    { unfold e. rewrite dget_put_not by auto. apply update_vars; [apply base_nodup|]. unfold base_vars. cbn [In]. auto 20. }
    assert (Hfwd : dget e (lit "HTTP_X_FORWARDED_HOST") = None).
    { unfold e. rewrite dget_put_not by auto. rewrite dget_d_update_not by (cbn; intuition discriminate).
      rewrite dget_d_update_not; auto. rewrite B8. apply dget_none. auto. }
    assert (Sn : b_server_name b = name).
    { unfold b_server_name. rewrite B3. destruct Hh as [name Hn Hc|name p Hn Hc Hp0].
      - rewrite (proj2 (split1_none _ _)); auto. intros X. apply Hc in X. unfold SpecRequest.name_char in X. lia.
      - cbn [app]. rewrite split1_app; auto. intros X. apply Hc in X. unfold SpecRequest.name_char in X. lia. }
    assert (Hq' : wsgi_encoding_dance query = Ok qs).
    { clear - G2 G3 Hq B5 B6. unfold get_query in G2. rewrite B5, B6 in G2. destruct (query_of (snd (split_args a))) as [[q'|] [l|]]; cbn [fst snd] in G2; try contradiction.
      - subst q'. inv G2. auto.
      - destruct Hq as [-> ->]. cbn in G2. inv G2. auto. }
    split; [|exists ws, wp', qs; repeat split; auto; apply V; auto; unfold base_vars; cbn [In]; auto 20].
    split.
    - rewrite <- B7. apply V; auto. unfold base_vars; cbn [In]; auto 20.
    - rewrite <- B2. apply V; auto. unfold base_vars; cbn [In]; auto 20.
    - unfold get_host. rewrite Hfwd, Hhost, B3. reflexivity.
    - rewrite <- Sn. apply V; auto. unfold base_vars; cbn [In]; auto 20.
    - apply (script_text _ 0%nat _ ws); auto; [rewrite app_nil_r; unfold wsgi_encoding_dance; auto|].
      apply V; auto. unfold base_vars; cbn [In]; auto 20.
    - destruct Hp as (_ & _ & _ & _ & _ & (r & -> & Hr)). apply (path_text _ 1%nat r wp'); auto.
      apply V; auto. unfold base_vars; cbn [In]; auto 20.
    - unfold req_query_string, env_or. rewrite (V _ qs); auto; [|unfold base_vars; cbn [In]; auto 20].
      destruct (dance_roundtrip _ _ Hq') as [_ R]. apply R.
  Qed.
  Theorem request_spec boundary a e u scheme name host script path query :
    create boundary a = Ok (e, u) -> a_overrides a = [] -> silent_on_host a -> asks_for a path query ->
    base_for (a_base_url a) scheme name host script ->
    request_for idna_part e (a_method a) scheme name host script path query.
  Proof. intros H1 H2 H3 H4 H5. exact (proj1 (request_full _ _ _ _ _ _ _ _ _ _ H1 H2 H3 H4 H5)). Qed.
End builder.
