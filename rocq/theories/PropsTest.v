(** The claims about the tools for tests (C86-C90). *)
From Coq Require Import List NArith ZArith Bool Lia.
From Verif Require Import PyStr PyStrFacts Utf8 ModelUrls SpecUrls ProofUrls ModelHeaders SpecHeaders ModelMultiDict ModelCombined ModelStream SpecStream ModelWsgi
  ModelRequest SpecRequest ModelTest SpecTest ProofTest ProofBuilder ProofEnviron ProofClient.
Import ListNotations.
Open Scope N_scope.

(** C86: a receiver who reads the multipart body made of files finds exactly these files,
    in order, several under one key among them: their names, types and contents. *)
Theorem C86_files_partial : forall guess use_tempfile threshold boundary (lists : list (str * list file)),
  forallb (fun c => c <? 128) boundary = true -> ~ In 13 boundary ->
  Forall (fun kf => sendable guess boundary (fst kf) (snd kf)) (flat_map (fun kl => map (fun f => (fst kl, f)) (snd kl)) lists) ->
  exists body parts,
    stream_encode_multipart guess use_tempfile threshold boundary (map (fun kl => (fst kl, map VFile (snd kl))) lists)
      = Ok (body, N.of_nat (length body)) /\
    reads boundary body parts /\ Forall2 (part_of guess) (flat_map (fun kl => map (fun f => (fst kl, f)) (snd kl)) lists) parts.
Proof. exact encode_files. Qed.
Print Assumptions C86_files_partial.
(** A body can be read in one way only. *)
Theorem C86_unambiguous : forall boundary body p1, reads boundary body p1 -> forall p2, reads boundary body p2 -> p1 = p2.
Proof. exact reads_fun. Qed.
Print Assumptions C86_unambiguous.
(** Whether the body is kept in memory or in a file makes no difference, for whatever values. *)
Theorem C86_storage : forall guess u t u' t' boundary lists,
  stream_encode_multipart guess u t boundary lists = stream_encode_multipart guess u' t' boundary lists.
Proof. exact storage_free. Qed.
Print Assumptions C86_storage.
(** It is kept in a temporary file exactly if that is asked for and it is longer than the
    threshold. *)
Theorem C86_spooled : forall guess use_tempfile threshold boundary lists body n,
  stream_encode_multipart guess use_tempfile threshold boundary lists = Ok (body, n) ->
  exists d, multipart_on_disk guess use_tempfile threshold boundary lists = Ok d /\
    (d = true <-> use_tempfile = true /\ threshold < N.of_nat (length body)).
Proof. exact spooled. Qed.
Print Assumptions C86_spooled.
Example C86_spooled_example : let lists := [(lit "k", [VFile (mk_file (Some (lit "f")) None [lit "data"])])] in
  exists body, stream_encode_multipart (fun _ => None) true 50 (lit "B") lists = Ok (body, 116) /\
  multipart_on_disk (fun _ => None) true 116 (lit "B") lists = Ok false /\ multipart_on_disk (fun _ => None) true 115 (lit "B") lists = Ok true.
Proof. eexists. vm_compute. auto. Qed.
(** Finding: no body can be made when one of the values is a text. *)
Theorem C86_text_refuted : forall guess u t boundary lists k vs s, In (k, vs) lists -> In (VText s) vs ->
  exists e, stream_encode_multipart guess u t boundary lists = Raise e.
Proof. exact encode_text_fails. Qed.
Print Assumptions C86_text_refuted.
(** Finding: bytes are written twice, the first time into the header of the part. *)
Theorem C86_bytes_refuted : encode_multipart (fun _ => None) (lit "B") [(lit "k", [VBytes (lit "v")])] =
  Ok (lit "--B" ++ [13; 10] ++ lit "Content-Disposition: form-data; name=""k""v" ++ [13; 10; 13; 10] ++ lit "v" ++ [13; 10] ++ lit "--B--" ++ [13; 10]).
Proof. vm_compute. reflexivity. Qed.
(** Finding: the name of a file is not escaped, so that it can contain a second file. *)
Definition forged : str :=
  lit "a"" " ++ [13; 10; 13; 10] ++ lit "x" ++ [13; 10] ++ lit "--B" ++ [13; 10] ++ lit "Content-Disposition: form-data; name=""admin""; filename=""b".
Theorem C86_forged_refuted : exists body parts,
  encode_multipart (fun _ => None) (lit "B") [(lit "k", [VFile (mk_file (Some forged) None [lit "data"])])] = Ok body /\
  reads (lit "B") body parts /\ length parts = 2%nat.
Proof.
  eexists. exists [(lit "Content-Disposition: form-data; name=""k""; filename=""a"" ", lit "x");
    (lit "Content-Disposition: form-data; name=""admin""; filename=""b""" ++ [13; 10] ++ lit "Content-Type: application/octet-stream", lit "data")].
  split; [vm_compute; reflexivity|]. split; [|reflexivity].
  assert (C : forall sep s before after, s = before ++ sep ++ after ->
    forallb (fun n => negb (starts sep (skipn n s))) (seq 0 (length before)) = true -> cut_at sep s before after).
  { intros sep s before after E F. split; auto. intros b a Eb. destruct (Nat.le_gt_cases (length before) (length b)) as [|L]; auto.
    rewrite forallb_forall in F. specialize (F (length b)). rewrite Eb, skipn_app, skipn_all, Nat.sub_diag in F. cbn [skipn app] in F.
    assert (starts sep (sep ++ a) = true) as St by (clear; induction sep; cbn; auto; rewrite N.eqb_refl; auto).
    rewrite St in F. discriminate F. apply in_seq. lia. }
  change (reads (lit "B") (lit "--" ++ lit "B" ++ [13; 10] ++ (lit "Content-Disposition: form-data; name=""k""; filename=""a"" " ++ [13; 10; 13; 10] ++
     (lit "x" ++ ([13; 10] ++ lit "--" ++ lit "B") ++ ([13; 10] ++ (lit "Content-Disposition: form-data; name=""admin""; filename=""b""" ++ [13; 10] ++ lit "Content-Type: application/octet-stream") ++ [13; 10; 13; 10] ++
      (lit "data" ++ ([13; 10] ++ lit "--" ++ lit "B") ++ lit "--" ++ [13; 10])))))
    [(lit "Content-Disposition: form-data; name=""k""; filename=""a"" ", lit "x");
    (lit "Content-Disposition: form-data; name=""admin""; filename=""b""" ++ [13; 10] ++ lit "Content-Type: application/octet-stream", lit "data")]).
  eapply reads_part; [apply C; [reflexivity|vm_compute; reflexivity]|apply C; [reflexivity|vm_compute; reflexivity]|].
  eapply (reads_part (lit "B")); [apply C; [reflexivity|vm_compute; reflexivity]|apply C; [reflexivity|vm_compute; reflexivity]|].
  apply reads_end.
Qed.
Example C86_example :
  let guess := fun n => if eqs n (lit "a.txt") then Some (lit "text/plain") else None in
  let lists := [(lit "one", [mk_file (Some (lit "a.txt")) None [lit "x"; [13; 10]; lit "--y"; []; lit "never"]; mk_file None (Some (lit "a/b")) []]);
                ([228], [mk_file (Some [8364]) None [[0; 255]]])] in
  Forall (fun kf => sendable guess (lit "BND") (fst kf) (snd kf)) (flat_map (fun kl => map (fun f => (fst kl, f)) (snd kl)) lists) /\
  encode_multipart guess (lit "BND") (map (fun kl => (fst kl, map VFile (snd kl))) lists) =
    Ok (lit "--BND" ++ [13; 10] ++ lit "Content-Disposition: form-data; name=""one""; filename=""a.txt""" ++ [13; 10] ++ lit "Content-Type: text/plain" ++ [13; 10; 13; 10] ++
        lit "x" ++ [13; 10] ++ lit "--y" ++ [13; 10] ++
        lit "--BND" ++ [13; 10] ++ lit "Content-Disposition: form-data; name=""one""" ++ [13; 10] ++ lit "Content-Type: a/b" ++ [13; 10; 13; 10] ++ [13; 10] ++
        lit "--BND" ++ [13; 10] ++ lit "Content-Disposition: form-data; name=""" ++ [195; 164] ++ lit """; filename=""" ++ [226; 130; 172] ++ lit """" ++ [13; 10] ++
        lit "Content-Type: application/octet-stream" ++ [13; 10; 13; 10; 0; 255; 13; 10] ++ lit "--BND--" ++ [13; 10]).
Proof.
  cbv zeta. split; [|vm_compute; reflexivity].
  assert (U : forall s, forallb scalar s = true -> unicode_text s) by (intros s H; apply scalar_text; auto).
  assert (L : forall s, mem 13 s = false -> mem 10 s = false -> one_header_line s) by (intros s H1 H2; split; apply mem_not_In; auto).
  assert (S : forall sep s, forallb (fun n => negb (starts sep (skipn n s))) (seq 0 (S (length s))) = true -> forall b a, s <> b ++ sep ++ a).
  { intros sep s F b a E. rewrite forallb_forall in F. specialize (F (length b)). rewrite E in F at 2.
    rewrite skipn_app, skipn_all, Nat.sub_diag in F. cbn [skipn app] in F.
    assert (starts sep (sep ++ a) = true) as St by (clear; induction sep; cbn; auto; rewrite N.eqb_refl; auto).
    rewrite St in F. discriminate F. apply in_seq. rewrite E, app_length. lia. }
  cbn [flat_map map fst snd app]. apply Forall_cons; [|apply Forall_cons; [|apply Forall_cons; [|apply Forall_nil]]]; cbn [fst snd]; apply Build_sendable; cbn [f_filename f_chunks];
    lazymatch goal with
    | |- forall n, _ = Some n -> _ => intros n E; inversion E; (split; [apply U|apply L]; vm_compute; reflexivity)
    | |- forall b a, _ => apply S; vm_compute; reflexivity
    | |- _ => split; [apply U|apply L]; vm_compute; reflexivity
    end.
Qed.

(** C87: whatever was done to a builder, it never has an input stream together with a form
    or files, nor a query string together with arguments. *)
Theorem C87_exclusive : forall guess idna_part ip_ok nfkc_ok a b ops, new_builder guess idna_part ip_ok nfkc_ok a = Ok b ->
  (b_input (b_run b ops) = None \/ (b_form (b_run b ops) = None /\ b_files (b_run b ops) = None)) /\
  (b_query (b_run b ops) = None \/ b_args (b_run b ops) = None).
Proof. intros guess idna_part ip_ok nfkc_ok a b ops H. apply run_exclusive. eapply new_exclusive; eauto. Qed.
Print Assumptions C87_exclusive.
(** Asking for the form, the files or the arguments fails just when the other one is there. *)
Theorem C87_asking : forall b e,
  (fst (get_form b) = Raise e <-> e = AttributeError /\ b_input b <> None) /\
  (fst (get_files b) = Raise e <-> e = AttributeError /\ b_input b <> None) /\
  (fst (get_args b) = Raise e <-> e = AttributeError /\ b_query b <> None).
Proof. intros b e. split; [apply get_form_raises|]. split; [apply get_files_raises|apply get_args_raises]. Qed.
Print Assumptions C87_asking.
(** What was set last counts, whatever else was done before and is done after it. *)
Theorem C87_last_query : forall b pre post, Forall (fun o => ~ sets_query o) post ->
  (forall q, get_query (b_run b (pre ++ SetQuery (Some q) :: post)) = Ok q) /\
  (forall a, fst (get_args (b_run b (pre ++ SetArgs (Some a) :: post))) = Ok a).
Proof. intros b pre post H. split; intros x; [apply last_query|apply last_args]; auto. Qed.
Print Assumptions C87_last_query.
Theorem C87_last_body : forall b pre post, Forall (fun o => ~ sets_body o) post ->
  (forall i, b_input (b_run b (pre ++ SetInput i :: post)) = i) /\
  (forall f, fst (get_form (b_run b (pre ++ SetForm (Some f) :: post))) = Ok f) /\
  (forall f, fst (get_files (b_run b (pre ++ SetFiles (Some f) :: post))) = Ok f).
Proof. intros b pre post H. repeat split; intros x; [apply last_input|apply last_form|apply last_files]; auto. Qed.
Print Assumptions C87_last_body.

Definition no_guess : str -> option str := fun _ => None.
Definition id_idna : str -> res str := fun s => Ok s.
Definition no_ip : str -> bool := fun _ => false.
Definition all_nfkc : str -> bool := fun _ => true.
Notation create := (create_environ no_guess id_idna no_ip all_nfkc).
Example C87_example : exists b, new_builder no_guess id_idna no_ip all_nfkc (plain_args (lit "/?a=1")) = Ok b /\
  let ops := [SetForm (Some [(lit "k", [FText (lit "v")])]); ReadFiles; SetInput (Some (mk_seekable (lit "data") 0)); ReadForm; SetArgs (Some [(lit "x", [lit "y"])])] in
  let post := [SetType (Some (lit "a/b")); ReadForm; ReadArgs; SetLength None] in
  fst (get_form (b_run b ops)) = Raise AttributeError /\
  b_input (b_run b (ops ++ SetFiles (Some []) :: post)) = None /\ fst (get_files (b_run b (ops ++ SetFiles (Some []) :: post))) = Ok [] /\
  get_query (b_run b (ops ++ SetFiles (Some []) :: post)) = Ok (QText (lit "x=y")) /\
  get_query (b_run b (ops ++ SetQuery (Some (QText (lit "q"))) :: post)) = Ok (QText (lit "q")) /\
  Forall (fun o => ~ sets_query o) post /\ Forall (fun o => ~ sets_body o) post.
Proof.
  eexists. split; [vm_compute; reflexivity|]. cbv zeta.
  split; [reflexivity|]. split; [reflexivity|]. split; [reflexivity|]. split; [vm_compute; reflexivity|]. split; [reflexivity|].
  split; repeat constructor; intros H; exact H.
Qed.

(** C88: the environ made from ordinary arguments is that of a request with the method, for
    the scheme, host, script root, path and query string asked for, whatever else is given. *)
Theorem C88_request : forall guess idna_part ip_ok nfkc_ok boundary a e u scheme name host script path query,
  create_environ guess idna_part ip_ok nfkc_ok boundary a = Ok (e, u) -> a_overrides a = [] -> silent_on_host a ->
  asks_for a path query -> base_for (a_base_url a) scheme name host script ->
  request_for idna_part e (a_method a) scheme name host script path query.
Proof. exact request_spec. Qed.
Print Assumptions C88_request.
(** The address the application sees is the one asked for. *)
Theorem C88_address : forall guess idna_part idna_decode_part ip_ok nfkc_ok boundary a e u scheme name host script path query,
  create_environ guess idna_part ip_ok nfkc_ok boundary a = Ok (e, u) -> a_overrides a = [] -> silent_on_host a ->
  asks_for a path query -> base_for (a_base_url a) scheme name host script ->
  script = [] \/ (exists r, script = 47 :: r) -> (forall p, In p (split_on 46 name) -> idna_decode_part p = Ok p) ->
  get_current_url idna_part idna_decode_part ip_ok nfkc_ok e false true false None =
    Ok (scheme ++ lit "://" ++ host ++ shown_path (script ++ path)).
Proof. exact request_address. Qed.
Print Assumptions C88_address.
(** Such arguments are never refused. *)
Theorem C88_total : forall guess idna_part ip_ok nfkc_ok boundary a path query scheme name host script,
  asks_for a path query -> base_for (a_base_url a) scheme name host script -> unicode_text query -> fit_headers a ->
  (exists d, carries a d) \/ without_data a ->
  exists e u, create_environ guess idna_part ip_ok nfkc_ok boundary a = Ok (e, u).
Proof. exact create_total. Qed.
Print Assumptions C88_total.
(** The application reads exactly the data given. *)
Theorem C88_data : forall guess idna_part ip_ok nfkc_ok boundary a e u d,
  create_environ guess idna_part ip_ok nfkc_ok boundary a = Ok (e, u) -> a_overrides a = [] -> carries a d ->
  u = fresh d [] /\ dget e (lit "CONTENT_LENGTH") = Some (zdec (Z.of_nat (length d))) /\
  forall cache, exists st, get_data e false cache false (new_request false u) = (Ok d, st).
Proof. exact body_spec. Qed.
Print Assumptions C88_data.
Theorem C88_no_data : forall guess idna_part ip_ok nfkc_ok boundary a e u,
  create_environ guess idna_part ip_ok nfkc_ok boundary a = Ok (e, u) -> a_overrides a = [] -> without_data a ->
  u = fresh [] [] /\ forall cache, exists st, get_data e false cache false (new_request false u) = (Ok [], st).
Proof. exact no_body_spec. Qed.
Print Assumptions C88_no_data.
(** It sees the parameters of a query given as pairs with different names; *)
Theorem C88_args_partial : forall guess idna_part ip_ok nfkc_ok boundary a e u pairs,
  create_environ guess idna_part ip_ok nfkc_ok boundary a = Ok (e, u) -> a_overrides a = [] ->
  a_query a = QueryDict (SPairs pairs) -> NoDup (map fst pairs) -> Forall (fun kv => snd kv <> []) pairs ->
  exists d, req_args e = Ok d /\ forall k, m_getlist d k = values_for pairs k.
Proof. exact args_spec'. Qed.
Print Assumptions C88_args_partial.
(** finding: of several values of one name all but the first are lost. *)
Theorem C88_args_refuted : exists a e u d, a_query a = QueryDict (SPairs [(lit "k", lit "1"); (lit "k", lit "2")]) /\ a_overrides a = [] /\
  create [] a = Ok (e, u) /\ req_args e = Ok d /\ m_getlist d (lit "k") = [lit "1"].
Proof.
  exists (mk_args (lit "/") None (QueryDict (SPairs [(lit "k", lit "1"); (lit "k", lit "2")])) (lit "GET") None None None [] NoData [] []).
  eexists. eexists. eexists. split; [reflexivity|]. split; [reflexivity|]. split; [vm_compute; reflexivity|]. split; [vm_compute; reflexivity|]. reflexivity.
Qed.
(** It sees a header no later header uses the same variable as; *)
Theorem C88_headers_partial : forall guess idna_part ip_ok nfkc_ok boundary a e u pre k v post,
  create_environ guess idna_part ip_ok nfkc_ok boundary a = Ok (e, u) -> a_overrides a = [] ->
  a_headers a = pre ++ (k, v) :: post -> variable_of k <> lit "HTTP_CONTENT_TYPE" -> variable_of k <> lit "HTTP_CONTENT_LENGTH" ->
  (forall k' v', In (k', v') post -> variable_of k' <> variable_of k) ->
  dget e (variable_of k) = Some (text v).
Proof. exact headers_spec. Qed.
Print Assumptions C88_headers_partial.
(** finding: of several headers with one name all but the last are lost. *)
Theorem C88_headers_refuted : exists a e u, a_headers a = [(lit "Accept", HStr (lit "a/b")); (lit "Accept", HStr (lit "c/d"))] /\ a_overrides a = [] /\
  create [] a = Ok (e, u) /\ dget e (lit "HTTP_ACCEPT") = Some (lit "c/d").
Proof.
  exists (mk_args (lit "/") None NoQuery (lit "GET") None None None [(lit "Accept", HStr (lit "a/b")); (lit "Accept", HStr (lit "c/d"))] NoData [] []).
  eexists. eexists. split; [reflexivity|]. split; [reflexivity|]. split; vm_compute; reflexivity.
Qed.
(** Finding: a base URL that is only a path, as the documentation shows it, leaves no host. *)
Theorem C88_base_path_refuted : exists e u,
  create [] (mk_args (lit "/") (Some (lit "/app")) NoQuery (lit "GET") None None None [] NoData [] []) = Ok (e, u) /\
  dget e (lit "SERVER_NAME") = Some [] /\ dget e (lit "HTTP_HOST") = Some [] /\ dget e (lit "wsgi.url_scheme") = Some [].
Proof. eexists. eexists. split; [vm_compute; reflexivity|]. repeat split. Qed.
(** Finding: a Content-Length among the headers is taken away. *)
Theorem C88_length_refuted : exists e u,
  create [] (mk_args (lit "/") None NoQuery (lit "POST") None None None [(lit "Content-Length", HStr (lit "5"))] NoData [] []) = Ok (e, u) /\
  dget e (lit "HTTP_CONTENT_LENGTH") = None /\ dget e (lit "CONTENT_LENGTH") = Some (lit "0").
Proof. eexists. eexists. split; [vm_compute; reflexivity|]. split; reflexivity. Qed.
Example C88_example :
  let a := mk_args (lit "/f%20" ++ [228] ++ lit "?x=1") (Some (lit "https://example.org:8443/app" ++ [47])) NoQuery (lit "PUT") None (Some (lit "text/plain")) None
             [(lit "X-Thing", HStr (lit "t"))] (TextData [228]) [] [] in
  asks_for a (lit "/f " ++ [228]) (lit "x=1") /\
  base_for (a_base_url a) (lit "https") (lit "example.org") (lit "example.org:8443") (lit "/app") /\
  silent_on_host a /\ fit_headers a /\ carries a [195; 164] /\
  exists e u, create [] a = Ok (e, u) /\ dget e (lit "HTTP_X_THING") = Some (lit "t") /\ dget e (lit "SERVER_PORT") = Some (lit "8443") /\
    dget e (lit "PATH_INFO") = Some (lit "/f " ++ [195; 164]) /\ dget e (lit "CONTENT_LENGTH") = Some (lit "2").
Proof.
  cbv zeta.
  assert (N : forall c s, mem c s = false -> ~ In c s) by (intros c s; apply mem_not_In).
  split; [|split; [|split; [|split; [|split]]]].
  - apply (ask_inline _ (lit "/f%20" ++ [228])); [reflexivity|reflexivity|]. split; [|split; [|split; [|split; [|split]]]].
    + eexists. split; [reflexivity|]. intros r H. discriminate.
    + apply N. reflexivity.
    + apply N. reflexivity.
    + repeat split; apply N; reflexivity.
    + exists (lit "/f " ++ [195; 164]). split; [|reflexivity]. exists (lit "/f%20" ++ [195; 164]). split; [reflexivity|]. apply (safe_unquote_spec []).
    + eexists. split; [reflexivity|]. intros r H. discriminate.
  - change (lit "https://example.org:8443/app" ++ [47]) with (lit "https" ++ lit "://" ++ lit "example.org:8443" ++ lit "/app" ++ repeat 47 1).
    apply base_url; auto; try (apply N; reflexivity).
    + apply (ph_port (lit "example.org") 8443); [discriminate| |lia]. intros c H. unfold name_char. cbn in H. lia.
    + eexists. reflexivity.
    + intros r H. apply (f_equal (fun l => last l 0)) in H. rewrite last_last in H. discriminate.
    + repeat split; apply N; reflexivity.
    + exists (lit "/app"). split; [|reflexivity]. exists (lit "/app"). split; [reflexivity|]. apply (safe_unquote_spec []).
    + intros r H. apply (f_equal (fun l => last l 0)) in H. rewrite last_last in H. discriminate.
  - split; [reflexivity|]. intros k v [H|[]]. inversion H; subst. split; discriminate.
  - split; [|intros t H; inversion H; split; apply N; reflexivity]. intros k v [H|[]]. inversion H; subst. split; apply N; reflexivity.
  - apply (carry_text _ [228]); [reflexivity|reflexivity|discriminate|reflexivity].
  - eexists. eexists. split; [vm_compute; reflexivity|]. repeat split.
Qed.
Example C88_example_query :
  let pairs := [(lit "a b", lit "1&2"); ([228], lit "=")] in
  let a := mk_args (lit "/") None (QueryDict (SPairs pairs)) (lit "GET") (Some (mk_seekable (lit "0123") 1)) None None [] NoData [] [] in
  NoDup (map fst pairs) /\ Forall (fun kv => snd kv <> []) pairs /\ carries a (lit "123") /\
  exists e u, create [] a = Ok (e, u) /\ dget e (lit "QUERY_STRING") = Some (lit "a+b=1%262&%C3%A4=%3D").
Proof.
  cbv zeta. split; [repeat constructor; cbn; intuition discriminate|]. split; [repeat constructor; discriminate|].
  split; [apply (carry_stream _ (mk_seekable (lit "0123") 1)); [reflexivity|reflexivity|cbn; lia]|].
  eexists. eexists. split; vm_compute; reflexivity.
Qed.
Example C88_example_plain : without_data (plain_args (lit "/")) /\ exists e u, create [] (plain_args (lit "/")) = Ok (e, u).
Proof. split; [split; auto; intros k v []|]. eexists. eexists. vm_compute. reflexivity. Qed.

(** C89: run_wsgi_app returns the status and the headers the application gave, everything
    it sends, in order, and its failure, if any; the result is closed once. *)
Theorem C89_run : forall a s h sent fail, behaves a s h sent fail ->
  run_wsgi_app a false = (Ok (mk_seen s h sent fail), closes a).
Proof. exact run_unbuffered. Qed.
Print Assumptions C89_run.
(** So does the buffered variant when the application never uses write; its failure is
    raised at once. *)
Theorem C89_buffered_partial : forall a s h sent fail, behaves a s h sent fail -> never_writes a ->
  run_wsgi_app a true = (match fail with Some e => Raise e | None => Ok (mk_seen s h sent None) end, closes a).
Proof. exact run_buffered. Qed.
Print Assumptions C89_buffered_partial.
(** Whatever the application does, a result has a status and headers it gave to
    start_response, and is closed. *)
Theorem C89_any : forall a buffered x n, run_wsgi_app a buffered = (Ok x, n) -> started a (x_status x) (x_headers x) /\ n = closes a.
Proof. exact run_started. Qed.
Print Assumptions C89_any.
(** Finding: the buffered variant loses what was sent with write. *)
Theorem C89_written_refuted : exists a, behaves a (lit "200 OK") [] [lit "a"; lit "b"] None /\
  run_wsgi_app a true = (Ok (mk_seen (lit "200 OK") [] [lit "b"] None), 0%nat).
Proof.
  exists (mk_app [AStart (lit "200 OK") [] None; AWrite (lit "a")] None [([], Chunk (lit "b"))] false). split; [|reflexivity].
  apply (starts_at_once (lit "200 OK") [] [lit "a"] [lit "b"] None false).
Qed.
(** Finding: an application that fails before it called start_response is not closed. *)
Theorem C89_unclosed_refuted : exists a e, r_closable a = true /\ run_wsgi_app a false = (Raise e, 0%nat).
Proof. exists (mk_app [] None [([], Fail ValueError)] true), ValueError. split; reflexivity. Qed.
Example C89_example :
  let a := mk_app [] None [([], Chunk (lit "early")); ([AStart (lit "200 OK") [(lit "X", lit "y")] None; AWrite (lit "w")], Chunk (lit "b")); ([], Chunk (lit "c")); ([], Fail ValueError)] true in
  behaves a (lit "200 OK") [(lit "X", lit "y")] [lit "early"; lit "w"; lit "b"; lit "c"] (Some ValueError) /\
  run_wsgi_app a false = (Ok (mk_seen (lit "200 OK") [(lit "X", lit "y")] [lit "early"; lit "w"; lit "b"; lit "c"] (Some ValueError)), 1%nat).
Proof.
  split; [|reflexivity]. apply (starts_late (lit "200 OK") [(lit "X", lit "y")] [lit "early"] [lit "w"] (lit "b") [lit "c"] (Some ValueError) true).
Qed.
Example C89_example_buffered :
  let a := mk_app [AStart (lit "200 OK") [] None] None [([], Chunk (lit "a")); ([], Chunk (lit "b"))] true in
  behaves a (lit "200 OK") [] [lit "a"; lit "b"] None /\ never_writes a /\ run_wsgi_app a true = (Ok (mk_seen (lit "200 OK") [] [lit "a"; lit "b"] None), 1%nat).
Proof.
  split; [apply (starts_at_once (lit "200 OK") [] [] [lit "a"; lit "b"] None true)|]. split; [|reflexivity].
  split; [intros b [H|[]]; discriminate|]. intros l o b H X. destruct H as [H|[H|[]]]; inversion H; subst; destruct X.
Qed.

(** C90: an application, which may answer each request differently, is never sent to the
    same place with the same code twice; *)
Theorem C90_chain : forall guess idna_part ip_ok nfkc_ok application fuel allow follow_redirects r x chain trail,
  client_open guess idna_part ip_ok nfkc_ok application fuel allow follow_redirects r = (x, chain, trail) ->
  NoDup chain /\ (length trail <= 1 + length chain)%nat.
Proof. exact open_chain. Qed.
Print Assumptions C90_chain.
(** if it has finitely many places to send clients to, following ends; *)
Theorem C90_ends : forall guess idna_part ip_ok nfkc_ok application l allow follow_redirects r, within application l ->
  fst (fst (client_open guess idna_part ip_ok nfkc_ok application (length l) allow follow_redirects r)) <> None.
Proof. exact open_bounded. Qed.
Print Assumptions C90_ends.
(** the response returned is no redirect any more, and each of the requests made on the way
    came from the redirect before it. *)
Theorem C90_result : forall guess idna_part ip_ok nfkc_ok application fuel allow r environ last chain trail,
  client_open guess idna_part ip_ok nfkc_ok application fuel allow true r = (Some (Ok (environ, last)), chain, trail) ->
  (exists code, status_number (fst last) = Ok code /\ ~ redirect_code code) /\
  exists first t, application 0%nat (fst r) (u_left (snd r)) = Ok first /\ trail = r :: t /\
    hops (redirect_environ guess idna_part ip_ok nfkc_ok allow) application 1 (fst r) first chain t environ last.
Proof. exact open_ok. Qed.
Print Assumptions C90_result.
(** A redirect to an address of the same server becomes a request for that address without
    a body, with GET or, for 307, with the same method. *)
Theorem C90_request : forall guess idna_part ip_ok nfkc_ok environ status code method scheme name host0 host arg text query,
  get_host idna_part environ None = Ok host0 -> plain_host name host0 ->
  scheme = lit "http" \/ scheme = lit "https" -> plain_host name host -> path_argument arg text ->
  ~ In 35 query -> SpecRequest.one_line query -> unicode_text query ->
  status_number status = Ok code -> dget environ (lit "REQUEST_METHOD") = Some method ->
  exists e, redirect_environ guess idna_part ip_ok nfkc_ok false status (location_for scheme host arg query) environ = Ok (e, fresh [] []) /\
    request_for idna_part e (if (code =? 307)%Z then method else lit "GET") scheme name host [] text query.
Proof. exact redirect_ok. Qed.
Print Assumptions C90_request.
(** A redirect to another server is refused. *)
Theorem C90_external : forall guess idna_part ip_ok nfkc_ok environ status scheme name0 name host0 host arg text query,
  get_host idna_part environ None = Ok host0 -> plain_host name0 host0 -> name <> name0 ->
  scheme = lit "http" \/ scheme = lit "https" -> plain_host name host -> path_argument arg text ->
  ~ In 35 query -> SpecRequest.one_line query ->
  redirect_environ guess idna_part ip_ok nfkc_ok false status (location_for scheme host arg query) environ = Raise RuntimeError.
Proof. exact redirect_external. Qed.
Print Assumptions C90_external.
(** Finding: with allow_subdomain_redirects no redirect can be followed. *)
Theorem C90_subdomain_refuted : forall guess idna_part ip_ok nfkc_ok status location environ r,
  redirect_environ guess idna_part ip_ok nfkc_ok true status location environ <> Ok r.
Proof.
  intros guess idna_part ip_ok nfkc_ok status location environ r. unfold redirect_environ.
  destruct (urlsplit ip_ok nfkc_ok location); cbn [bind]; [|discriminate]. destruct (get_host idna_part environ None); cbn [bind]; discriminate.
Qed.
Print Assumptions C90_subdomain_refuted.
Definition local : dict str := [(lit "HTTP_HOST", lit "localhost"); (lit "REQUEST_METHOD", lit "POST")].
(** Finding: a user name can pass for the server. *)
Theorem C90_disguise_refuted : exists e u,
  redirect_environ no_guess id_idna no_ip all_nfkc false (lit "302 FOUND") (lit "http://localhost:x@evil.com/") local = Ok (e, u) /\
  exists v, dget e (lit "HTTP_HOST") = Some v /\ hostname v = lit "evil.com".
Proof. eexists. eexists. split; [vm_compute; reflexivity|]. eexists. split; reflexivity. Qed.
(** Finding: a relative address is refused as if it were external. *)
Theorem C90_relative_refuted : redirect_environ no_guess id_idna no_ip all_nfkc false (lit "302 FOUND") (lit "/next") local = Raise RuntimeError.
Proof. vm_compute. reflexivity. Qed.
Example C90_example :
  let application (n : nat) (e : dict str) (b : str) : res (str * headers) :=
    if eqs (match dget e (lit "PATH_INFO") with Some p => p | None => [] end) (lit "/b") then Ok (lit "200 OK", [])
    else Ok (lit "302 FOUND", [(lit "Location", if Nat.eqb n 0 then lit "http://localhost/a?x" else lit "https://localhost:81/b")]) in
  within application [(lit "http://localhost/a?x", 302%Z); (lit "https://localhost:81/b", 302%Z)] /\
  exists e0 u0 e, create [] (plain_args (lit "/")) = Ok (e0, u0) /\
    let '(x, chain, trail) := client_open no_guess id_idna no_ip all_nfkc application 2 false true (e0, u0) in
    x = Some (Ok (e, (lit "200 OK", []))) /\ chain = [(lit "http://localhost/a?x", 302%Z); (lit "https://localhost:81/b", 302%Z)] /\
    length trail = 3%nat /\ dget e (lit "SERVER_PORT") = Some (lit "81") /\ dget e (lit "REQUEST_METHOD") = Some (lit "GET").
Proof.
  cbv zeta. split.
  - intros n e b response location code. destruct (eqs _ _); intros H; injection H as <-; intros [S L] R.
    + discriminate L.
    + vm_compute in S. injection S as <-. destruct (Nat.eqb n 0); vm_compute in L; injection L as <-; cbn; auto.
  - eexists. eexists. eexists. split; [vm_compute; reflexivity|]. vm_compute. repeat split.
Qed.
Example C90_example_loop :
  let application (n : nat) (e : dict str) (b : str) : res (str * headers) := Ok (lit "301 MOVED", [(lit "Location", lit "http://localhost/")]) in
  fst (fst (client_open no_guess id_idna no_ip all_nfkc application 1 false true (local, fresh [] []))) = Some (Raise ClientRedirectError).
Proof. vm_compute. reflexivity. Qed.
Example C90_example_request :
  get_host id_idna local None = Ok (lit "localhost") /\ plain_host (lit "localhost") (lit "localhost") /\ plain_host (lit "localhost") (lit "localhost:81") /\
  path_argument (lit "/" ++ [228]) (lit "/" ++ [228]) /\ status_number (lit "307 TEMPORARY REDIRECT") = Ok 307%Z /\
  dget local (lit "REQUEST_METHOD") = Some (lit "POST").
Proof.
  assert (N : forall c s, mem c s = false -> ~ In c s) by (intros c s; apply mem_not_In).
  split; [reflexivity|]. split; [apply ph_name; [discriminate|]; intros c H; unfold name_char; cbn in H; lia|].
  split; [apply (ph_port (lit "localhost") 81); [discriminate| |lia]; intros c H; unfold name_char; cbn in H; lia|].
  split; [|split; reflexivity].
  split; [|split; [|split; [|split; [|split]]]].
  + eexists. split; [reflexivity|]. intros r H. discriminate.
  + apply N. reflexivity.
  + apply N. reflexivity.
  + repeat split; apply N; reflexivity.
  + exists (lit "/" ++ [195; 164]). split; [|reflexivity]. exists (lit "/" ++ [195; 164]). split; [reflexivity|]. apply (safe_unquote_spec []).
  + eexists. split; [reflexivity|]. intros r H. discriminate.
Qed.
