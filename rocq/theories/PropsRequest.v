(** Requests: C81-C85. *)
From Coq Require Import Arith List NArith ZArith Bool Lia.
From Verif Require Import PyStr PyStrFacts Utf8 ModelUrls SpecUrls ProofUrls ModelMultiDict ModelStream SpecStream ModelWsgi ModelDate
  ModelRequest SpecRequest ProofRequest ProofCurrent.
Import ListNotations.
Open Scope N_scope.

(** C81: the parameters of a request are those of the query string: every piece that
    means a name and a value is found under that name, in the order of arrival. *)
Theorem C81_args : forall environ raws means,
  dget environ (lit "QUERY_STRING") = Some (join [38] raws) -> Forall2 piece_means raws means ->
  exists d, req_args environ = Ok d /\ forall k, m_getlist d k = values_for (somes means) k.
Proof. exact args_spec. Qed.
Print Assumptions C81_args.
(** What urlencode writes is read back, for all texts and values that are not empty. *)
Theorem C81_roundtrip : forall environ pairs q,
  Forall (fun kv => snd kv <> []) pairs -> urlencode pairs = Ok q -> dget environ (lit "QUERY_STRING") = Some q ->
  exists d, req_args environ = Ok d /\ forall k, m_getlist d k = values_for pairs k.
Proof. exact args_roundtrip. Qed.
Print Assumptions C81_roundtrip.
Theorem C81_encodable : forall pairs,
  Forall (fun kv => unicode_text (fst kv) /\ unicode_text (snd kv)) pairs -> exists q, urlencode pairs = Ok q.
Proof. exact urlencode_total. Qed.
Print Assumptions C81_encodable.
(** No query string a server can hand over makes it raise. *)
Theorem C81_total : forall environ,
  (forall v, dget environ (lit "QUERY_STRING") = Some v -> bytes_text v) -> exists d, req_args environ = Ok d.
Proof. exact args_total. Qed.
Print Assumptions C81_total.
(** Finding: a parameter with an empty value is lost. *)
Theorem C81_blank_refuted : exists environ pairs q d,
  urlencode pairs = Ok q /\ dget environ (lit "QUERY_STRING") = Some q /\ req_args environ = Ok d /\
  exists k, m_getlist d k <> values_for pairs k.
Proof.
  exists [(lit "QUERY_STRING", lit "q=")], [(lit "q", [])], (lit "q="), [].
  split; [reflexivity|]. split; [reflexivity|]. split; [vm_compute; reflexivity|]. exists (lit "q"). vm_compute. discriminate.
Qed.
Example C81_example :
  let environ := [(lit "QUERY_STRING", lit "a=1&b=x+%26%C3%A9&c&a=%3D2&d=")] in
  Forall2 piece_means [lit "a=1"; lit "b=x+%26%C3%A9"; lit "c"; lit "a=%3D2"; lit "d="]
    [Some (lit "a", lit "1"); Some (lit "b", lit "x &" ++ [233]); None; Some (lit "a", lit "=2"); None] /\
  exists d, req_args environ = Ok d /\ m_getlist d (lit "a") = [lit "1"; lit "=2"] /\ m_getlist d (lit "b") = [lit "x &" ++ [233]].
Proof.
  cbv zeta.
  assert (A : forall s, forallb (fun c => c <? 128) s = true -> ascii_text s) by (intros s H; apply is_ascii_text; exact H).
  assert (D : forall raw t, forallb (fun c => c <? 128) raw = true -> utf8_encode t = Ok (safe_unquote_bytes [] (plus_as_space raw)) -> form_decodes raw t).
  { intros raw t H1 H2. split; [apply A; auto|]. eexists. split; [|exact H2]. apply (safe_unquote_spec []). }
  assert (N : forall c s, mem c s = false -> ~ In c s) by (intros c s; apply mem_not_In).
  split.
  - constructor; [|constructor; [|constructor; [|constructor; [|constructor; [|constructor]]]]].
    + apply (pm_pair (lit "a") (lit "1")); try discriminate; try (apply N; reflexivity); apply D; vm_compute; reflexivity.
    + apply (pm_pair (lit "b") (lit "x+%26%C3%A9")); try discriminate; try (apply N; reflexivity); apply D; vm_compute; reflexivity.
    + apply pm_no_sign; [apply A; reflexivity| |]; apply N; reflexivity.
    + apply (pm_pair (lit "a") (lit "%3D2")); try discriminate; try (apply N; reflexivity); apply D; vm_compute; reflexivity.
    + apply (pm_blank (lit "d")); [apply A; reflexivity| |]; apply N; reflexivity.
  - eexists. split; [vm_compute; reflexivity|]. split; reflexivity.
Qed.
Example C81_example_roundtrip :
  let pairs := [(lit "a b", lit "1&2"); (lit "x", [8364; 43]); (lit "a b", lit "=")] in
  Forall (fun kv => snd kv <> []) pairs /\ Forall (fun kv => unicode_text (fst kv) /\ unicode_text (snd kv)) pairs /\
  urlencode pairs = Ok (lit "a+b=1%262&x=%E2%82%AC%2B&a+b=%3D").
Proof.
  cbv zeta. split; [repeat constructor; discriminate|]. split; [|vm_compute; reflexivity].
  apply Forall_forall. intros kv [<-|[<-|[<-|[]]]]; split; apply scalar_text; reflexivity.
Qed.

(** C82: the path of a request is the text the client asked for with exactly one slash in
    front, whatever the number of slashes that was sent; *)
Theorem C82_path : forall environ n q w, no_first_slash q -> wsgi_encoding_dance (repeat 47 n ++ q) = Ok w ->
  dget environ (lit "PATH_INFO") = Some w -> req_path environ = Ok (47 :: q).
Proof. exact path_text. Qed.
Print Assumptions C82_path.
(** the script root is the script name without the slashes at its end; *)
Theorem C82_script_root : forall environ n q w, no_final_slash q -> wsgi_encoding_dance (q ++ repeat 47 n) = Ok w ->
  dget environ (lit "SCRIPT_NAME") = Some w -> req_script_root environ = Ok q.
Proof. exact script_text. Qed.
Print Assumptions C82_script_root.
(** the two have this form for whatever bytes a client sends; *)
Theorem C82_path_shape : forall environ, (forall v, dget environ (lit "PATH_INFO") = Some v -> bytes_text v) ->
  exists q, req_path environ = Ok (47 :: q) /\ no_first_slash q /\ unicode_text q.
Proof. exact path_shape. Qed.
Print Assumptions C82_path_shape.
Theorem C82_script_shape : forall environ, (forall v, dget environ (lit "SCRIPT_NAME") = Some v -> bytes_text v) ->
  exists q, req_script_root environ = Ok q /\ no_final_slash q /\ unicode_text q.
Proof. exact script_shape. Qed.
Print Assumptions C82_script_shape.
(** and the full path is the path, a question mark and the query string. *)
Theorem C82_full_path : forall environ n q w t v, no_first_slash q -> wsgi_encoding_dance (repeat 47 n ++ q) = Ok w ->
  dget environ (lit "PATH_INFO") = Some w -> wsgi_encoding_dance t = Ok v -> dget environ (lit "QUERY_STRING") = Some v ->
  req_full_path environ = Ok ([47] ++ q ++ [63] ++ t).
Proof.
  intros environ n q w t v H1 H2 H3 H4 H5. unfold req_full_path. rewrite (path_text environ n q w); auto. cbn [bind].
  unfold req_query_string, env_or. rewrite H5. destruct (dance_roundtrip _ _ H4) as [_ ->]. reflexivity.
Qed.
Print Assumptions C82_full_path.
Example C82_example :
  let environ := [(lit "PATH_INFO", lit "//caf" ++ [195; 169] ++ lit "//x/"); (lit "SCRIPT_NAME", lit "/app//"); (lit "QUERY_STRING", lit "a=b")] in
  no_first_slash (lit "caf" ++ [233] ++ lit "//x/") /\ no_final_slash (lit "/app") /\
  req_path environ = Ok (lit "/caf" ++ [233] ++ lit "//x/") /\ req_script_root environ = Ok (lit "/app") /\
  req_full_path environ = Ok (lit "/caf" ++ [233] ++ lit "//x/?a=b").
Proof.
  cbv zeta. split; [intros r; discriminate|]. split; [|split; [|split]; vm_compute; reflexivity].
  intros r E. do 5 (destruct r as [|? r]; [discriminate|]). discriminate.
Qed.

(** C83: access_route lists the addresses of X-Forwarded-For in order, whatever white
    space stands around the commas. *)
Theorem C83_route : forall environ (l : list (str * str * str)),
  l <> [] ->
  Forall (fun p => let '(pre, a, post) := p in
    forallb is_space pre = true /\ forallb is_space post = true /\ ~ In 44 a /\
    (forall c r, a = c :: r -> is_space c = false) /\ (forall c r, a = r ++ [c] -> is_space c = false)) l ->
  dget environ (lit "HTTP_X_FORWARDED_FOR") = Some (join [44] (map (fun p => fst (fst p) ++ snd (fst p) ++ snd p) l)) ->
  req_access_route environ = map (fun p => snd (fst p)) l.
Proof. exact route_spec. Qed.
Print Assumptions C83_route.
(** Without that header the address of the peer, if it is known, is the whole route. *)
Theorem C83_direct : forall environ, dget environ (lit "HTTP_X_FORWARDED_FOR") = None ->
  (forall a, dget environ (lit "REMOTE_ADDR") = Some a -> req_access_route environ = [a]) /\
  (dget environ (lit "REMOTE_ADDR") = None -> req_access_route environ = []).
Proof. intros environ H. unfold req_access_route. rewrite H. split; [intros a ->|intros ->]; reflexivity. Qed.
Print Assumptions C83_direct.
Example C83_direct_example :
  req_access_route [(lit "REMOTE_ADDR", lit "192.0.2.7")] = [lit "192.0.2.7"] /\ req_access_route [(lit "REMOTE_PORT", lit "80")] = [].
Proof. vm_compute. auto. Qed.
(** Finding: is_secure tells nothing: it is true for no request, https or not. *)
Theorem C83_secure_refuted : ~ exists environ, req_is_secure environ = Ok (Some true).
Proof. intros [environ H]. unfold req_is_secure in H. destruct (dget environ _); discriminate. Qed.
(** It is None for every request of a WSGI server, and a KeyError without the scheme. *)
Theorem C83_secure_exact_refuted : forall environ,
  (dget environ (lit "wsgi.url_scheme") <> None -> req_is_secure environ = Ok None) /\
  (dget environ (lit "wsgi.url_scheme") = None -> req_is_secure environ = Raise KeyError).
Proof.
  intros environ. unfold req_is_secure. destruct (dget environ (lit "wsgi.url_scheme")); split; intros H; congruence.
Qed.
Print Assumptions C83_secure_exact_refuted.
(** Finding: reading max_forwards of a request without the header raises TypeError. *)
Theorem C83_max_forwards_refuted : exists environ, dget environ (lit "HTTP_MAX_FORWARDS") = None /\
  req_max_forwards environ = Raise TypeError.
Proof. exists []. split; reflexivity. Qed.
(** With the header it is the number. *)
Theorem C83_max_forwards_partial : forall environ n, dget environ (lit "HTTP_MAX_FORWARDS") = Some (zdec n) ->
  req_max_forwards environ = Ok (Some n).
Proof. intros environ n H. unfold req_max_forwards. rewrite H, py_int_zdec. reflexivity. Qed.
Print Assumptions C83_max_forwards_partial.
(** What it reads, exactly: a number whenever [int] reads one, None for other text, and
    TypeError, always, without the header. *)
Theorem C83_max_forwards_exact : forall environ,
  (forall n, req_max_forwards environ = Ok (Some n) <-> exists v, dget environ (lit "HTTP_MAX_FORWARDS") = Some v /\ py_int v = Some n) /\
  (forall e, req_max_forwards environ = Raise e <-> e = TypeError /\ dget environ (lit "HTTP_MAX_FORWARDS") = None).
Proof.
  intros environ. unfold req_max_forwards. destruct (dget environ (lit "HTTP_MAX_FORWARDS")) as [v|]; split.
  - intros n. split; [intros H; exists v; split; congruence|]. intros (v' & E & H). congruence.
  - intros e. split; [discriminate|]. intros [_ H]. discriminate.
  - intros n. split; [discriminate|]. intros (v' & E & H). discriminate.
  - intros e. split; [intros H; split; congruence|]. intros [-> _]. reflexivity.
Qed.
Print Assumptions C83_max_forwards_exact.
Example C83_example :
  let environ := [(lit "HTTP_X_FORWARDED_FOR", lit "10.0.0.1,  2001:db8::1 ,proxy"); (lit "HTTP_MAX_FORWARDS", lit "-3")] in
  let l : list (str * str * str) := [([], lit "10.0.0.1", []); (lit "  ", lit "2001:db8::1", lit " "); ([], lit "proxy", [])] in
  l <> [] /\ dget environ (lit "HTTP_X_FORWARDED_FOR") = Some (join [44] (map (fun p => fst (fst p) ++ snd (fst p) ++ snd p) l)) /\
  req_access_route environ = [lit "10.0.0.1"; lit "2001:db8::1"; lit "proxy"] /\ lit "-3" = zdec (-3) /\
  req_max_forwards environ = Ok (Some (-3)%Z).
Proof. cbv zeta. split; [discriminate|]. repeat split. Qed.

(** C84: a shallow request never touches its input: every call fails. *)
Theorem C84_shallow : forall environ terminated (calls : list (bool * bool)) input,
  get_datas environ terminated calls (new_request true input) = (map (fun _ => @Raise str RuntimeError) calls, new_request true input).
Proof. exact shallow_data. Qed.
Print Assumptions C84_shallow.
(** After one call that kept the data, every later call gives the same bytes (or the
    text they decode to) and nothing changes any more, the input included. *)
Theorem C84_cached : forall environ terminated as_text st d st1,
  get_data environ terminated true as_text st = (Ok d, st1) ->
  exists b, (if as_text then utf8_decode Replace b else Ok b) = Ok d /\ forall calls,
    get_datas environ terminated calls st1 = (map (fun c : bool * bool => if snd c then utf8_decode Replace b else Ok b) calls, st1).
Proof. exact cached_data. Qed.
Print Assumptions C84_cached.
(** The data is as long as announced, it is the beginning of what the client sent, and
    nothing more is taken from the connection. *)
Theorem C84_body : forall environ n data plan cache d st1,
  get_content_length environ = Some n ->
  get_data environ false cache false (new_request false (fresh data plan)) = (Ok d, st1) ->
  Z.of_nat (length d) = n /\ input_taken st1 = d /\ exists rest, data = d ++ rest.
Proof. exact first_body. Qed.
Print Assumptions C84_body.
(** On a connection that does not fail, with all the data there, it is read. *)
Theorem C84_complete : forall environ n data cache,
  get_content_length environ = Some n -> (n <= Z.of_nat (length data))%Z ->
  exists d st1, get_data environ false cache false (new_request false (fresh data [])) = (Ok d, st1) /\ d = firstn (Z.to_nat n) data.
Proof. exact plain_read. Qed.
Print Assumptions C84_complete.
(** Without a length nothing is read. *)
Theorem C84_no_length : forall environ data plan cache as_text,
  get_content_length environ = None ->
  exists st1, get_data environ false cache as_text (new_request false (fresh data plan)) = (Ok [], st1) /\ input_taken st1 = [].
Proof. exact no_length. Qed.
Print Assumptions C84_no_length.
(** Data that was not kept is handed over once. *)
Theorem C84_once : forall environ n data plan d st1 x st2 cache,
  get_content_length environ = Some n ->
  get_data environ false false false (new_request false (fresh data plan)) = (Ok d, st1) ->
  get_data environ false cache false st1 = (Ok x, st2) -> x = [] /\ input_taken st2 = d.
Proof. exact second_body. Qed.
Print Assumptions C84_once.
Example C84_example :
  let environ := [(lit "CONTENT_LENGTH", lit "5")] in
  let st := new_request false (fresh (lit "a=" ++ [195; 169] ++ lit "1GET /") [Gives 9]) in
  get_content_length environ = Some 5%Z /\
  (exists st1, get_data environ false true false st = (Ok (lit "a=" ++ [195; 169] ++ lit "1"), st1) /\
     fst (get_datas environ false [(false, true); (true, false)] st1) = [Ok (lit "a=" ++ [233] ++ lit "1"); Ok (lit "a=" ++ [195; 169] ++ lit "1")]) /\
  exists st1 st2, get_data environ false false false st = (Ok (lit "a=" ++ [195; 169] ++ lit "1"), st1) /\
     get_data environ false true false st1 = (Ok [], st2) /\ input_taken st2 = lit "a=" ++ [195; 169] ++ lit "1".
Proof.
  cbv zeta. split; [reflexivity|]. split.
  - eexists. split; vm_compute; reflexivity.
  - eexists _, _. split; [vm_compute; reflexivity|]. split; vm_compute; reflexivity.
Qed.

(** C85: the address of a request is its scheme, host, script name and path, of which only
    "%", ";" and "?" are escaped; [url_root] is the same without the path, [host_url]
    without both. *)
Theorem C85_base_url : forall idna_part idna_decode_part ip_ok nfkc_ok environ trusted scheme host script path,
  ordinary idna_part idna_decode_part environ trusted scheme host script path ->
  get_current_url idna_part idna_decode_part ip_ok nfkc_ok environ false true false trusted =
    Ok (scheme ++ lit "://" ++ host ++ shown_path (script ++ [47] ++ path)).
Proof.
  intros idna_part idna_decode_part ip_ok nfkc_ok environ trusted scheme host script path H.
  exact (current_plain idna_part idna_decode_part ip_ok nfkc_ok environ trusted scheme host script path false H).
Qed.
Print Assumptions C85_base_url.
Theorem C85_url_root : forall idna_part idna_decode_part ip_ok nfkc_ok environ trusted scheme host script path,
  ordinary idna_part idna_decode_part environ trusted scheme host script path ->
  get_current_url idna_part idna_decode_part ip_ok nfkc_ok environ true false false trusted =
    Ok (scheme ++ lit "://" ++ host ++ shown_path (script ++ [47])).
Proof.
  intros idna_part idna_decode_part ip_ok nfkc_ok environ trusted scheme host script path H.
  rewrite (current_parts idna_part idna_decode_part ip_ok nfkc_ok environ trusted scheme host script path true false [] [] H);
    [unfold address|reflexivity|reflexivity|intros c []]. rewrite app_nil_r. reflexivity.
Qed.
Print Assumptions C85_url_root.
Theorem C85_host_url : forall idna_part idna_decode_part ip_ok nfkc_ok environ trusted scheme host,
  dget environ (lit "wsgi.url_scheme") = Some scheme -> scheme = lit "http" \/ scheme = lit "https" ->
  get_host idna_part environ trusted = Ok host ->
  (exists name, plain_host name host /\ forall p, In p (split_on 46 name) -> idna_decode_part p = Ok p) ->
  get_current_url idna_part idna_decode_part ip_ok nfkc_ok environ false false true trusted = Ok (scheme ++ lit "://" ++ host ++ [47]).
Proof. intros. eapply current_host; eauto. Qed.
Print Assumptions C85_host_url.
(** C85: taken apart again, the address names the scheme, the host, the path and the query
    of the request.  Missing: paths with "#" and texts with tabs or line ends, for which it
    is false; queries with percent signs that begin no escape, for which it is false; bytes
    that are not UTF-8, which are replaced; hosts that need IDNA. *)
Theorem C85_leads_back_partial : forall idna_part idna_decode_part ip_ok nfkc_ok environ trusted scheme host script path w b text,
  ordinary idna_part idna_decode_part environ trusted scheme host script path ->
  ~ In 35 script -> ~ In 35 path -> one_line script -> one_line path -> one_line text ->
  dget environ (lit "QUERY_STRING") = Some w -> bytes_text w -> all_escapes w -> percent_decodes w b -> utf8_encode text = Ok b ->
  exists url p q bp, get_current_url idna_part idna_decode_part ip_ok nfkc_ok environ false false false trusted = Ok url /\
    urlsplit ip_ok nfkc_ok url = Ok (Split scheme host p q []) /\
    utf8_encode (script ++ [47] ++ path) = Ok bp /\ stands_for p bp /\ stands_for q b.
Proof. exact current_back. Qed.
Print Assumptions C85_leads_back_partial.

Definition C85_request (script path query : str) : dict str :=
  [(lit "wsgi.url_scheme", lit "http"); (lit "HTTP_HOST", lit "example.org:8080"); (lit "SCRIPT_NAME", script);
   (lit "PATH_INFO", path); (lit "QUERY_STRING", query)].
Lemma C85_request_ordinary script path query bs bp : utf8_encode script = Ok bs -> utf8_encode (47 :: path) = Ok bp ->
  no_final_slash script -> script = [] \/ (exists r, script = 47 :: r) -> no_first_slash path ->
  ordinary (@Ok str) (@Ok str) (C85_request bs bp query) None (lit "http") (lit "example.org:8080") script path.
Proof.
  intros H1 H2 H3 H4 H5. constructor; auto.
  - exists (lit "example.org"). split; [|auto]. apply (ph_port (lit "example.org") 8080); try discriminate; [|lia].
    intros c Hc. unfold name_char. repeat (destruct Hc as [<-|Hc]; [cbn; lia|]). destruct Hc.
  - exists O, bs. cbn [repeat]. rewrite app_nil_r. auto.
  - exists 1%nat, bp. auto.
Qed.
(** Finding: a "#" of the path begins a fragment of the address. *)
Theorem C85_hash_refuted : exists environ url p,
  ordinary (@Ok str) (@Ok str) environ None (lit "http") (lit "example.org:8080") [] (lit "c#/intro") /\
  get_current_url (@Ok str) (@Ok str) (fun _ => true) (fun _ => true) environ false false false None = Ok url /\
  urlsplit (fun _ => true) (fun _ => true) url = Ok (Split (lit "http") (lit "example.org:8080") p [] (lit "/intro")) /\
  p = lit "/c".
Proof.
  exists (C85_request [] (lit "/c#/intro") []), (lit "http://example.org:8080/c#/intro"), (lit "/c").
  split; [|split; [vm_compute; reflexivity|split; [vm_compute; reflexivity|reflexivity]]].
  apply C85_request_ordinary; try reflexivity; auto; [intros r; destruct r; discriminate|intros r; discriminate].
Qed.
(** Finding: a percent sign that begins no escape makes the query of the address stand for
    other bytes. *)
Theorem C85_percent_refuted : exists environ url q,
  ordinary (@Ok str) (@Ok str) environ None (lit "http") (lit "example.org:8080") [] [] /\
  dget environ (lit "QUERY_STRING") = Some (lit "%%341") /\ percent_decodes (lit "%%341") (lit "%41") /\
  get_current_url (@Ok str) (@Ok str) (fun _ => true) (fun _ => true) environ false false false None = Ok url /\
  urlsplit (fun _ => true) (fun _ => true) url = Ok (Split (lit "http") (lit "example.org:8080") [47] q []) /\
  stands_for q (lit "A").
Proof.
  exists (C85_request [] (lit "/") (lit "%%341")), (lit "http://example.org:8080/?%41"), (lit "%41").
  split; [|split; [reflexivity|split; [apply (safe_unquote_spec [])|split; [vm_compute; reflexivity|split; [vm_compute; reflexivity|]]]]].
  - apply C85_request_ordinary; try reflexivity; auto; [intros r; destruct r; discriminate|intros r; discriminate].
  - exists (lit "%41"). split; [reflexivity|]. apply (safe_unquote_spec []).
Qed.
Example C85_example :
  let environ := C85_request (lit "/app") (lit "/a b;" ++ [195; 169] ++ lit "%?") (lit "x=%2F%20y&z=a+b/c") in
  ordinary (@Ok str) (@Ok str) environ None (lit "http") (lit "example.org:8080") (lit "/app") (lit "a b;" ++ [233] ++ lit "%?") /\
  one_line (lit "a b;" ++ [233] ++ lit "%?") /\ bytes_text (lit "x=%2F%20y&z=a+b/c") /\ all_escapes (lit "x=%2F%20y&z=a+b/c") /\
  percent_decodes (lit "x=%2F%20y&z=a+b/c") (lit "x=/ y&z=a+b/c") /\
  get_current_url (@Ok str) (@Ok str) (fun _ => true) (fun _ => true) environ false false false None =
    Ok (lit "http://example.org:8080/app/a b%3B" ++ [233] ++ lit "%25%3F?x=%2F y&z=a+b%2Fc").
Proof.
  cbv zeta. split; [|split; [|split; [|split; [|split; [apply (safe_unquote_spec [])|vm_compute; reflexivity]]]]].
  - apply C85_request_ordinary; try reflexivity.
    + intros r E. do 5 (destruct r as [|? r]; [discriminate|]). discriminate.
    + right. eexists. reflexivity.
    + intros r; discriminate.
  - repeat split; apply mem_not_In; reflexivity.
  - apply is_bytes_text. reflexivity.
  - apply ae_char; [discriminate|]. apply ae_char; [discriminate|].
    apply (ae_escape (lit "%2F") 47); [apply (escape_pct 47); lia|]. apply (ae_escape (lit "%20") 32); [apply (escape_pct 32); lia|].
    repeat (apply ae_char; [discriminate|]). constructor.
Qed.
