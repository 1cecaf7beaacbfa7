(** The claims about header properties that are objects (C91-C97), and C48 with dates. *)
From Coq Require Import List NArith ZArith Bool Lia.
From Verif Require Import PyStr PyStrFacts ModelQuote SpecQuote ModelHeaders SpecHeaders ProofHeaders ModelRange SpecRange ModelEtag SpecEtag ProofEtag
  ModelDate SpecDate ProofDate ModelUrls ModelCookie SpecCookie ModelAuth ModelUtils ModelCallback SpecCallback ModelResponse SpecResponse
  ModelMirror SpecMirror ProofMirror Utf8 SpecUrls.
Import ListNotations.
Open Scope N_scope.

Definition response1 (h : headers) (b : body) : response := Response h (set_status_code 200) b false [] true true true.

(** ** C91: If-Range *)
(** A date, in any of the forms used, is read as this date and no tag.  Missing: years
    before 100, which parse_date takes for years of this or the last century. *)
Theorem C91_date_partial : forall v d, real_date d -> (100 <= dt_year d)%Z -> dated v d ->
  parse_if_range_header (Some v) = Ok (mk_if_range None (Some d)).
Proof. exact if_range_date. Qed.
Print Assumptions C91_date_partial.
(** A tag with at most one gap is read as this tag, strong or weak, and no date. *)
Theorem C91_tag_partial : forall m t, two_words t -> parse_if_range_header (Some (write_tag (m, t))) = Ok (mk_if_range (Some t) None).
Proof. exact if_range_tag. Qed.
Print Assumptions C91_tag_partial.
(** Reading never fails, and never yields both. *)
Theorem C91_total : forall v, exists r, parse_if_range_header v = Ok r /\ (ir_etag r = None \/ ir_date r = None).
Proof. exact if_range_total. Qed.
Print Assumptions C91_total.
Theorem C91_absent : forall v, v = None \/ v = Some [] -> parse_if_range_header v = Ok (mk_if_range None None).
Proof. intros v [->| ->]; reflexivity. Qed.
Print Assumptions C91_absent.
(** What is written is read back: a date and a tag; a tag with a double quote is refused. *)
Theorem C91_written_date_partial : forall d tag, real_date d -> (100 <= dt_year d)%Z ->
  exists t, if_range_to_header (mk_if_range tag (Some d)) = Ok t /\ parse_if_range_header (Some t) = Ok (mk_if_range None (Some d)).
Proof.
  intros d tag R Y. destruct (real_day d R) as [n Hn]. destruct (date_text_spec d n R Hn) as [E _].
  exists (rfc1123 n d (lit "GMT")). split; [|apply if_range_date; auto; eapply da_rfc1123; reflexivity].
  unfold if_range_to_header, http_date, ir_date. rewrite <- E. reflexivity.
Qed.
Print Assumptions C91_written_date_partial.
Theorem C91_written_tag_partial : forall t, two_words t -> ~ In 34 t ->
  exists v, if_range_to_header (mk_if_range (Some t) None) = Ok v /\ parse_if_range_header (Some v) = Ok (mk_if_range (Some t) None).
Proof.
  intros t T Q. exists (write_tag (Strong, t)). split; [|apply if_range_tag, T].
  unfold if_range_to_header, ir_date, ir_etag, quote_etag. apply mem_not_In in Q. rewrite Q. reflexivity.
Qed.
Print Assumptions C91_written_tag_partial.
Theorem C91_written_quote : forall t, In 34 t -> if_range_to_header (mk_if_range (Some t) None) = Raise ValueError.
Proof. intros t Q. unfold if_range_to_header, ir_date, ir_etag, quote_etag. apply mem_In in Q. rewrite Q. reflexivity. Qed.
Print Assumptions C91_written_quote.
(** Finding: a tag whose text is a date is read as a date, although it stands in quotes. *)
Theorem C91_refuted : exists t d, ~ In 34 t /\ parse_if_range_header (Some (write_tag (Strong, t))) = Ok (mk_if_range None (Some d)).
Proof.
  exists (lit "Sun, 06 Nov 1994 08:49:37 GMT"). exists (DT 1994 11 6 8 49 37). split; [|vm_compute; reflexivity].
  apply mem_not_In. reflexivity.
Qed.
Print Assumptions C91_refuted.
Example C91_example :
  two_words (lit "v1 b") /\ parse_if_range_header (Some (lit "W/""v1 b""")) = Ok (mk_if_range (Some (lit "v1 b")) None) /\
  parse_if_range_header (Some (lit "Sunday, 06-Nov-94 08:49:37 GMT")) = Ok (mk_if_range None (Some (DT 1994 11 6 8 49 37))).
Proof.
  split; [|vm_compute; auto]. exists (lit "v1"), [32], (lit "b"). split; [reflexivity|]. split; [|split]; repeat constructor.
Qed.

(** ** C48: with the dates themselves.  Missing: years before 100. *)
Theorem C48_http_dates_partial : forall (now : str) (md5 : str -> str) (fuel : nat) (env : cond_env) (r r' : response)
    (since_text : str) (since_date : datetime) (since : Z) (v : str) (vs : list str) (date : datetime) (modified : Z),
  get_or_head (ce_method env) -> (ce_inm env = None \/ ce_inm env = Some [] \/ absent (lit "ETag") (rs_headers r)) ->
  ce_ims env = Some since_text -> dated since_text since_date -> real_date since_date -> (100 <= dt_year since_date)%Z -> instant since_date since ->
  values_of (lit "Last-Modified") (rs_headers r) (v :: vs) -> dated v date -> real_date date -> (100 <= dt_year date)%Z -> instant date modified ->
  make_conditional now date_micros md5 fuel env r = Some (r', None) ->
  ((modified <= since)%Z /\ rs_status r' = set_status_code 304) \/ ((since < modified)%Z /\ rs_status r' = rs_status r).
Proof. exact conditional_http_dates. Qed.
Print Assumptions C48_http_dates_partial.
Example C48_http_dates_example :
  let r := response1 [(lit "Last-Modified", lit "Sun, 06 Nov 1994 08:49:37 GMT")] (BSeq [IBytes [1; 2]]) in
  let status since := option_map (fun x : response * option exn => st_code (rs_status (fst x)))
    (make_conditional (lit "now") date_micros (fun x => x) 50 (CE (lit "GET") (Some since) None) r) in
  status (lit "Sunday, 06-Nov-94 08:49:37 GMT") = Some 304%Z /\ status (lit "Sun, 06 Nov 1994 08:49:36 GMT") = Some 200%Z.
Proof. vm_compute. auto. Qed.

(** ** C92: cookies of a response *)
(** A cookie adds one header, of one line, after those there were; the other cookies stay. *)
Theorem C92_line : forall idna_part ip_ok nfkc_ok now h key value k h',
  set_cookie idna_part ip_ok nfkc_ok now h key value k = Ok h' ->
  exists line, h' = h ++ [(lit "Set-Cookie", line)] /\ SpecHeaders.one_line line.
Proof. exact set_cookie_line. Qed.
Print Assumptions C92_line.
(** The line is the name, the value and exactly the attributes asked for, and they say what
    was asked for: the seconds, the moment, the path, the domain. *)
Theorem C92_attributes : forall (idna_part : str -> res str) (ip_ok nfkc_ok : str -> bool) (now : Z),
  (forall p e, idna_part p = Ok e -> bytes_text e /\ ~ In 59 e) ->
  forall h key value k h',
    (forall c, In c key -> name_char c) -> (forall p, k_path k = Some p -> ~ In 59 p) ->
    (forall e, k_expires k = Some (ExText e) -> ~ In 59 e) ->
    set_cookie idna_part ip_ok nfkc_ok now h key value k = Ok h' ->
    exists line w vb parts,
      h' = h ++ [(lit "Set-Cookie", line)] /\ SpecHeaders.one_line line /\
      split_on 59 line = (key ++ 61 :: w) :: parts /\
      utf8_encode value = Ok vb /\ (forall fuel, (length w <= fuel)%nat -> cookie_unquote fuel w = Some vb) /\
      Forall2 attr_name parts
        (requested (given (k_domain k)) (given (k_expires k) || given (k_max_age k)) (given (k_max_age k)) (k_secure k) (k_httponly k) (given (k_path k))) /\
      (forall m, k_max_age k = Some m -> In (lit " Max-Age=" ++ zdec m) parts) /\
      (forall d n, real_date d -> nth_day (dt_year d) (dt_month d) (dt_day d) n -> expires_when now k d ->
         In (lit " Expires=" ++ netscape n d (lit "GMT")) parts) /\
      (forall p, k_path k = Some p -> exists u, iri_to_uri idna_part ip_ok nfkc_ok p = Ok u /\ In (lit " Path=" ++ u) parts) /\
      (forall d, k_domain k = Some d -> SpecUrls.ascii_text d -> ~ In 58 d -> In (lit " Domain=" ++ cookie_quote d) parts).
Proof. exact set_cookie_parts. Qed.
Print Assumptions C92_attributes.
(** Deleting a cookie sends an empty one that has expired, with the path and domain given. *)
Theorem C92_delete : forall (idna_part : str -> res str) (ip_ok nfkc_ok : str -> bool) (now : Z),
  (forall p e, idna_part p = Ok e -> bytes_text e /\ ~ In 59 e) ->
  forall h key path domain h',
    (forall c, In c key -> name_char c) -> (forall p, path = Some p -> ~ In 59 p) ->
    delete_cookie idna_part ip_ok nfkc_ok now h key path domain = Ok h' ->
    exists line w parts,
      h' = h ++ [(lit "Set-Cookie", line)] /\ SpecHeaders.one_line line /\
      split_on 59 line = (key ++ 61 :: w) :: parts /\ (forall fuel, (length w <= fuel)%nat -> cookie_unquote fuel w = Some []) /\
      Forall2 attr_name parts (requested (given domain) true true false false (given path)) /\
      In (lit " Max-Age=0") parts /\ In (lit " Expires=Thu, 01-Jan-1970 00:00:00 GMT") parts /\
      (forall p, path = Some p -> exists u, iri_to_uri idna_part ip_ok nfkc_ok p = Ok u /\ In (lit " Path=" ++ u) parts) /\
      (forall d, domain = Some d -> SpecUrls.ascii_text d -> ~ In 58 d -> In (lit " Domain=" ++ cookie_quote d) parts).
Proof. exact delete_cookie_parts. Qed.
Print Assumptions C92_delete.
Example C92_example :
  let sc := set_cookie (fun p => Ok p) (fun _ => false) (fun _ => true) 784111777 in
  sc [(lit "Set-Cookie", lit "x=1; Path=/")] (lit "id") (lit "a b") (mk_cookie (Some 60%Z) None (Some (lit "/app")) (Some (lit "example.com")) true true) =
    Ok [(lit "Set-Cookie", lit "x=1; Path=/");
        (lit "Set-Cookie", lit "id=""a b""; Domain=example.com; Expires=Sun, 06-Nov-1994 08:50:37 GMT; Max-Age=60; Secure; HttpOnly; Path=/app")] /\
  delete_cookie (fun p => Ok p) (fun _ => false) (fun _ => true) 0 [] (lit "id") (Some (lit "/app")) None =
    Ok [(lit "Set-Cookie", lit "id=; Expires=Thu, 01-Jan-1970 00:00:00 GMT; Max-Age=0; Path=/app")].
Proof. vm_compute. auto. Qed.

(** ** C93: the entity tag of a response *)
Theorem C93_set : forall h t w, ~ In 34 t -> SpecHeaders.one_line t -> exists h', set_etag h t w = (h', None) /\
  set_effect (lit "ETag") ((if w then lit "w/" else []) ++ 34 :: t ++ [34]) h h' /\ get_etag h' = Some (t, w).
Proof. exact set_etag_ok. Qed.
Print Assumptions C93_set.
Theorem C93_refused : forall h t w, In 34 t \/ ~ SpecHeaders.one_line t -> set_etag h t w = (h, Some ValueError).
Proof. exact set_etag_bad. Qed.
Print Assumptions C93_refused.
(** add_etag leaves a tag alone unless told otherwise, and else makes it from the body. *)
Theorem C93_add_kept : forall md5 r w, h_contains (rs_headers r) (lit "etag") = true -> add_etag md5 r false w = (r, None).
Proof. exact add_etag_kept. Qed.
Print Assumptions C93_add_kept.
Theorem C93_add_made : forall md5 r overwrite w r1 data, overwrite = true \/ h_contains (rs_headers r) (lit "etag") = false ->
  get_data r = (r1, Ok data) -> ~ In 34 (md5 data) -> SpecHeaders.one_line (md5 data) ->
  exists h', add_etag md5 r overwrite w = (with_headers r1 h', None) /\ get_etag h' = Some (md5 data, w) /\ others_kept (lit "ETag") (rs_headers r1) h'.
Proof. exact add_etag_made. Qed.
Print Assumptions C93_add_made.
(** A client that sends the tag back is told that nothing changed.  Missing: the empty
    tag (see C48). *)
Theorem C93_sent_back_partial : forall (now : str) (date : str -> option Z) (md5 : str -> str) (fuel : nat) (env : cond_env)
    (r : response) (h' : headers) (t : str) (w : bool) (r' : response), get_or_head (ce_method env) ->
  t <> [] -> ~ In 34 t -> SpecHeaders.one_line t ->
  set_etag (rs_headers r) t w = (h', None) -> ce_inm env = h_get h' (lit "ETag") -> (length t + 4 <= fuel)%nat ->
  make_conditional now date md5 fuel env (with_headers r h') = Some (r', None) ->
  rs_status r' = set_status_code 304.
Proof. exact etag_sent_back. Qed.
Print Assumptions C93_sent_back_partial.
(** The empty tag: it is set and read, and a client that sends it back gets the page again. *)
Theorem C93_empty_tag_refuted : exists r h', set_etag (rs_headers r) [] false = (h', None) /\ get_etag h' = Some ([], false) /\
  match make_conditional [] (fun _ => None) (fun x => x) 50 (CE (lit "GET") None (h_get h' (lit "ETag"))) (with_headers r h') with
  | Some (r', e) => e = None /\ rs_status r' = rs_status r /\ rs_body r' = rs_body r
  | None => False
  end.
Proof. exists (response1 [] (BSeq [IBytes [1; 2]])). eexists. split; [vm_compute; reflexivity|]. vm_compute. repeat split. Qed.
Print Assumptions C93_empty_tag_refuted.
Example C93_example :
  let r := response1 [(lit "etag", lit """v0"""); (lit "X", lit "1"); (lit "ETAG", lit """v1""")] (BSeq [IBytes [1; 2]]) in
  set_etag (rs_headers r) (lit "v2") true = ([(lit "ETag", lit "w/""v2"""); (lit "X", lit "1")], None) /\
  fst (add_etag (fun _ => lit "h") r false false) = r /\
  rs_headers (fst (add_etag (fun _ => lit "h") r true false)) = [(lit "ETag", lit """h"""); (lit "X", lit "1")].
Proof. vm_compute. auto. Qed.

(** ** C94: Vary, Content-Language and Allow *)
(** Whatever calls are made on the set handed out, the header lists the names of the set,
    and reading the property again finds them; the other headers stay. *)
Theorem C94_calls_partial : forall name h ops,
  distinct_names (hs_iter (get_set name h)) -> Forall fit_name (hs_iter (get_set name h)) ->
  tame_run (get_set name h) ops -> Forall (fun o => Forall fit_name (names_in o)) ops ->
  let (s', h') := set_calls name (get_set name h) h ops in
  s' = hs_run (get_set name h) ops /\ others_kept name h h' /\
  (h' = h \/ set_lines name h' (hs_iter s')) /\ hs_iter (get_set name h') = hs_iter s'.
Proof.
  intros name h ops D F T N.
  assert (K : hs_ok (get_set name h)) by (revert D; unfold get_set, parse_set_header; destruct (h_get h name) as [[|c v]|]; intros D; apply hs_init_ok, D).
  pose proof (set_calls_spec name ops (get_set name h) h K F T N) as C. destruct (set_calls name (get_set name h) h ops) as [s' h'].
  destruct C as (A & B & [[E ->]|C]); auto. repeat split; auto. apply set_lines_read, C.
Qed.
Print Assumptions C94_calls_partial.
Theorem C94_assigned : forall name h l, Forall fit_name l ->
  exists h', assign_set name h (SvNames l) = (h', None) /\ set_lines name h' l /\ others_kept name h h'.
Proof. exact assign_names. Qed.
Print Assumptions C94_assigned.
Example C94_example :
  let h := [(lit "VARY", lit "Accept, Cookie"); (lit "X", lit "1")] in
  let run ops := snd (set_calls (lit "Vary") (get_set (lit "Vary") h) h ops) in
  run [SAdd (lit "Host"); SDiscard (lit "cookie")] = [(lit "Vary", lit "Accept, Host"); (lit "X", lit "1")] /\
  run [SClear] = [(lit "X", lit "1")] /\ run [SAdd (lit "ACCEPT")] = h.
Proof. vm_compute. auto. Qed.
(** Finding: removing a name with a capital letter from the set leaves the set's list and
    the header as they were, although the set no longer has the name. *)
Theorem C94_remove_refuted : exists h s' h',
  set_calls (lit "Vary") (get_set (lit "Vary") h) h [SRemove (lit "Accept")] = (s', h') /\
  hs_contains s' (lit "accept") = false /\ h_get h' (lit "Vary") = Some (lit "Accept, Cookie").
Proof. eexists [(lit "Vary", lit "Accept, Cookie")], _, _. split; [vm_compute; reflexivity|]. vm_compute. auto. Qed.
Print Assumptions C94_remove_refuted.
(** Finding: a name that is no header text is refused, but the set keeps it. *)
Example C94_finding_line_break :
  let '(s', h', e) := hs_call (set_update (lit "Vary")) (hs_init []) [] (SAdd [97; 10; 98]) in
  hs_iter s' = [[97; 10; 98]] /\ h' = [] /\ e = Some ValueError.
Proof. vm_compute. auto. Qed.

(** ** C95: Content-Range *)
(** A call on the object either fails with ValueError and changes nothing, or tells the
    response: the header then is the text of the object, or gone if there are no units. *)
Theorem C95_step_partial : forall c h o c' h' r, cr_step c h o = (c', h', r) ->
  (c' = c /\ h' = h /\ r = Some ValueError) \/
  ((forall u, writable_range c' u -> exists line, r = None /\ content_range_to_header c' = Ok line /\
      parse_content_range_header line = Ok (Some c') /\ set_effect (lit "Content-Range") line h h' /\ get_content_range h' = (h', Ok c')) /\
   (c_units c' = None -> r = None /\ without (lit "Content-Range") h h' /\ get_content_range h' = (h', Ok (CR None None None None)))).
Proof.
  intros c h o c' h' r E. destruct (cr_step_told c h o c' h' r E) as [T|T]; auto. right. split.
  - intros u W. destruct (cr_update_writable h c' u W) as (line & h2 & A & B & C & D & F). rewrite C in T. injection T as -> ->. eauto 8.
  - intros N. destruct (cr_update_none h c' N) as (h2 & A & B & C). rewrite A in T. injection T as -> ->. auto.
Qed.
Print Assumptions C95_step_partial.
(** What a call makes of the object: set takes exactly the valid ranges. *)
Theorem C95_set : forall c h start stop length u c' h' r, word u -> cr_step c h (CrSet start stop length (Some u)) = (c', h', r) ->
  (valid_content start stop length /\ c' = CR (Some u) start stop length /\ r = None /\ get_content_range h' = (h', Ok c')) \/
  (~ valid_content start stop length /\ c' = c /\ h' = h /\ r = Some ValueError).
Proof.
  intros c h start stop length u c' h' r W E. cbn [cr_step] in E.
  destruct (is_byte_range_valid start stop length) eqn:V.
  - left. apply ProofRange.valid_spec in V. assert (Wr : writable_range (CR (Some u) start stop length) u) by (split; auto).
    destruct (cr_update_writable h _ u Wr) as (line & h2 & A & B & C & D & F). rewrite C in E. injection E as <- <- <-. auto.
  - right. injection E as <- <- <-. split; auto. intros X. apply ProofRange.valid_spec in X. congruence.
Qed.
Print Assumptions C95_set.
Theorem C95_unset : forall c h, exists h', cr_step c h CrUnset = (CR None None None None, h', None) /\ without (lit "Content-Range") h h'.
Proof.
  intros c h. cbn [cr_step]. destruct (cr_update_none h (CR None None None None) eq_refl) as (h' & E & W & _). rewrite E. eauto.
Qed.
Print Assumptions C95_unset.
Example C95_example :
  let h := [(lit "content-range", lit "bytes 0-9/10"); (lit "X", lit "1")] in
  get_content_range h = ([(lit "Content-Range", lit "bytes 0-9/10"); (lit "X", lit "1")], Ok (CR (Some (lit "bytes")) (Some 0%Z) (Some 10%Z) (Some 10%Z))) /\
  cr_step (CR (Some (lit "bytes")) (Some 0%Z) (Some 10%Z) (Some 10%Z)) h (CrLength (Some 12%Z)) =
    (CR (Some (lit "bytes")) (Some 0%Z) (Some 10%Z) (Some 12%Z), [(lit "Content-Range", lit "bytes 0-9/12"); (lit "X", lit "1")], None) /\
  cr_step (CR (Some (lit "bytes")) (Some 0%Z) (Some 10%Z) (Some 10%Z)) h (CrSet (Some 5%Z) (Some 5%Z) None (Some (lit "bytes"))) =
    (CR (Some (lit "bytes")) (Some 0%Z) (Some 10%Z) (Some 10%Z), h, Some ValueError).
Proof. vm_compute. auto. Qed.
(** Findings: attributes are not checked.  Giving the start before the stop raises TypeError
    when the object has changed and the header has not; giving the stop alone writes a
    header without it. *)
Theorem C95_attributes_refuted : exists c h z,
  let '(c', h', r) := cr_step c h (CrStart (Some z)) in c' <> c /\ h' = h /\ r = Some TypeError.
Proof. exists (CR (Some (lit "bytes")) None None None), [(lit "Content-Range", lit "bytes */*")], 5%Z. vm_compute. split; [discriminate|auto]. Qed.
Print Assumptions C95_attributes_refuted.
Example C95_finding_stop :
  cr_step (CR (Some (lit "bytes")) None None None) [] (CrStop (Some 5%Z)) =
  (CR (Some (lit "bytes")) None (Some 5%Z) None, [(lit "Content-Range", lit "bytes */*")], None).
Proof. vm_compute. auto. Qed.
(** Finding: reading the property deletes a header that cannot be read. *)
Example C95_finding_reading :
  get_content_range [(lit "Content-Range", lit "bytes 9-3/10"); (lit "X", lit "1")] = ([(lit "X", lit "1")], Ok (CR None None None None)).
Proof. vm_compute. auto. Qed.

(** ** C96: the mimetype and its parameters *)
Theorem C96_mimetype : forall charset h m, m <> [] -> strip m = m -> ~ In 59 m -> SpecHeaders.one_line m -> SpecHeaders.one_line charset ->
  exists h', set_mimetype charset h m = (h', None) /\ get_mimetype h' = Some m /\ others_kept (lit "Content-Type") h h'.
Proof. exact mimetype_reads. Qed.
Print Assumptions C96_mimetype.
(** Any call on the dict of parameters is in the header: the mimetype is kept, and reading
    the parameters again finds those of the dict, in order. *)
Theorem C96_params_partial : forall h m d o d' h' r, covered o -> get_mimetype h = Some m -> option_name m ->
  cb_step params_update d h o = (d', h', r) -> writable_params d' ->
  (d' = d /\ h' = h) \/
  (get_mimetype h' = Some m /\ get_mimetype_params h' = Ok d' /\ others_kept (lit "Content-Type") h h' /\ exists y, r = Ok y).
Proof.
  intros h m d o d' h' r C M N E. pose proof (params_step h m d o C M N) as S. rewrite E in S. exact S.
Qed.
Print Assumptions C96_params_partial.
Example C96_example :
  let h := [(lit "content-type", lit "text/html; charset=latin-1"); (lit "X", lit "1")] in
  get_mimetype_params h = Ok [(lit "charset", Some (lit "latin-1"))] /\
  cb_step params_update [(lit "charset", Some (lit "latin-1"))] h (DSet (lit "title") (Some (lit "a;""b"))) =
    ([(lit "charset", Some (lit "latin-1")); (lit "title", Some (lit "a;""b"))],
     [(lit "Content-Type", lit "text/html; charset=latin-1; title=""a;\""b"""); (lit "X", lit "1")], Ok RNone) /\
  set_mimetype (lit "utf-8") h (lit "image/png") = ([(lit "Content-Type", lit "image/png"); (lit "X", lit "1")], None) /\
  set_mimetype (lit "utf-8") h (lit "text/css") = ([(lit "Content-Type", lit "text/css; charset=utf-8"); (lit "X", lit "1")], None).
Proof. vm_compute. auto. Qed.
(** Findings: without a Content-Type the parameters are written in the place of the type;
    a header that is only an equals sign makes reading the parameters fail. *)
Theorem C96_params_refuted : exists d' h' r,
  cb_step params_update [] [] (DSet (lit "charset") (Some (lit "utf-8"))) = (d', h', r) /\
  get_mimetype h' = Some (lit "charset=utf-8") /\ get_mimetype_params h' <> Ok d'.
Proof. do 3 eexists. split; [vm_compute; reflexivity|]. split; [reflexivity|]. vm_compute. discriminate. Qed.
Print Assumptions C96_params_refuted.
Theorem C96_reading_refuted : exists h, get_mimetype_params h = Raise StopIteration.
Proof. exists [(lit "Content-Type", lit "=")]. vm_compute. reflexivity. Qed.
Print Assumptions C96_reading_refuted.

(** ** C97: WWW-Authenticate *)
(** What the calls make of the challenge. *)
Theorem C97_fields : forall d h o d' h' r, www_step d h o = (d', h', r) ->
  match o with
  | WwAttr name v => forall k, dget d' k = if eqs k name then option_map Some v else dget d k
  | WwStale v => forall k, dget d' k = if eqs k (lit "stale") then option_map (fun b : bool => Some (if b then lit "TRUE" else lit "FALSE")) v else dget d k
  | WwBasic realm => d' = [(lit "__auth_type__", Some (lit "basic")); (lit "realm", Some realm)]
  | WwDigest realm nonce qop opaque algorithm stale =>
      dget d' (lit "__auth_type__") = Some (Some (lit "digest")) /\ dget d' (lit "realm") = Some (Some realm) /\
      dget d' (lit "nonce") = Some (Some nonce) /\ dget d' (lit "qop") = Some (Some (dump_header_list true qop)) /\
      dget d' (lit "opaque") = option_map Some opaque /\ dget d' (lit "algorithm") = option_map Some algorithm /\
      dget d' (lit "stale") = (if stale then Some (Some (lit "TRUE")) else None)
  | WwDict o => d' = fst (ModelCallback.plain d o)
  end.
Proof. exact www_fields. Qed.
Print Assumptions C97_fields.
(** Every call that changes the challenge writes it: reading the header gives the same
    fields, and the other headers stay; without fields there is no header. *)
Theorem C97_calls_partial : forall d h o d' h' r, covered_www o -> www_step d h o = (d', h', r) ->
  (d' = d /\ h' = h) \/
  (writable_challenge d' -> r = None /\ (forall k, dget (get_www h') k = dget d' k) /\ others_kept (lit "WWW-Authenticate") h h') /\
  (d' = [] -> r = None /\ without (lit "WWW-Authenticate") h h' /\ get_www h' = []).
Proof. exact www_step_reads. Qed.
Print Assumptions C97_calls_partial.
(** The sets qop and domain write themselves into the challenge, and this into the header. *)
Theorem C97_sets_partial : forall name d h o, distinct_names (hs_iter (www_set name d)) -> Forall fit_name (hs_iter (www_set name d)) ->
  tame (www_set name d) o -> Forall fit_name (names_in o) ->
  let '(s', (d', h'), r) := hs_call (www_set_update name) (www_set name d) (d, h) o in
  s' = fst (hs_step (www_set name d) o) /\
  ((hs_iter s' = hs_iter (www_set name d) /\ d' = d /\ h' = h) \/
   ((hs_iter s' = [] -> dget d' name = None) /\
    (hs_iter s' <> [] -> exists line, dget d' name = Some (Some line) /\ parse_list_header line = hs_iter s') /\
    (forall k, k <> name -> dget d' k = dget d k) /\
    (writable_challenge d' -> (d' = d /\ h' = h) \/
       r = None /\ (forall k, dget (get_www h') k = dget d' k) /\ others_kept (lit "WWW-Authenticate") h h'))).
Proof.
  intros name d h o D F T N. apply www_set_step; auto.
  revert D. unfold www_set, parse_set_header. destruct (match dget d name with Some v => v | None => None end) as [[|c v]|]; intros D; apply hs_init_ok, D.
Qed.
Print Assumptions C97_sets_partial.
Example C97_example :
  let h := [(lit "www-authenticate", lit "Digest realm=""a, b"", qop=""auth"""); (lit "X", lit "1")] in
  let d := get_www h in
  d = [(lit "realm", Some (lit "a, b")); (lit "qop", Some (lit "auth")); (lit "__auth_type__", Some (lit "digest"))] /\
  snd (fst (www_step d h (WwAttr (lit "nonce") (Some (lit "n"))))) =
    [(lit "WWW-Authenticate", lit "Digest realm=""a, b"", qop=""auth"", nonce=""n"""); (lit "X", lit "1")] /\
  snd (fst (www_step d h (WwDict DClear))) = [(lit "X", lit "1")] /\
  snd (snd (fst (hs_call (www_set_update (lit "qop")) (www_set (lit "qop") d) (d, h) (SAdd (lit "auth-int"))))) =
    [(lit "WWW-Authenticate", lit "Digest realm=""a, b"", qop=""auth, auth-int"""); (lit "X", lit "1")] /\
  fst (fst (www_step d h (WwBasic (lit "r")))) = [(lit "__auth_type__", Some (lit "basic")); (lit "realm", Some (lit "r"))].
Proof. vm_compute. auto 8. Qed.
(** Findings: fields without a type are sent as a Basic challenge; a path added to domain
    is written between two pairs of quotes, and read back without them; a field that is
    None is sent as the text None. *)
Theorem C97_refuted : exists d h o d' h' r, covered_www o /\ www_step d h o = (d', h', r) /\
  dget d' (lit "__auth_type__") = None /\ dget (get_www h') (lit "__auth_type__") = Some (Some (lit "basic")).
Proof. exists [], [], (WwAttr (lit "realm") (Some (lit "r"))). do 3 eexists. split; [exact I|]. split; [vm_compute; reflexivity|]. vm_compute. auto. Qed.
Print Assumptions C97_refuted.
Example C97_finding_domain :
  let d := [(lit "__auth_type__", Some (lit "digest"))] in
  let x := snd (fst (hs_call (www_set_update (lit "domain")) (www_set (lit "domain") d) (d, []) (SAdd (lit "/private")))) in
  dget (fst x) (lit "domain") = Some (Some (lit """/private""")) /\
  snd x = [(lit "WWW-Authenticate", lit "Digest domain=""\""/private\""""")] /\
  dget (get_www (snd x)) (lit "domain") = Some (Some (lit "/private")).
Proof. vm_compute. auto. Qed.
Example C97_finding_none :
  snd (fst (www_step [] [] (WwDict (DSet (lit "realm") None)))) = [(lit "WWW-Authenticate", lit "Basic realm=""None""")].
Proof. vm_compute. auto. Qed.
