(** C45, C46, C47, C48: responses. *)
From Coq Require Import Arith List NArith ZArith Bool Lia.
From Verif Require Import PyStr PyStrFacts ModelHeaders SpecHeaders ModelEtag SpecEtag ModelResponse SpecResponse ProofResponse.
Import ListNotations.
Open Scope N_scope.

(** C45, the part that holds: a response that starts without a Content-Length and is then
    changed by any history of set_data (of any text or bytes), stream writes, freeze,
    make_sequence, get_data, calculate_content_length, status assignments and
    make_conditional, in any order and failing or not.  A sequence body is announced with
    exactly one length, which is the number of bytes sent; an iterator is announced with none.
    Missing: texts with characters beyond ASCII written to the stream or passed as items of a
    sequence, see the refutation.  The four parameters are IDNA and the address checks. *)
Theorem C45_length_partial : forall (idna_part idna_decode_part : str -> res str) (ip_ok nfkc_ok : str -> bool)
    (r : response) (ops : list rop) (environ : dict str) (method line : str) (h : headers) (it : app_iter) (cs vs : list str),
  fresh r -> rs_autolength r = true -> Forall plain_call ops ->
  serve idna_part idna_decode_part ip_ok nfkc_ok environ (r_run r ops) = Ok (line, h, it) ->
  dget environ (lit "REQUEST_METHOD") = Some method -> method <> lit "HEAD" ->
  ~ bodyless (st_code (rs_status (r_run r ops))) ->
  chunks it = (cs, None) -> values_of (lit "Content-Length") h vs ->
  (is_seq (rs_body (r_run r ops)) = true /\ vs = [zdec (Z.of_nat (length (concat cs)))]) \/
  (is_seq (rs_body (r_run r ops)) = false /\ vs = []).
Proof. exact length_sent. Qed.
Print Assumptions C45_length_partial.

Definition response0 (h : headers) (b : body) : response := Response h (set_status_code 200) b false [] true true true.
Definition environ0 : dict str :=
  [(lit "REQUEST_METHOD", lit "GET"); (lit "wsgi.url_scheme", lit "http"); (lit "HTTP_HOST", lit "a.example"); (lit "SCRIPT_NAME", lit "/app")].
Definition serve0 (environ : dict str) (r : response) := serve (fun s => Ok s) (fun s => Ok s) (fun _ => true) (fun _ => true) environ r.

(** Text set as data is encoded before it is measured; a write drops the announced length. *)
Example C45_example :
  let r := r_run (response0 [(lit "Content-Type", lit "text/plain")] (BIter [IText [233]; IBytes [0; 1]] None (Some 7%nat)))
             [RWrite (IText (lit "abc")); RFreeze; RWrite (IBytes [255]); RStatus (lit "201 CREATED")] in
  serve0 environ0 r = Ok (lit "201 CREATED", [(lit "Content-Type", lit "text/plain"); (lit "Content-Length", lit "8")], AEncoded (rs_body r)) /\
  chunks (AEncoded (rs_body r)) = ([[195; 169]; [0; 1]; lit "abc"; [255]], None) /\
  serve0 environ0 (r_run r [RSetData (IText [8364])]) =
    Ok (lit "201 CREATED", [(lit "Content-Type", lit "text/plain"); (lit "Content-Length", lit "3")], AEncoded (BSeq [IBytes [226; 130; 172]])).
Proof. vm_compute. auto. Qed.

(** Finding: one character is announced and two bytes are sent. *)
Theorem C45_refuted : exists (r : response) (line : str) (h : headers) (it : app_iter) (cs : list str),
  fresh r /\ rs_autolength r = true /\
  serve0 environ0 (r_run r [RWrite (IText [233])]) = Ok (line, h, it) /\
  values_of (lit "Content-Length") h [lit "1"] /\ chunks it = (cs, None) /\ length (concat cs) = 2%nat.
Proof.
  exists (response0 [] (BSeq [])), (lit "200 OK"), [(lit "Content-Length", lit "1")], (AEncoded (BSeq [IText [233]])), [[195; 169]].
  split; [split; constructor|]. vm_compute. repeat split; auto. repeat constructor.
Qed.
(** Finding: with automatic lengths switched off, freeze still sets a length, and data set
    later is sent with the old one. *)
Example C45_finding_stale :
  let r := Response [] (set_status_code 200) (BSeq [IBytes [1; 2; 3]]) false [] true false true in
  serve0 environ0 (r_run r [RFreeze; RSetData (IBytes [1])]) =
    Ok (lit "200 OK", [(lit "Content-Length", lit "3")], AEncoded (BSeq [IBytes [1]])).
Proof. vm_compute. auto. Qed.
Print Assumptions C45_refuted.

(** C46 *)
Theorem C46_no_body : forall (idna_part idna_decode_part : str -> res str) (ip_ok nfkc_ok : str -> bool)
    (environ : dict str) (method : str) (r : response) (line : str) (h : headers) (it : app_iter),
  serve idna_part idna_decode_part ip_ok nfkc_ok environ r = Ok (line, h, it) ->
  dget environ (lit "REQUEST_METHOD") = Some method ->
  method = lit "HEAD" \/ bodyless (st_code (rs_status r)) -> chunks it = ([], None).
Proof. exact bodyless_sent. Qed.
Theorem C46_length_zero : forall (idna_part idna_decode_part : str -> res str) (ip_ok nfkc_ok : str -> bool)
    (environ : dict str) (r : response) (line : str) (h : headers) (it : app_iter),
  serve idna_part idna_decode_part ip_ok nfkc_ok environ r = Ok (line, h, it) ->
  informational (st_code (rs_status r)) \/ st_code (rs_status r) = 204%Z -> values_of (lit "Content-Length") h [lit "0"].
Proof. exact zero_sent. Qed.
Theorem C46_not_modified : forall (idna_part idna_decode_part : str -> res str) (ip_ok nfkc_ok : str -> bool)
    (environ : dict str) (r : response) (line : str) (h : headers) (it : app_iter),
  serve idna_part idna_decode_part ip_ok nfkc_ok environ r = Ok (line, h, it) ->
  st_code (rs_status r) = 304%Z ->
  forall k v n, In (k, v) h -> In n entity_names -> same_name k n -> n = lit "Expires" \/ n = lit "Content-Location".
Proof. exact not_modified_sent. Qed.
(** C46: all other headers are sent as they are. *)
Theorem C46_others : forall (idna_part idna_decode_part : str -> res str) (ip_ok nfkc_ok : str -> bool)
    (environ : dict str) (r : response) (line : str) (h : headers) (it : app_iter) (k : str) (vs : list str),
  serve idna_part idna_decode_part ip_ok nfkc_ok environ r = Ok (line, h, it) ->
  ~ same_name k (lit "Location") -> ~ same_name k (lit "Content-Location") -> ~ same_name k (lit "Content-Length") ->
  (st_code (rs_status r) = 304%Z -> forall n, In n entity_names -> ~ same_name k n) ->
  values_of k (rs_headers r) vs -> values_of k h vs.
Proof. exact others_sent. Qed.
Print Assumptions C46_no_body.
Print Assumptions C46_length_zero.
Print Assumptions C46_not_modified.
Print Assumptions C46_others.
Example C46_example :
  let h := [(lit "CONTENT-type", lit "a/b"); (lit "ETag", lit """x"""); (lit "Expires", lit "0"); (lit "content-LENGTH", lit "9")] in
  let r code := Response h (set_status_code code) (BSeq [IBytes (lit "123456789")]) false [] true true true in
  serve0 environ0 (r 304%Z) = Ok (lit "304 NOT MODIFIED", [(lit "ETag", lit """x"""); (lit "Expires", lit "0")], AEmpty) /\
  serve0 environ0 (r 204%Z) =
    Ok (lit "204 NO CONTENT", [(lit "CONTENT-type", lit "a/b"); (lit "ETag", lit """x"""); (lit "Expires", lit "0"); (lit "Content-Length", lit "0")], AEmpty) /\
  serve0 (dset environ0 (lit "REQUEST_METHOD") (lit "HEAD")) (r 200%Z) = Ok (lit "200 OK", h, AEmpty) /\
  serve0 environ0 (r 205%Z) = Ok (lit "205 RESET CONTENT", h, AEncoded (BSeq [IBytes (lit "123456789")])).
Proof. vm_compute. auto. Qed.

(** C47, the part that holds: whatever else is called, if no blank line is assigned. *)
Theorem C47_partial : forall (ops : list rop) (r : response),
  numbered (st_line (rs_status r)) (st_code (rs_status r)) ->
  (forall s, In (RStatus s) ops -> ~ blank s) ->
  numbered (st_line (rs_status (r_run r ops))) (st_code (rs_status (r_run r ops))).
Proof. exact statuses_numbered. Qed.
(** The constructor's assignments establish the agreement. *)
Theorem C47_code : forall z, st_code (set_status_code z) = z /\ numbered (st_line (set_status_code z)) z.
Proof. intros z. split; [reflexivity|apply set_code_numbered]. Qed.
(** A line is kept if its first word is a number, and marked with code 0 if not. *)
Theorem C47_line : forall old a w b, blank a -> Forall (fun c => is_space c = false) w -> w <> [] ->
  (b = [] \/ exists c b', b = c :: b' /\ is_space c = true) ->
  set_status old (a ++ w ++ b) =
    match py_int w with
    | Some z => (Status (a ++ w ++ b) z, None)
    | None => (Status (lit "0 " ++ a ++ w ++ b) 0, None)
    end.
Proof. intros old a w b Ha Hw Hn Hb. unfold set_status. rewrite first_word_app; auto. Qed.
(** Finding: a blank line is refused, but only after it has been stored. *)
Theorem C47_refuted : exists (r : response) (s : str),
  numbered (st_line (rs_status r)) (st_code (rs_status r)) /\
  snd (set_status (rs_status r) s) = Some IndexError /\
  let r' := r_run r [RStatus s] in ~ numbered (st_line (rs_status r')) (st_code (rs_status r')).
Proof.
  exists (response0 [] (BSeq [])), []. split; [apply set_code_numbered|]. split; [reflexivity|].
  cbv zeta. intros (a & w & b & E & _ & _ & _ & H). cbn in E. destruct a; [|discriminate]. destruct w; [|discriminate]. discriminate.
Qed.
(** A standard code gives its standard line, any other code the reason UNKNOWN. *)
Theorem C47_standard : forall z,
  (forall line, In (z, line) standard_lines -> st_line (set_status_code z) = line) /\
  ((forall line, ~ In (z, line) standard_lines) -> st_line (set_status_code z) = zdec z ++ lit " UNKNOWN").
Proof.
  intros z. split.
  - intros line H. revert H. unfold standard_lines. cbn [In].
    intros H. repeat (destruct H as [H|H]; [injection H as <- <-; vm_compute; reflexivity|]). destruct H.
  - intros H. unfold set_status_code, phrase. cbn [st_line]. destruct (find _ http_status_codes) as [[c p]|] eqn:E; [|reflexivity].
    exfalso. apply find_some in E as [E1 E2]. cbn [fst] in E2. apply Z.eqb_eq in E2. subst c.
    assert (M : map fst http_status_codes = map fst standard_lines) by (vm_compute; reflexivity).
    apply (in_map fst) in E1. rewrite M in E1. apply in_map_iff in E1 as ([c l] & E3 & E4). cbn [fst] in E3. subst c. exact (H l E4).
Qed.
Print Assumptions C47_standard.
Print Assumptions C47_partial.
Print Assumptions C47_code.
Print Assumptions C47_line.
Print Assumptions C47_refuted.
Example C47_example :
  let r := response0 [] (BSeq []) in
  let run ops := rs_status (r_run r ops) in
  run [RStatus (lit " 418 short and stout ")] = Status (lit " 418 short and stout ") 418%Z /\
  run [RStatus (lit "wow")] = Status (lit "0 wow") 0%Z /\
  run [RStatusCode 418%Z] = Status (lit "418 I'M A TEAPOT") 418%Z /\
  run [RStatus (lit "404 x"); RStatusCode (-7)%Z] = Status (lit "-7 UNKNOWN") (-7)%Z.
Proof. vm_compute. auto. Qed.

(** C48: requests of other methods. *)
Theorem C48_other_methods : forall (now : str) (date : str -> option Z) (md5 : str -> str) (fuel : nat) (env : cond_env) (r : response),
  ~ get_or_head (ce_method env) -> make_conditional now date md5 fuel env r = Some (r, None).
Proof. exact conditional_other. Qed.
(** C48: a tag list decides about a response with a tag.  Missing: empty tags (see the
    refutation) and If-None-Match texts that are no tag list. *)
Theorem C48_tags_partial : forall (now : str) (date : str -> option Z) (md5 : str -> str) (fuel : nat) (env : cond_env)
    (r r' : response) (h : str) (l : list tag) (m : mark) (t : str) (rest : list str),
  get_or_head (ce_method env) -> ce_inm env = Some h -> tag_list h l -> Forall plain_tag l -> (length h <= fuel)%nat ->
  values_of (lit "ETag") (rs_headers r) (write_tag (m, t) :: rest) ->
  make_conditional now date md5 fuel env r = Some (r', None) ->
  (tag_matches l (weak_mark m) t /\ rs_status r' = set_status_code 304) \/
  (~ tag_matches l (weak_mark m) t /\ rs_status r' = rs_status r).
Proof. exact conditional_tags. Qed.
Theorem C48_star : forall (now : str) (date : str -> option Z) (md5 : str -> str) (fuel : nat) (env : cond_env)
    (r r' : response) (m : mark) (t : str) (rest : list str),
  get_or_head (ce_method env) -> ce_inm env = Some [42] -> (1 <= fuel)%nat ->
  values_of (lit "ETag") (rs_headers r) (write_tag (m, t) :: rest) ->
  make_conditional now date md5 fuel env r = Some (r', None) -> rs_status r' = set_status_code 304.
Proof. exact conditional_star. Qed.
(** C48: otherwise the dates decide, in whole seconds. *)
Theorem C48_dates : forall (now : str) (date : str -> option Z) (md5 : str -> str) (fuel : nat) (env : cond_env) (r r' : response),
  get_or_head (ce_method env) ->
  (ce_inm env = None \/ ce_inm env = Some [] \/ absent (lit "ETag") (rs_headers r)) ->
  make_conditional now date md5 fuel env r = Some (r', None) ->
  let unchanged := exists h since v vs m, ce_ims env = Some h /\ date h = Some since /\
     values_of (lit "Last-Modified") (rs_headers r) (v :: vs) /\ date v = Some m /\ (m / 1000000 * 1000000 <= since)%Z in
  (unchanged /\ rs_status r' = set_status_code 304) \/ (~ unchanged /\ rs_status r' = rs_status r).
Proof. exact conditional_dates. Qed.
(** C48: the call returns for every sequence body, and keeps it. *)
Theorem C48_total : forall (now : str) (date : str -> option Z) (md5 : str -> str) (fuel : nat) (env : cond_env) (r : response) (l : list item),
  one_line now -> rs_body r = BSeq l ->
  (ce_inm env = None \/ exists h, ce_inm env = Some h /\ (forall u, h <> u ++ [10]) /\ (length h <= fuel)%nat) ->
  exists r', make_conditional now date md5 fuel env r = Some (r', None) /\ rs_body r' = BSeq l.
Proof. exact conditional_total. Qed.
Theorem C48_empty_tag_refuted : exists r, values_of (lit "ETag") (rs_headers r) [write_tag (Strong, [])] /\
  make_conditional [] (fun _ => None) (fun x => x) 50 (CE (lit "GET") None (Some (write_tag (Strong, [])))) r =
    Some (with_headers r (rs_headers r ++ [(lit "Date", []); (lit "Content-Length", lit "0")]), None).
Proof.
  exists (response0 [(lit "ETag", lit """""")] (BSeq [])). split; [|vm_compute; reflexivity].
  repeat constructor.
Qed.
Print Assumptions C48_other_methods.
Print Assumptions C48_tags_partial.
Print Assumptions C48_star.
Print Assumptions C48_dates.
Print Assumptions C48_total.
Print Assumptions C48_empty_tag_refuted.
Example C48_example :
  let r := response0 [(lit "etag", lit """v1""")] (BSeq [IBytes [1; 2]]) in
  let cond m tags := make_conditional (lit "now") (fun _ => None) (fun x => x) 50 (CE m None (Some tags)) r in
  let h := [(lit "etag", lit """v1"""); (lit "Date", lit "now"); (lit "Content-Length", lit "2")] in
  cond (lit "GET") (lit """v0"", ""v1""") = Some (with_status (with_headers r h) (Status (lit "304 NOT MODIFIED") 304%Z), None) /\
  cond (lit "GET") (lit """v0""") = Some (with_headers r h, None) /\
  cond (lit "PUT") (lit """v1""") = Some (r, None).
Proof. vm_compute. auto. Qed.
