(** Claims C29-C32: percent quoting, unquoting, IRI conversion and WSGI strings. *)
From Coq Require Import List NArith Bool Lia.
From Verif Require Import PyStr PyStrFacts Utf8 Utf8Facts ModelUrls SpecUrls ProofUrls ProofIri.
Import ListNotations.
Open Scope N_scope.

(** C29: percent decoding gives the bytes back, whatever the safe set (without
    the percent sign). *)
Theorem C29_roundtrip : forall safe b,
  ~ In 37 safe -> bytes_text b -> percent_decodes (quote_bytes safe b) b.
Proof. exact quote_roundtrip. Qed.
Print Assumptions C29_roundtrip.

(** C29: percent decoding has one result only. *)
Theorem C29_decoding_unique : forall s t1 t2,
  percent_decodes s t1 -> percent_decodes s t2 -> t1 = t2.
Proof. exact (fun s t1 t2 H1 H2 => unescapes_fun _ s t1 H1 t2 H2). Qed.
Print Assumptions C29_decoding_unique.

(** C29: only unreserved characters, safe characters and escapes. *)
Theorem C29_alphabet : forall safe b, bytes_text b -> quoted_form safe (quote_bytes safe b).
Proof. exact quote_quoted_form. Qed.
Print Assumptions C29_alphabet.

(** C29 for text: percent and UTF-8 decoding invert quote; every text can be quoted. *)
Theorem C29_text_roundtrip : forall safe s q,
  ~ In 37 safe -> urlquote safe s = Ok q ->
  exists b, percent_decodes q b /\ utf8_decode Strict b = Ok s.
Proof. exact urlquote_roundtrip. Qed.
Print Assumptions C29_text_roundtrip.
Theorem C29_text_total : forall safe s, unicode_text s -> exists q, urlquote safe s = Ok q.
Proof. exact urlquote_ok. Qed.
Print Assumptions C29_text_total.

Example C29_example :
  urlquote (lit "/:") (lit "a b/" ++ [228; 37]) = Ok (lit "a%20b/%C3%A4%25") /\ ~ In 37 (lit "/:").
Proof. split; [vm_compute; reflexivity|]. cbn. lia. Qed.

(** C30: the result of unquoting with reserved bytes [unsafe] is the one given by
    the reading of escapes: kept if reserved, decoded otherwise, malformed ones
    untouched. *)
Theorem C30_unquote : forall unsafe s,
  unescapes (fun v => In v unsafe) s (safe_unquote_bytes unsafe s).
Proof. exact safe_unquote_spec. Qed.
Print Assumptions C30_unquote.
Theorem C30_unique : forall keep s t1 t2, unescapes keep s t1 -> unescapes keep s t2 -> t1 = t2.
Proof. exact (fun keep s t1 t2 H1 H2 => unescapes_fun keep s t1 H1 t2 H2). Qed.
Print Assumptions C30_unique.

(** C30: a reserved delimiter occurs in the result as often as in the input. *)
Theorem C30_delimiters_kept : forall unsafe s c,
  In c unsafe -> (forall v, ~ hexdigit c v) -> c <> 37 ->
  count c (safe_unquote_bytes unsafe s) = count c s.
Proof. exact (fun unsafe s c H1 H2 H3 => unescapes_count _ _ _ c (safe_unquote_spec unsafe s) H1 H2 H3). Qed.
Print Assumptions C30_delimiters_kept.

Example C30_example :
  safe_unquote_bytes path_unsafe (lit "/a%2Fb%20c%zz%3f%C3%A4/") = lit "/a%2Fb c%zz%3f" ++ [195; 164; 47] /\
  In 47 path_unsafe /\ (forall v, ~ hexdigit 47 v).
Proof.
  split; [vm_compute; reflexivity|]. split; [right; left; auto|].
  intros v H. apply hexval_spec in H. discriminate.
Qed.
(** Finding: unquoting is not idempotent, an escape can be assembled from a
    malformed one. *)
Example C30_finding_not_idempotent :
  safe_unquote_bytes path_unsafe (lit "%4%31") = lit "%41" /\
  safe_unquote_bytes path_unsafe (lit "%41") = lit "A".
Proof. vm_compute. auto. Qed.

(** C31: the result is ASCII, for every IRI and whatever the IDNA codec does. *)
Theorem C31_ascii : forall idna_part ip_ok nfkc_ok iri uri,
  iri_to_uri idna_part ip_ok nfkc_ok iri = Ok uri -> ascii_text uri.
Proof. exact iri_ascii. Qed.
Print Assumptions C31_ascii.

(** C31: converting again changes nothing, for every IRI without a bracketed
    host, provided the IDNA codec yields plain lower case ASCII labels. *)
Theorem C31_idempotent : forall idna_part ip_ok nfkc_ok,
  (forall p e, idna_part p = Ok e -> forall c, In c e -> host_char c) ->
  forall iri uri u,
  iri_to_uri idna_part ip_ok nfkc_ok iri = Ok uri ->
  urlsplit ip_ok nfkc_ok iri = Ok u -> ~ In 91 (u_netloc u) ->
  iri_to_uri idna_part ip_ok nfkc_ok uri = Ok uri.
Proof. exact iri_idempotent. Qed.
Print Assumptions C31_idempotent.

Definition no_idna (p : str) : res str := Raise UnicodeError.
Example C31_example :
  let iri := lit "HTTP://us er:p[@ex.ORG:0080/a b" ++ [228] ++ lit "?q= #f#g" in
  let iri2 := lit "HTTP://us er:p@ex.ORG:0080/a b" ++ [228] ++ lit "?q= #f#g" in
  iri_to_uri no_idna (fun _ => false) (fun _ => false) iri2 =
    Ok (lit "http://us%20er:p@ex.org:80/a%20b%C3%A4?q=%20#f%23g") /\
  iri_to_uri no_idna (fun _ => false) (fun _ => false) iri = Raise ValueError.
Proof. vm_compute. auto. Qed.

(** Finding: with brackets in the user information the result may not even be
    accepted again. *)
Theorem C31_brackets_refuted :
  exists iri uri, let ip_ok := eqs (lit "::1") in
  iri_to_uri no_idna ip_ok (fun _ => true) iri = Ok uri /\
  iri_to_uri no_idna ip_ok (fun _ => true) uri = Raise ValueError.
Proof. exists (lit "http://u[::1]@h[z:z]/"), (lit "http://u%5B::1%5D@[z:z]/"). vm_compute. auto. Qed.
Print Assumptions C31_brackets_refuted.

(** C32: the decoding dance inverts the encoding dance, whatever the error
    handler, and the tunnel string is Latin-1. *)
Theorem C32_roundtrip : forall s w,
  wsgi_encoding_dance s = Ok w -> bytes_text w /\ forall err, wsgi_decoding_dance err w = Ok s.
Proof. exact dance_roundtrip. Qed.
Print Assumptions C32_roundtrip.
(** get_path_info and get_script_name read the text whose dance the environ carries. *)
Theorem C32_environ : forall err environ s w, wsgi_encoding_dance s = Ok w ->
  (dget environ (lit "PATH_INFO") = Some w -> get_path_info err environ = Ok s) /\
  (dget environ (lit "SCRIPT_NAME") = Some w -> get_script_name err environ = Ok s).
Proof. exact environ_text. Qed.
Print Assumptions C32_environ.
Theorem C32_absent : forall err environ,
  (dget environ (lit "PATH_INFO") = None -> get_path_info err environ = Ok []) /\
  (dget environ (lit "SCRIPT_NAME") = None -> get_script_name err environ = Ok []).
Proof. exact environ_no_text. Qed.
Print Assumptions C32_absent.
(** The encoding dance accepts exactly the texts without surrogates. *)
Theorem C32_encodable : forall s, unicode_text s <-> exists w, wsgi_encoding_dance s = Ok w.
Proof. exact encoding_dance_ok. Qed.
Print Assumptions C32_encodable.
(** C32: decoding with replacement (or ignoring errors) never fails. *)
Theorem C32_replace_total : forall err w,
  err <> Strict -> bytes_text w -> exists t, wsgi_decoding_dance err w = Ok t.
Proof. exact decoding_total. Qed.
Print Assumptions C32_replace_total.
(** C32: on well-formed input every error handler agrees with strict decoding,
    and encoding gives the input back. *)
Theorem C32_strict_agrees : forall w t,
  wsgi_decoding_dance Strict w = Ok t ->
  (forall err, wsgi_decoding_dance err w = Ok t) /\ wsgi_encoding_dance t = Ok w.
Proof. exact decoding_strict. Qed.
Print Assumptions C32_strict_agrees.
(** Decoded text is always Unicode text. *)
Theorem C32_decoded_text : forall err w t, wsgi_decoding_dance err w = Ok t -> unicode_text t.
Proof. exact decoding_text. Qed.
Print Assumptions C32_decoded_text.

Example C32_example :
  wsgi_encoding_dance [228; 8364; 128512] = Ok [195; 164; 226; 130; 172; 240; 159; 152; 128] /\
  wsgi_decoding_dance Replace [195; 40; 226; 130; 237; 160; 128; 65] =
    Ok [65533; 40; 65533; 65533; 65533; 65533; 65] /\
  wsgi_decoding_dance Strict [195; 40] = Raise UnicodeError /\
  get_path_info Strict [(lit "SCRIPT_NAME", lit "/app"); (lit "PATH_INFO", [47; 195; 164])] = Ok [47; 228].
Proof. vm_compute. auto. Qed.

(** ** C71 *)
Theorem C71_query_string : forall environ q, get_query_string environ = Ok q ->
  exists w, (dget environ (lit "QUERY_STRING") = Some w \/ (dget environ (lit "QUERY_STRING") = None /\ w = [])) /\
    quoted_form (lit ":&%=+$!*'(),") q /\ forall b, percent_decodes w b -> percent_decodes q b.
Proof. exact query_string_spec. Qed.
Print Assumptions C71_query_string.
Example C71_example :
  get_query_string [(lit "QUERY_STRING", lit "a=%zz&b=%4" ++ [255] ++ lit " c%20")] = Ok (lit "a=%zz&b=%4%FF%20c%20").
Proof. vm_compute. reflexivity. Qed.
