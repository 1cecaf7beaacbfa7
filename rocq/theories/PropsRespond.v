(** * Making responses (C107) and writing to their streams (C108) *)
From Coq Require Import List NArith ZArith Bool Lia.
From Verif Require Import PyStr PyStrFacts Utf8 ModelQuote ModelHeaders SpecHeaders SpecEtag ModelResponse SpecResponse ModelMirror
  ModelRespond SpecRespond ProofRespond.
From Verif Require ModelTest SpecTest.
Import ListNotations.
Open Scope N_scope.

(** ** C107 *)
(** A new response says what it was told: the type given, or the mimetype with the charset
    if it is text, or the default if the headers have none; the other headers; the
    status; the data with its length. *)
Theorem C107_constructor : forall c a r, new_response c a = Ok r ->
  (exists t, typed c a t /\ match t with
                            | Some t => values_of (lit "Content-Type") (rs_headers r) [t]
                            | None => forall vs, values_of (lit "Content-Type") (ra_headers a) vs -> values_of (lit "Content-Type") (rs_headers r) vs
                            end)
  /\ (forall k vs, ~ same_name k (lit "Content-Type") ->
        (same_name k (lit "Content-Length") -> cl_autolength c = false \/ forall i, ra_body a <> AData i) ->
        values_of k (ra_headers a) vs -> values_of k (rs_headers r) vs)
  /\ match ra_status a with
     | SNone => st_code (rs_status r) = cl_status c /\ numbered (st_line (rs_status r)) (cl_status c)
     | SCode z => st_code (rs_status r) = z /\ numbered (st_line (rs_status r)) z
     | SLine s => forall z, numbered s z -> st_line (rs_status r) = s /\ st_code (rs_status r) = z
     end
  /\ match ra_body a with
     | ANone => rs_body r = BSeq []
     | AData i => exists b, bytes_of i b /\ rs_body r = BSeq [IBytes b]
         /\ (cl_autolength c = true -> values_of (lit "Content-Length") (rs_headers r) [zdec (Z.of_nat (length b))])
     | ABody b => rs_body r = b
     end
  /\ rs_passthrough r = ra_passthrough a /\ rs_on_close r = [].
Proof. exact response_made. Qed.
Print Assumptions C107_constructor.
(** It can be made if its type is one line, its status line not blank and its text can be
    encoded. *)
Theorem C107_total : forall c a,
  (forall t, typed c a (Some t) -> one_line t) ->
  (forall s, ra_status a = SLine s -> ~ blank s) ->
  (forall i, ra_body a = AData i -> exists b, bytes_of i b) ->
  exists r, new_response c a = Ok r.
Proof. exact response_total. Qed.
Print Assumptions C107_total.

(** Without arguments it is an empty plain text in UTF-8, with status 200. *)
Theorem C107_base : forall headers body r, absent (lit "Content-Type") headers ->
  new_response base_class (RArgs body SNone headers None None false) = Ok r ->
  st_code (rs_status r) = 200%Z /\ st_line (rs_status r) = lit "200 OK" /\
  values_of (lit "Content-Type") (rs_headers r) [lit "text/plain; charset=utf-8"] /\
  (body = ANone -> rs_body r = BSeq []) /\ rs_autolocation r = true /\ rs_autolength r = true /\ rs_implicit r = true.
Proof. exact base_response. Qed.
Print Assumptions C107_base.

(** The response made from an application says what the application said: the same status
    line and headers, a missing type added; served, it sends the same chunks and fails
    with the same exception.  Closing it closes the result of the application.
    Missing: status lines without a number, see below. *)
Theorem C107_from_app_partial : forall c n a s h sent fail z,
  SpecTest.behaves a s h sent fail -> numbered s z -> (forall m, cl_mimetype c = Some m -> one_line m) ->
  exists r, from_app c n a false = Ok r
    /\ st_line (rs_status r) = s /\ st_code (rs_status r) = z /\ relayed c h (rs_headers r)
    /\ (forall method, method <> lit "HEAD" -> ~ bodyless z -> chunks (get_app_iter method r) = (sent, fail))
    /\ is_seq (rs_body r) = false /\ rs_passthrough r = false
    /\ (forall l f x, rs_body r = BIter l f x -> x = if ModelTest.r_closable a then Some n else None)
    /\ rs_on_close r = []
    /\ rs_implicit r = cl_implicit c /\ rs_autolength r = cl_autolength c /\ rs_autolocation r = cl_autolocation c.
Proof. exact from_app_unbuffered. Qed.
Print Assumptions C107_from_app_partial.
(** Buffered, for applications that do not write and do not fail, the body is a list. *)
Theorem C107_buffered_partial : forall c n a s h sent z,
  SpecTest.behaves a s h sent None -> SpecTest.never_writes a -> numbered s z -> (forall m, cl_mimetype c = Some m -> one_line m) ->
  exists r, from_app c n a true = Ok r
    /\ st_line (rs_status r) = s /\ st_code (rs_status r) = z /\ relayed c h (rs_headers r)
    /\ rs_body r = BSeq (map IBytes sent)
    /\ (forall method, method <> lit "HEAD" -> ~ bodyless z -> chunks (get_app_iter method r) = (sent, None)).
Proof. exact from_app_buffered. Qed.
Print Assumptions C107_buffered_partial.
(** force_type of an application *)
Theorem C107_force_app_partial : forall c n a s h sent fail z,
  SpecTest.behaves a s h sent fail -> numbered s z ->
  exists r, force_type c (FApp n a true) = Ok r
    /\ st_line (rs_status r) = s /\ st_code (rs_status r) = z /\ relayed base_class h (rs_headers r)
    /\ (forall method, method <> lit "HEAD" -> ~ bodyless z -> chunks (get_app_iter method r) = (sent, fail))
    /\ rs_implicit r = cl_implicit c /\ rs_autolength r = cl_autolength c /\ rs_autolocation r = cl_autolocation c.
Proof. exact force_app. Qed.
Print Assumptions C107_force_app_partial.
(** force_type of a response keeps what it says and sends. *)
Theorem C107_force_response : forall c r, exists r', force_type c (FResponse r) = Ok r'
  /\ rs_headers r' = rs_headers r /\ rs_status r' = rs_status r /\ rs_body r' = rs_body r
  /\ rs_passthrough r' = rs_passthrough r /\ rs_on_close r' = rs_on_close r
  /\ (forall method, chunks (get_app_iter method r') = chunks (get_app_iter method r))
  /\ rs_implicit r' = cl_implicit c /\ rs_autolength r' = cl_autolength c /\ rs_autolocation r' = cl_autolocation c.
Proof. exact force_response. Qed.
Print Assumptions C107_force_response.
(** A response is an application: made into a response again, it says the same. *)
Theorem C107_again : forall idna_part idna_decode_part ip_ok nfkc_ok environ r line h it sent fail z c n,
  serve idna_part idna_decode_part ip_ok nfkc_ok environ r = Ok (line, h, it) -> chunks it = (sent, fail) -> numbered line z ->
  (forall m, cl_mimetype c = Some m -> one_line m) ->
  exists r', from_app c n (app_of (serve idna_part idna_decode_part ip_ok nfkc_ok environ r)) false = Ok r'
    /\ st_line (rs_status r') = line /\ st_code (rs_status r') = z /\ relayed c h (rs_headers r')
    /\ (forall method, method <> lit "HEAD" -> ~ bodyless z -> chunks (get_app_iter method r') = (sent, fail)).
Proof.
  intros i1 i2 i3 i4 environ r line h it sent fail z c n S C N M. rewrite S.
  destruct (from_app_unbuffered c n _ line h sent fail z (app_of_behaves line h it sent fail C) N M) as (r' & E & E1 & E2 & E3 & E4 & _).
  exists r'. auto.
Qed.
Print Assumptions C107_again.

(** Closing the one closes the other, unless that one passes through a sequence, or an
    iterator that cannot be closed. *)
Theorem C107_again_close : forall idna_part idna_decode_part ip_ok nfkc_ok environ r line h it z c n r' l f x,
  serve idna_part idna_decode_part ip_ok nfkc_ok environ r = Ok (line, h, it) -> numbered line z ->
  (forall m, cl_mimetype c = Some m -> one_line m) ->
  from_app c n (app_of (serve idna_part idna_decode_part ip_ok nfkc_ok environ r)) false = Ok r' -> rs_body r' = BIter l f x ->
  (x = None \/ x = Some n) /\
  (x = None <-> rs_passthrough r = true /\ dget environ (lit "REQUEST_METHOD") <> Some (lit "HEAD") /\ ~ bodyless (st_code (rs_status r)) /\
     ((exists items, rs_body r = BSeq items) \/ exists items e, rs_body r = BIter items e None)).
Proof. exact again_close. Qed.
Print Assumptions C107_again_close.

(** Finding: an answer whose status line does not begin with a number is changed to one
    with the code 0, and a blank line is an IndexError. *)
Definition said_ok (s : str) : ModelTest.app_run := ModelTest.mk_app [ModelTest.AStart s [(lit "Content-Type", lit "a/b")] None] None [] false.
Theorem C107_status_refuted : exists a h r,
  SpecTest.behaves a (lit "OK") h [] None /\ from_app base_class 0 a false = Ok r /\ st_line (rs_status r) = lit "0 OK"
  /\ SpecTest.behaves (said_ok []) [] h [] None /\ from_app base_class 0 (said_ok []) false = Raise IndexError.
Proof.
  exists (said_ok (lit "OK")), [(lit "Content-Type", lit "a/b")]. eexists.
  split; [exact (SpecTest.starts_at_once (lit "OK") _ [] [] None false)|]. split; [vm_compute; reflexivity|]. split; [reflexivity|].
  split; [exact (SpecTest.starts_at_once [] _ [] [] None false)|]. vm_compute. reflexivity.
Qed.
Print Assumptions C107_status_refuted.
(** Finding: an answer without a body gets a type. *)
Example C107_finding_type : exists r,
  from_app base_class 0 (ModelTest.mk_app [ModelTest.AStart (lit "204 NO CONTENT") [] None] None [] false) false = Ok r
  /\ rs_headers r = [(lit "Content-Type", lit "text/plain; charset=utf-8")].
Proof. eexists. split; vm_compute; reflexivity. Qed.
Example C107_example :
  let a := ModelTest.mk_app [] None
             [([], ModelTest.Chunk (lit "a")); ([ModelTest.AStart (lit "200 FINE") [(lit "X-A", lit "1")] None; ModelTest.AWrite (lit "b")], ModelTest.Chunk (lit "c"));
              ([], ModelTest.Fail ValueError)] true in
  (exists r, from_app base_class 7 a false = Ok r
     /\ SpecTest.behaves a (lit "200 FINE") [(lit "X-A", lit "1")] [lit "a"; lit "b"; lit "c"] (Some ValueError)
     /\ rs_headers r = [(lit "X-A", lit "1"); (lit "Content-Type", lit "text/plain; charset=utf-8")]
     /\ rs_status r = Status (lit "200 FINE") 200
     /\ chunks (get_app_iter (lit "GET") r) = ([lit "a"; lit "b"; lit "c"], Some ValueError))
  /\ (exists r, new_response (RClass 404 None true true true)
                  (RArgs (AData (IText [233])) SNone [(lit "content-type", lit "x/y"); (lit "content-length", lit "9")] (Some (lit "application/a+xml")) None false) = Ok r
       /\ rs_headers r = [(lit "Content-Type", lit "application/a+xml; charset=utf-8"); (lit "Content-Length", lit "2")]
       /\ st_line (rs_status r) = lit "404 NOT FOUND" /\ rs_body r = BSeq [IBytes [195; 169]])
  /\ new_response base_class (RArgs ANone SNone [] None (Some (lit "a" ++ [10])) false) = Raise ValueError
  /\ force_type base_class (FApp 0 a false) = Raise TypeError.
Proof.
  cbv zeta. split; [|split; [|split]].
  - eexists. split; [vm_compute; reflexivity|]. split; [|repeat split].
    exact (SpecTest.starts_late (lit "200 FINE") [(lit "X-A", lit "1")] [lit "a"] [lit "b"] (lit "c") [] (Some ValueError) true).
  - eexists. split; [vm_compute; reflexivity|]. repeat split.
  - reflexivity.
  - reflexivity.
Qed.

(** freeze with ETagResponseMixin in front of BaseResponse: the body becomes a list of
    bytes, its length is announced and a response without an entity tag gets that of its
    data. *)
Theorem C107_freeze_partial : forall md5 o1 o2 rest r bs, Forall (eq KOther) o1 -> Forall (eq KOther) o2 ->
  Forall2 bytes_of (body_items (rs_body r)) bs -> body_fail (rs_body r) = None -> rs_passthrough r = false -> rs_implicit r = true ->
  ~ In 34 (md5 (concat bs)) -> one_line (md5 (concat bs)) ->
  exists r', class_freeze md5 (o1 ++ KETag :: o2 ++ KBase :: rest) None r = (r', None)
    /\ rs_body r' = BSeq (map IBytes bs)
    /\ values_of (lit "Content-Length") (rs_headers r') [zdec (Z.of_nat (length (concat bs)))]
    /\ (absent (lit "ETag") (rs_headers r) -> get_etag (rs_headers r') = Some (md5 (concat bs), false))
    /\ (~ absent (lit "ETag") (rs_headers r) -> get_etag (rs_headers r') = get_etag (rs_headers r))
    /\ (forall k vs, ~ same_name k (lit "Content-Length") -> ~ same_name k (lit "ETag") -> values_of k (rs_headers r) vs -> values_of k (rs_headers r') vs)
    /\ written_to r r'.
Proof. exact freeze_mixed. Qed.
Print Assumptions C107_freeze_partial.
(** Finding: in the class Response the mixin comes after BaseResponse, whose freeze hides
    that of the mixin: no tag is ever made, and no_etag is refused. *)
Theorem C107_freeze_refuted : forall md5 r r' e,
  (class_freeze md5 response_mro None r = (r', e) -> absent (lit "ETag") (rs_headers r) -> absent (lit "ETag") (rs_headers r'))
  /\ forall b, class_freeze md5 response_mro (Some b) r = (r, Some TypeError).
Proof. intros md5 r r' e. split; [apply freeze_full|reflexivity]. Qed.
Print Assumptions C107_freeze_refuted.
Example C107_freeze_example :
  let r := Response [(lit "X", lit "1")] (set_status_code 200) (BIter [IText [233]; IBytes [1]] None (Some 3%nat)) false [] true true true in
  let md5 := fun b => 109 :: dec (N.of_nat (length b)) in
  (exists r', class_freeze md5 [KOther; KETag; KOther; KBase] None r = (r', None)
     /\ rs_headers r' = [(lit "X", lit "1"); (lit "ETag", lit """m3"""); (lit "Content-Length", lit "3")]
     /\ rs_body r' = BSeq [IBytes [195; 169]; IBytes [1]] /\ rs_on_close r' = [CIter 3])
  /\ (exists r', class_freeze md5 [KOther; KETag; KOther; KBase] (Some true) r = (r', None)
     /\ rs_headers r' = [(lit "X", lit "1"); (lit "Content-Length", lit "3")])
  /\ (exists r', class_freeze md5 response_mro None r = (r', None)
     /\ rs_headers r' = [(lit "X", lit "1"); (lit "Content-Length", lit "3")]).
Proof. cbv zeta. split; [|split]; eexists; (split; [vm_compute; reflexivity|]); repeat split. Qed.

(** ** C108 *)
(** Everything written before the stream is closed is appended, in order; only then the
    announced length disappears; after it is closed every write is refused and nothing
    changes. *)
Theorem C108_sequence : forall ops r l, rs_body r = BSeq l -> exists closed r' es,
  s_run (RStream false r) ops = (RStream closed r', es) /\ answers false ops es /\ (closed = true <-> In SClose ops)
  /\ rs_body r' = BSeq (l ++ said ops) /\ written_to r r' /\ rs_on_close r' = rs_on_close r
  /\ (said ops = [] -> r' = r) /\ (said ops <> [] -> without (lit "Content-Length") (rs_headers r) (rs_headers r')).
Proof. exact stream_seq. Qed.
Print Assumptions C108_sequence.
(** Over an iterator the same, once what it yields has been collected; it is closed with
    the response. *)
Theorem C108_iterator : forall ops r l c bs, rs_body r = BIter l None c -> rs_passthrough r = false -> rs_implicit r = true ->
  Forall2 bytes_of l bs -> said ops <> [] -> exists closed r' es,
  s_run (RStream false r) ops = (RStream closed r', es) /\ answers false ops es /\ (closed = true <-> In SClose ops)
  /\ rs_body r' = BSeq (map IBytes bs ++ said ops) /\ written_to r r'
  /\ rs_on_close r' = rs_on_close r ++ match c with Some n => [CIter n] | None => [] end
  /\ without (lit "Content-Length") (rs_headers r) (rs_headers r').
Proof. exact stream_over_iter. Qed.
Print Assumptions C108_iterator.
(** The bytes sent are those of the body and then those written. *)
Theorem C108_sent : forall ops r l bs ws method, (rs_body r = BSeq l \/ exists c, rs_body r = BIter l None c) ->
  rs_passthrough r = false -> rs_implicit r = true -> Forall2 bytes_of l bs -> Forall2 bytes_of (said ops) ws ->
  method <> lit "HEAD" -> ~ bodyless (st_code (rs_status r)) ->
  chunks (get_app_iter method (sm_response (fst (s_run (RStream false r) ops)))) = (bs ++ ws, None).
Proof. exact stream_sent. Qed.
Print Assumptions C108_sent.
(** An iterator that must not be collected cannot be written behind. *)
Theorem C108_refused : forall r l f c i, rs_body r = BIter l f c -> rs_passthrough r = true \/ rs_implicit r = false ->
  s_step (RStream false r) (SWrite i) = (RStream false r, Some RuntimeError).
Proof. exact stream_refused. Qed.
Print Assumptions C108_refused.
Theorem C108_closed : forall ops r, exists es, s_run (RStream true r) ops = (RStream true r, es) /\ answers true ops es.
Proof. exact closed_run. Qed.
Print Assumptions C108_closed.
Example C108_example :
  let r := Response [(lit "content-length", lit "9"); (lit "X", lit "1")] (set_status_code 200) (BIter [IText [233]; IBytes [1]] None (Some 3%nat)) false [] true true true in
  exists r', s_run (RStream false r) [SFlush; SWrite (IText (lit "a")); SWriteLines [IBytes [2]; IText [233]]; SClose; SWrite (IText (lit "b")); SWriteLines []; SIsatty; SClose]
    = (RStream true r', [None; None; None; None; Some ValueError; None; Some ValueError; None])
  /\ rs_headers r' = [(lit "X", lit "1")] /\ rs_on_close r' = [CIter 3]
  /\ chunks (get_app_iter (lit "GET") r') = ([[195; 169]; [1]; lit "a"; [2]; [195; 169]], None).
Proof. cbv zeta. eexists. split; [vm_compute; reflexivity|]. repeat split. Qed.
