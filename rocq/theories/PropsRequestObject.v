(** * Request objects: the claims of C103 (headers as objects) and C104
    (histories and closing)

    [cu] and [ch] are get_current_url and get_host with the trusted hosts of the
    class; they are arbitrary. *)
From Coq Require Import List NArith ZArith Bool Permutation Lia.
From Verif Require Import PyStr PyStrFacts ModelQuote SpecQuote ModelHeaders SpecHeaders ModelRange SpecRange
  ModelEtag SpecEtag ModelDate SpecDate ModelUrls SpecUrls ModelCookie SpecCookie ModelAuth SpecAuth ModelStream ModelWsgi
  ModelRequest ModelMirror SpecMirror ModelRequestObject SpecRequestObject ProofRequestObject Utf8.
Import ListNotations.
Open Scope N_scope.

(** ** C103 *)

(** request.headers[name], in any capitals: the header the server put there. *)
Theorem C103_lookup : forall env name,
  (forall v, carries env name v -> env_getitem env name = Ok v)
  /\ (without env name -> env_getitem env name = Raise KeyError).
Proof. intros env name. split; [intros v; apply lookup_header|apply lookup_absent]. Qed.
Print Assumptions C103_lookup.

(** Cookies of which each value is the quoted UTF-8 text: of a name given twice
    the last value counts. *)
Theorem C103_cookies : forall cu ch env l bl,
  carries env (lit "Cookie") (cookie_header cookie_quote bl) ->
  Forall2 (fun p q => fst p = fst q /\ utf8_encode (snd p) = Ok (snd q)) l bl ->
  (forall n v, In (n, v) l -> legal_name n) ->
  exists d, shows cu ch env PCookies (VCookies d) /\ forall n, dget d n = last_value l n.
Proof. exact cookies_read. Qed.
Print Assumptions C103_cookies.

(** Sets of entity tags, written in any order. *)
Theorem C103_tags : forall cu ch env name p strong weak s w,
  (name = lit "If-Match" /\ p = PIfMatch) \/ (name = lit "If-None-Match" /\ p = PIfNoneMatch) ->
  (forall t, In t (strong ++ weak) -> fine_tag t) ->
  Permutation strong s -> Permutation weak w ->
  carries env name (et_to_header (tag_set s w)) ->
  exists e, shows cu ch env p (VTags e) /\ same_tags e strong weak.
Proof. exact tags_shown. Qed.
Print Assumptions C103_tags.
Theorem C103_any_tag : forall cu ch env name p,
  (name = lit "If-Match" /\ p = PIfMatch) \/ (name = lit "If-None-Match" /\ p = PIfNoneMatch) ->
  carries env name (et_to_header (ET [] [] true)) ->
  exists e, shows cu ch env p (VTags e) /\ forall t, et_contains e t = true.
Proof. exact tags_star. Qed.
Print Assumptions C103_any_tag.

(** Dates.  Missing: years before 100 (see C69). *)
Theorem C103_dates_partial : forall cu ch env name p d t,
  (name = lit "Date" /\ p = PDate) \/ (name = lit "If-Modified-Since" /\ p = PIfModifiedSince)
  \/ (name = lit "If-Unmodified-Since" /\ p = PIfUnmodifiedSince) ->
  real_date d -> (100 <= dt_year d)%Z -> http_date (DDatetime d None) = Ok t ->
  carries env name t -> shows cu ch env p (VDate (Some d)).
Proof. exact dates_shown. Qed.
Print Assumptions C103_dates_partial.

(** If-Range: a date, or a tag.  Missing: years before 100; tags that look like a
    date (see C91). *)
Theorem C103_if_range_date_partial : forall cu ch env d tag t,
  real_date d -> (100 <= dt_year d)%Z ->
  if_range_to_header (mk_if_range tag (Some d)) = Ok t -> carries env (lit "If-Range") t ->
  shows cu ch env PIfRange (VIfRange (mk_if_range None (Some d))).
Proof. exact if_range_shown_date. Qed.
Print Assumptions C103_if_range_date_partial.
Theorem C103_if_range_tag_partial : forall cu ch env x t,
  two_words x -> ~ In 34 x ->
  if_range_to_header (mk_if_range (Some x) None) = Ok t -> carries env (lit "If-Range") t ->
  shows cu ch env PIfRange (VIfRange (mk_if_range (Some x) None)).
Proof. exact if_range_shown_tag. Qed.
Print Assumptions C103_if_range_tag_partial.

Theorem C103_range : forall cu ch env u ms,
  ~ In 61 u -> strip u = u -> lower u = u -> ms <> [] -> increasing 0 ms ->
  carries env (lit "Range") (range_to_header (Rng u ms)) ->
  shows cu ch env PRange (VRange (Some (Rng u ms))).
Proof. exact range_shown. Qed.
Print Assumptions C103_range.

(** Cache-Control: what any assignments and deletions left, as texts. *)
Theorem C103_cache_control_partial : forall cu ch env ops,
  Forall (fun o => is_token (op_key o)) ops ->
  Forall (fun kv => match py_str (snd kv) with Some s => ~ wears_quotes s | None => True end) (cc_run ops) ->
  carries env (lit "Cache-Control") (cc_to_header (cc_run ops)) ->
  shows cu ch env PCacheControl (VCache (map (fun kv => (fst kv, retext (snd kv))) (cc_run ops))).
Proof. exact cache_shown. Qed.
Print Assumptions C103_cache_control_partial.

(** Credentials: the user and the password, or the fields of a digest. *)
Theorem C103_basic : forall cu ch env scheme ws user password,
  same_letters scheme (lit "basic") -> ws <> [] -> (forall c, In c ws -> SpecAuth.blank c) ->
  bytes_text user -> bytes_text password -> ~ In 58 user ->
  carries env (lit "Authorization") (scheme ++ ws ++ base64 (user ++ 58 :: password)) ->
  shows cu ch env PAuthorization (VAuth (Some (ABasic user password))).
Proof. exact basic_shown. Qed.
Print Assumptions C103_basic.
Theorem C103_digest_partial : forall cu ch env scheme ws d,
  same_letters scheme (lit "digest") -> ws <> [] -> (forall c, In c ws -> SpecAuth.blank c) ->
  d <> [] -> NoDup (map fst d) -> Forall (fun kv => is_token (fst kv)) d ->
  (forall k v, In (k, Some v) d -> bytes_text v /\ ~ wears_quotes v) -> complete_digest d ->
  carries env (lit "Authorization") (scheme ++ ws ++ dump_header_dict true d) ->
  shows cu ch env PAuthorization (VAuth (Some (ADigest d))).
Proof. exact digest_shown. Qed.
Print Assumptions C103_digest_partial.

(** Content-Type: the text, the type in small letters, the parameters.  Missing:
    empty parameters (see C13). *)
Theorem C103_content_type_partial : forall cu ch env h opts,
  option_name h -> Forall (fun kv => option_name (fst kv)) opts -> NoDup (map fst opts) ->
  Forall (fun kv => forall v, snd kv = Some v ->
            v <> [] /\ (fst kv = lit "filename" -> forall r, v <> 92 :: r)) opts ->
  carries env (lit "Content-Type") (dump_options_header (Some h) opts) ->
  shows cu ch env PContentType (VMaybe (Some (dump_options_header (Some h) opts)))
  /\ shows cu ch env PMimetype (VText (lower h)) /\ shows cu ch env PMimetypeParams (VParams opts).
Proof. exact type_shown. Qed.
Print Assumptions C103_content_type_partial.

Theorem C103_numbers : forall cu ch env n,
  ((0 <= n)%Z -> carries env (lit "Content-Length") (zdec n) -> shows cu ch env PContentLength (VNumber (Some n)))
  /\ (carries env (lit "Max-Forwards") (zdec n) -> shows cu ch env PMaxForwards (VNumber (Some n))).
Proof. intros cu ch env n. split; [apply length_shown|apply forwards_shown]. Qed.
Print Assumptions C103_numbers.

(** Pragma: the names in their order. *)
Theorem C103_pragma_partial : forall cu ch env l,
  Forall (fun v => ~ wears_quotes v) l -> l <> [[]] ->
  carries env (lit "Pragma") (dump_header_list true l) ->
  exists s, shows cu ch env PPragma (VNames s) /\ hs_iter s = l.
Proof. exact pragma_shown. Qed.
Print Assumptions C103_pragma_partial.

(** Headers that are shown as they are, or as None. *)
Theorem C103_texts : forall cu ch env name p v,
  In (name, p) [(lit "Referer", PReferrer); (lit "Content-Encoding", PContentEncoding);
                (lit "Content-MD5", PContentMd5); (lit "Content-Type", PContentType)] ->
  (carries env name v -> shows cu ch env p (VMaybe (Some v)))
  /\ (without env name -> shows cu ch env p (VMaybe None)).
Proof. exact plain_shown. Qed.
Print Assumptions C103_texts.

(** Absent headers: nothing, an empty set, an empty dict. *)
Theorem C103_absent : forall cu ch env name p v,
  In (name, p, v) when_absent -> without env name -> shows cu ch env p v.
Proof. exact absent_shown. Qed.
Print Assumptions C103_absent.

(** X-Requested-With in any capitals; the method in capitals, GET if there is none;
    what the server says of itself and of the client. *)
Theorem C103_xhr : forall cu ch env,
  (forall v, carries env (lit "X-Requested-With") v ->
     exists b, shows cu ch env PIsXhr (VFlag b) /\ (b = true <-> same_letters v (lit "xmlhttprequest")))
  /\ (without env (lit "X-Requested-With") -> shows cu ch env PIsXhr (VFlag false)).
Proof. exact xhr_shown. Qed.
Print Assumptions C103_xhr.
Theorem C103_method : forall cu ch env,
  (forall m, dget env (lit "REQUEST_METHOD") = Some m ->
     exists r, shows cu ch env PMethod (VText r) /\ same_letters m r /\ (forall c, In c r -> ~ 97 <= c <= 122))
  /\ (dget env (lit "REQUEST_METHOD") = None -> shows cu ch env PMethod (VText (lit "GET"))).
Proof.
  intros cu ch env. split; [apply method_shown|]. intros H.
  change (Ok (VText (req_method env)) = Ok (VText (lit "GET"))). unfold req_method. rewrite H. reflexivity.
Qed.
Print Assumptions C103_method.
Theorem C103_server : forall cu ch env name p,
  In (name, p) [(lit "REMOTE_ADDR", PRemoteAddr); (lit "REMOTE_USER", PRemoteUser); (lit "wsgi.url_scheme", PScheme);
                (lit "wsgi.multithread", PMultithread); (lit "wsgi.multiprocess", PMultiprocess); (lit "wsgi.run_once", PRunOnce)] ->
  (forall v, dget env name = Some v -> shows cu ch env p (VMaybe (Some v)))
  /\ (dget env name = None -> shows cu ch env p (VMaybe None)).
Proof.
  intros cu ch env name p H.
  repeat (destruct H as [H|H]; [injection H as <- <-; split; [intros v E|intros E]; unfold shows; vm_compute in E |- *; rewrite E; reflexivity|]).
  destruct H.
Qed.
Print Assumptions C103_server.

(** An absent Max-Forwards header raises a TypeError, and some Content-Type
    headers make mimetype raise a StopIteration. *)
Theorem C103_refuted : forall cu ch,
  fst (get_prop cu ch (new_robj []) PMaxForwards) = Raise TypeError
  /\ exists env, carries env (lit "Content-Type") (lit "=")
       /\ fst (get_prop cu ch (new_robj env) PMimetype) = Raise StopIteration.
Proof.
  intros cu ch. split; [reflexivity|]. exists [(lit "CONTENT_TYPE", lit "=")].
  split; vm_compute; reflexivity.
Qed.
Print Assumptions C103_refuted.

Definition no_url (_ : dict str) (_ _ _ : bool) : res str := Raise KeyError.
Definition no_host (_ : dict str) : res str := Raise KeyError.
Definition ex_environ : dict str :=
  [(lit "REQUEST_METHOD", lit "GET"); (lit "PATH_INFO", lit "/a"); (lit "QUERY_STRING", lit "x=1");
   (lit "HTTP_COOKIE", lit "a=1; b=""x y"); (lit "HTTP_IF_NONE_MATCH", lit """t1"", w/""t2""");
   (lit "HTTP_RANGE", lit "bytes=0-4,10-"); (lit "CONTENT_TYPE", lit "Text/HTML; charset=utf-8");
   (lit "CONTENT_LENGTH", lit "12"); (lit "HTTP_PRAGMA", lit "no-cache, x")].
Example C103_example :
  carries ex_environ (lit "if-none-match") (et_to_header (tag_set [lit "t1"] [lit "t2"]))
  /\ carries ex_environ (lit "RANGE") (range_to_header (Rng (lit "bytes") [(0, Some 5); (10, None)]%Z))
  /\ carries ex_environ (lit "Content-Type") (dump_options_header (Some (lit "Text/HTML")) [(lit "charset", Some (lit "utf-8"))])
  /\ shows no_url no_host ex_environ PIfNoneMatch (VTags (ET [Some (lit "t1")] [Some (lit "t2")] false))
  /\ shows no_url no_host ex_environ PRange (VRange (Some (Rng (lit "bytes") [(0, Some 5); (10, None)]%Z)))
  /\ shows no_url no_host ex_environ PMimetype (VText (lit "text/html"))
  /\ shows no_url no_host ex_environ PMimetypeParams (VParams [(lit "charset", Some (lit "utf-8"))])
  /\ shows no_url no_host ex_environ PContentLength (VNumber (Some 12%Z))
  /\ without ex_environ (lit "Authorization") /\ shows no_url no_host ex_environ PAuthorization (VAuth None).
Proof. vm_compute. repeat split. Qed.

Example C103_server_example :
  let env := [(lit "HTTP_X_REQUESTED_WITH", lit "XMLHttpRequest"); (lit "REQUEST_METHOD", lit "Post");
              (lit "REMOTE_ADDR", lit "10.0.0.1"); (lit "wsgi.url_scheme", lit "https")] in
  shows no_url no_host env PIsXhr (VFlag true) /\ shows no_url no_host env PMethod (VText (lit "POST"))
  /\ shows no_url no_host env PRemoteAddr (VMaybe (Some (lit "10.0.0.1")))
  /\ shows no_url no_host env PScheme (VMaybe (Some (lit "https"))) /\ shows no_url no_host env PRemoteUser (VMaybe None).
Proof. vm_compute. repeat split. Qed.

(** ** C104 *)

(** As long as only attributes and headers are read, every reading shows what a
    new request object shows: the order and number of readings do not matter. *)
Theorem C104_order : forall cu ch env ops,
  reads_only ops ->
  fst (rrun cu ch (new_robj env) ops) = map (fun o => fst (rstep cu ch (new_robj env) o)) ops.
Proof. exact order_free. Qed.
Print Assumptions C104_order.

(** Once read, a kept attribute stays the same, whatever is read or changed in the
    environ, at any time in the history. *)
Theorem C104_kept : forall cu ch st p v ops,
  kept p = true -> fst (get_prop cu ch st p) = Ok v ->
  fst (get_prop cu ch (snd (rrun cu ch (snd (get_prop cu ch st p)) ops)) p) = Ok v.
Proof. exact remembered. Qed.
Print Assumptions C104_kept.

(** An attribute that is not kept, and every header, is read from the environ as
    it is now. *)
Theorem C104_current : forall cu ch env p name ops,
  (kept p = false ->
     fst (get_prop cu ch (snd (rrun cu ch (new_robj env) ops)) p)
     = fst (get_prop cu ch (new_robj (env_after env ops)) p))
  /\ fst (rstep cu ch (snd (rrun cu ch (new_robj env) ops)) (RHeader name))
     = AHeader (env_getitem (env_after env ops) name).
Proof. intros cu ch env p name ops. split; [apply current|apply current_header]. Qed.
Print Assumptions C104_current.

(** So is an attribute read for the first time. *)
Theorem C104_first : forall cu ch env p ops,
  never_read p ops ->
  fst (get_prop cu ch (snd (rrun cu ch (new_robj env) ops)) p)
  = fst (get_prop cu ch (new_robj (env_after env ops)) p).
Proof. exact first_reading. Qed.
Print Assumptions C104_first.

Example C104_example :
  let ops := [RGet PPath; REnvSet (lit "PATH_INFO") (lit "/b"); REnvSet (lit "QUERY_STRING") (lit "y=2");
              RGet PPath; RGet PFullPath; RGet PMethod; REnvDel (lit "CONTENT_LENGTH"); RGet PContentLength;
              RGet PContentType; RHeader (lit "content-type")] in
  fst (rrun no_url no_host (new_robj ex_environ) ops)
  = [AProp (Ok (VText (lit "/a"))); ANothing; ANothing; AProp (Ok (VText (lit "/a")));
     (* the path read before and the query string of now *)
     AProp (Ok (VText (lit "/a?y=2"))); AProp (Ok (VText (lit "GET"))); ANothing; AProp (Ok (VNumber None));
     AProp (Ok (VMaybe (Some (lit "Text/HTML; charset=utf-8")))); AHeader (Ok (lit "Text/HTML; charset=utf-8"))]
  /\ never_read PContentLength (firstn 7 ops) /\ ~ never_read PFullPath ops /\ kept PContentLength = true
  /\ kept PContentType = false.
Proof.
  cbv zeta. split; [vm_compute; reflexivity|]. split; [|split; [|split; reflexivity]].
  - intros q Q L. cbn [In firstn] in Q.
    destruct Q as [Q|[Q|[Q|[Q|[Q|[Q|[Q|[]]]]]]]]; try discriminate Q; injection Q as <-;
      (destruct L as [L|L]; [discriminate L|exact L]).
  - intros N. apply (N PPath); [left; reflexivity|right; exact I].
Qed.

(** *** Closing *)

(** close() closes the files and calls the registered functions, all of them,
    each once, in the order of registration, if none of them raises or registers
    another. *)
Theorem C104_close : forall does fuel files on_close,
  (length on_close <= fuel)%nat ->
  (forall f, In f (files ++ on_close) -> quiet does f) ->
  close_request does fuel files on_close = Some (files ++ on_close, on_close, None).
Proof. exact close_quiet. Qed.
Print Assumptions C104_close.

(** call_on_close returns the function it is given, so that it can decorate it; the
    functions registered one by one run in the order in which they were registered. *)
Theorem C104_registered : forall does files fs fuel,
  (forall l f, snd (call_on_close l f) = f) /\
  ((length fs <= fuel)%nat -> (forall f, In f (files ++ fs) -> quiet does f) ->
   close_request does fuel files (fold_left (fun l f => fst (call_on_close l f)) fs []) = Some (files ++ fs, fs, None)).
Proof.
  intros does files fs fuel. split; [reflexivity|]. intros L Q.
  assert (E : forall l, fold_left (fun l f => fst (call_on_close l f)) fs l = l ++ fs).
  { clear. induction fs as [|f fs IH]; intros l; cbn [fold_left].
    - rewrite app_nil_r. reflexivity.
    - rewrite IH. cbn. rewrite <- app_assoc. reflexivity. }
  rewrite E. apply close_quiet; auto.
Qed.
Print Assumptions C104_registered.
Example C104_registered_example :
  close_request (fun _ => mk_effect [] None) 2 [7]%nat (fst (call_on_close (fst (call_on_close [] 3)) 5)) =
  Some ([7; 3; 5], [3; 5], None)%nat.
Proof. reflexivity. Qed.

(** In general, functions registered during close() are called too; the first
    exception ends it. *)
Theorem C104_close_general : forall does fuel files on_close calls final e,
  close_request does fuel files on_close = Some (calls, final, e) ->
  exists more, final = on_close ++ more /\
    match e with
    | None => calls = files ++ final
    | Some x => exists pre f post, files ++ final = pre ++ f :: post /\ calls = pre ++ [f]
                  /\ ef_raises (does f) = Some x /\ forall g, In g pre -> ef_raises (does g) = None
    end.
Proof. exact close_ended. Qed.
Print Assumptions C104_close_general.

(** The functions after one that raises are never called, and a function that
    registers itself keeps close() from ending. *)
Theorem C104_close_refuted :
  (exists does, close_request does 9 [1] [2; 3] = Some ([1; 2], [2; 3], Some ValueError))%nat
  /\ (exists does, forall fuel, close_request does fuel [] [1] = None)%nat.
Proof.
  split.
  - exists (fun n => mk_effect [] (if Nat.eqb n 2 then Some ValueError else None)). vm_compute. reflexivity.
  - exists (fun n => mk_effect [n] None). intros fuel. unfold close_request. cbn [close_files].
    assert (G : forall fuel done, close_funcs (fun n => mk_effect [n] None) fuel [1%nat] done = None).
    { clear fuel. induction fuel as [|fuel IH]; intros done; [reflexivity|]. cbn. apply IH. }
    rewrite G. reflexivity.
Qed.
Print Assumptions C104_close_refuted.
Example C104_close_example :
  close_request (fun n => mk_effect (if Nat.eqb n 2 then [5%nat] else []) None) 9 [1; 1]%nat [2; 3]%nat
  = Some ([1; 1; 2; 3; 5], [2; 3; 5], None)%nat.
Proof. vm_compute. reflexivity. Qed.
