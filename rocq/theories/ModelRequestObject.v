(** * Request objects: the properties that read headers, their caches, closing

    verktyg/requests.py and cached_property of verktyg/utils.py.  The environ is
    a dict of texts. *)
From Coq Require Import Arith List NArith ZArith Bool.
From Verif Require Import PyStr ModelQuote ModelHeaders ModelRange ModelEtag ModelDate ModelCookie ModelAuth
  ModelMultiDict ModelStream ModelWsgi ModelRequest ModelMirror.
Import ListNotations.
Open Scope N_scope.

(** ** The properties *)

(* What a property may hold *)
Inductive pval :=
| VText (s : str)
| VMaybe (o : option str)
| VFlag (b : bool)
| VTruth (o : option bool)
| VNumber (o : option Z)
| VTexts (l : list str)
| VArgs (d : mdict str)
| VCookies (d : dict str)
| VCache (d : ccdict)
| VTags (e : etags)
| VDate (o : option datetime)
| VIfRange (r : if_range)
| VRange (r : option range)
| VAuth (a : option authorization)
| VParams (d : dict (option str))
| VNames (s : hset).

Inductive prop :=
| PArgs | PCookies | PPath | PFullPath | PScriptRoot | PUrl | PBaseUrl | PUrlRoot | PHostUrl | PHost
| PQueryString | PMethod | PAccessRoute | PRemoteAddr | PRemoteUser | PScheme | PIsXhr | PIsSecure
| PMultithread | PMultiprocess | PRunOnce
| PCacheControl | PIfMatch | PIfNoneMatch | PIfModifiedSince | PIfUnmodifiedSince | PIfRange | PRange
| PAuthorization
| PContentType | PContentLength | PContentEncoding | PContentMd5 | PReferrer | PDate | PMaxForwards
| PMimetype | PMimetypeParams | PPragma.
Definition prop_eq_dec (a b : prop) : {a = b} + {a <> b}.
Proof. decide equality. Defined.

(* Declared with cached_property, not with property *)
Definition is_cached (p : prop) : bool :=
  match p with
  | PRemoteAddr | PIsXhr | PIsSecure | PMultithread | PMultiprocess | PRunOnce
  | PContentType | PContentEncoding | PContentMd5 | PReferrer | PDate | PMaxForwards
  | PMimetype | PMimetypeParams => false
  | _ => true
  end.

(* A loop that did not end within its fuel *)
Definition fueled {A} (o : option (res A)) : res A :=
  match o with Some r => r | None => Raise (OtherError 99) end.
Definition tags_of (v : str) : res etags := fueled (option_map Ok (parse_etags (S (length v)) v)).

Section environ.
  (* get_current_url (root_only, strip_querystring, host_only) and get_host with
     the trusted hosts of the class *)
  Variable current_url : dict str -> bool -> bool -> bool -> res str.
  Variable current_host : dict str -> res str.

  (* verktyg/requests.py:294-300 [cookies] and verktyg/http/cookies.py:174-177 *)
  Definition req_cookies (environ : dict str) : res (dict str) :=
    let v := env_or environ (lit "HTTP_COOKIE") in fueled (parse_cookie (S (length v)) v).
  (* verktyg/requests.py:622-626 [_parse_content_type] *)
  Definition req_options (environ : dict str) : res (str * dict (option str)) :=
    parse_options_header (env_or environ (lit "CONTENT_TYPE")).

  Definition ok {A} (f : A -> pval) (r : res A) : res pval := do x <- r; Ok (f x).
  Definition get_env (environ : dict str) (k : str) : res pval := Ok (VMaybe (dget environ k)).

  (* The functions of the properties, read from the environ alone *)
  Definition fresh (p : prop) (environ : dict str) : res pval :=
    match p with
    | PArgs => ok VArgs (req_args environ)
    | PCookies => ok VCookies (req_cookies environ)
    | PPath => ok VText (req_path environ)
    | PFullPath => ok VText (req_full_path environ)
    | PScriptRoot => ok VText (req_script_root environ)
    (* verktyg/requests.py:335-378 *)
    | PUrl => ok VText (current_url environ false false false)
    | PBaseUrl => ok VText (current_url environ false true false)
    | PUrlRoot => ok VText (current_url environ true false false)
    | PHostUrl => ok VText (current_url environ false false true)
    | PHost => ok VText (current_host environ)
    | PQueryString => ok VText (req_query_string environ)
    | PMethod => Ok (VText (req_method environ))
    | PAccessRoute => Ok (VTexts (req_access_route environ))
    (* verktyg/requests.py:403-421, 440-458 *)
    | PRemoteAddr => get_env environ (lit "REMOTE_ADDR")
    | PRemoteUser => get_env environ (lit "REMOTE_USER")
    | PScheme => get_env environ (lit "wsgi.url_scheme")
    | PIsXhr => Ok (VFlag (req_is_xhr environ))
    | PIsSecure => ok VTruth (req_is_secure environ)
    | PMultithread => get_env environ (lit "wsgi.multithread")
    | PMultiprocess => get_env environ (lit "wsgi.multiprocess")
    | PRunOnce => get_env environ (lit "wsgi.run_once")
    (* verktyg/requests.py:469-477; an absent header is as an empty one
       (http/cache_control.py:412-414) *)
    | PCacheControl => Ok (VCache (parse_cache_control (env_or environ (lit "HTTP_CACHE_CONTROL"))))
    (* verktyg/requests.py:479-494; parse_etags(None) holds nothing *)
    | PIfMatch => ok VTags (tags_of (env_or environ (lit "HTTP_IF_MATCH")))
    | PIfNoneMatch => ok VTags (tags_of (env_or environ (lit "HTTP_IF_NONE_MATCH")))
    (* verktyg/requests.py:496-504 *)
    | PIfModifiedSince => ok VDate (req_date environ (lit "HTTP_IF_MODIFIED_SINCE"))
    | PIfUnmodifiedSince => ok VDate (req_date environ (lit "HTTP_IF_UNMODIFIED_SINCE"))
    (* verktyg/requests.py:506-520 *)
    | PIfRange => ok VIfRange (parse_if_range_header (dget environ (lit "HTTP_IF_RANGE")))
    | PRange => ok VRange (parse_range_header (env_or environ (lit "HTTP_RANGE")))
    (* verktyg/requests.py:529-533 *)
    | PAuthorization => ok VAuth (parse_authorization_header (dget environ (lit "HTTP_AUTHORIZATION")))
    (* verktyg/requests.py:555-601 *)
    | PContentType => get_env environ (lit "CONTENT_TYPE")
    | PContentLength => Ok (VNumber (get_content_length environ))
    | PContentEncoding => get_env environ (lit "HTTP_CONTENT_ENCODING")
    | PContentMd5 => get_env environ (lit "HTTP_CONTENT_MD5")
    | PReferrer => get_env environ (lit "HTTP_REFERER")
    (* verktyg/requests.py:602-620 *)
    | PDate => ok VDate (req_date environ (lit "HTTP_DATE"))
    | PMaxForwards => ok VNumber (req_max_forwards environ)
    (* verktyg/requests.py:628-645 *)
    | PMimetype => ok (fun r => VText (lower (fst r))) (req_options environ)
    | PMimetypeParams => ok (fun r => VParams (snd r)) (req_options environ)
    (* verktyg/requests.py:647-655 *)
    | PPragma => Ok (VNames (parse_set_header (Some (env_or environ (lit "HTTP_PRAGMA")))))
    end.

  (** ** The object *)

  (* [ro_cache] is the part of __dict__ that cached_property uses, [ro_options]
     is _parsed_content_type *)
  Record robj := RO {
    ro_environ : dict str;
    ro_cache : list (prop * pval);
    ro_options : option (str * dict (option str)) }.
  Definition new_robj (environ : dict str) : robj := RO environ [] None.

  Fixpoint cache_get (c : list (prop * pval)) (p : prop) : option pval :=
    match c with
    | [] => None
    | (q, v) :: c' => if prop_eq_dec p q then Some v else cache_get c' p
    end.
  Definition cache_put (st : robj) (p : prop) (v : pval) : robj :=
    RO (ro_environ st) ((p, v) :: ro_cache st) (ro_options st).

  (* verktyg/utils.py:59-67 [cached_property.__get__] for a function of the
     environ, and a property otherwise *)
  Definition get_simple (st : robj) (p : prop) : res pval * robj :=
    if is_cached p then
      match cache_get (ro_cache st) p with
      | Some v => (Ok v, st)
      | None => match fresh p (ro_environ st) with
                | Ok v => (Ok v, cache_put st p v)
                | Raise e => (Raise e, st)
                end
      end
    else (fresh p (ro_environ st), st).

  (* verktyg/requests.py:622-645: the parsed header is kept *)
  Definition get_options (st : robj) : res (str * dict (option str)) * robj :=
    match ro_options st with
    | Some r => (Ok r, st)
    | None => match req_options (ro_environ st) with
              | Ok r => (Ok r, RO (ro_environ st) (ro_cache st) (Some r))
              | Raise e => (Raise e, st)
              end
    end.

  Definition text_of (v : pval) : str := match v with VText s => s | _ => [] end.

  (* Reading an attribute.  full_path reads path and query_string
     (verktyg/requests.py:321-324), which are cached. *)
  Definition get_prop (st : robj) (p : prop) : res pval * robj :=
    match p with
    | PFullPath =>
        match cache_get (ro_cache st) PFullPath with
        | Some v => (Ok v, st)
        | None =>
            match get_simple st PPath with
            | (Raise e, st1) => (Raise e, st1)
            | (Ok a, st1) =>
                match get_simple st1 PQueryString with
                | (Raise e, st2) => (Raise e, st2)
                | (Ok b, st2) =>
                    let v := VText (text_of a ++ 63 :: text_of b) in
                    (Ok v, cache_put st2 PFullPath v)
                end
            end
        end
    | PMimetype => let (r, st') := get_options st in (ok (fun x => VText (lower (fst x))) r, st')
    | PMimetypeParams => let (r, st') := get_options st in (ok (fun x => VParams (snd x)) r, st')
    | _ => get_simple st p
    end.

  (* What a program does with a request: read attributes, look up headers
     (EnvironHeaders reads the environ each time, wsgi.py:291-297), change the
     environ *)
  Inductive rop := RGet (p : prop) | RHeader (name : str) | REnvSet (k v : str) | REnvDel (k : str).
  Inductive answer := AProp (r : res pval) | AHeader (r : res str) | ANothing.
  Definition rstep (st : robj) (o : rop) : answer * robj :=
    match o with
    | RGet p => let (r, st') := get_prop st p in (AProp r, st')
    | RHeader n => (AHeader (env_getitem (ro_environ st) n), st)
    | REnvSet k v => (ANothing, RO (dset (ro_environ st) k v) (ro_cache st) (ro_options st))
    | REnvDel k => (ANothing, RO (ddel (ro_environ st) k) (ro_cache st) (ro_options st))
    end.
  Fixpoint rrun (st : robj) (ops : list rop) : list answer * robj :=
    match ops with
    | [] => ([], st)
    | o :: ops' => let (a, st1) := rstep st o in let (l, st2) := rrun st1 ops' in (a :: l, st2)
    end.
End environ.

(** ** Closing

    Functions and files are numbered; [does n] is what calling number [n] does:
    the functions it registers with call_on_close, then perhaps an exception. *)
Record effect := mk_effect { ef_adds : list nat; ef_raises : option exn }.

Section closing.
  Variable does : nat -> effect.
  (* the loop over self._on_close: functions registered meanwhile are appended
     to the list being iterated.  The result: the calls made, the list in the
     end, the exception if any; None: not ended within the fuel *)
  Fixpoint close_funcs (fuel : nat) (pending done : list nat)
    : option (list nat * list nat * option exn) :=
    match pending with
    | [] => Some (done, done, None)
    | f :: rest =>
        match fuel with
        | O => None
        | S n =>
            let rest := rest ++ ef_adds (does f) in
            match ef_raises (does f) with
            | Some e => Some (done ++ [f], done ++ f :: rest, Some e)
            | None => close_funcs n rest (done ++ [f])
            end
        end
    end.
  (* the loop over the files; closing a file registers nothing *)
  Fixpoint close_files (files : list nat) (calls : list nat) : list nat * option exn :=
    match files with
    | [] => (calls, None)
    | f :: rest =>
        match ef_raises (does f) with
        | Some e => (calls ++ [f], Some e)
        | None => close_files rest (calls ++ [f])
        end
    end.
  (* verktyg/requests.py:220-229 [close]; [files] are those of the attribute
     'files' if there is one; the result: the calls made, self._on_close in the
     end, the exception if any *)
  Definition close_request (fuel : nat) (files on_close : list nat)
    : option (list nat * list nat * option exn) :=
    match close_files files [] with
    | (calls, Some e) => Some (calls, on_close, Some e)
    | (calls, None) =>
        option_map (fun r => (calls ++ fst (fst r), snd (fst r), snd r)) (close_funcs fuel on_close [])
    end.
  (* verktyg/requests.py:212-218 [call_on_close]: the list, and the function
     itself *)
  Definition call_on_close (on_close : list nat) (f : nat) : list nat * nat := (on_close ++ [f], f).
End closing.
