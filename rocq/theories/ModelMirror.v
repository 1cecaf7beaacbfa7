(** * Header properties of responses that are objects

    verktyg/responses.py: set_cookie, delete_cookie, the entity tag, Content-Range, the
    mimetype and its parameters, the sets Vary, Content-Language and Allow, and
    WWW-Authenticate; verktyg/http/cache_control.py: If-Range.  The objects handed out tell
    the response of every change by a callback. *)
From Coq Require Import Arith List NArith ZArith Bool.
From Verif Require Import PyStr ModelQuote ModelHeaders ModelRange ModelEtag ModelDate ModelUrls ModelCookie ModelAuth ModelUtils
  ModelCallback ModelResponse.
Import ListNotations.
Open Scope N_scope.

(** ** Cookies *)
(** The argument expires: a text, or anything cookie_date takes. *)
Inductive expiry := ExText (s : str) | ExDate (a : date_arg).
Definition expiry_text (e : option expiry) : res (option str) :=
  match e with
  | None => Ok None
  | Some (ExText s) => Ok (Some s)
  | Some (ExDate a) => do t <- cookie_date a; Ok (Some t)
  end.
Section Cookies.
  Variables (idna_part : str -> res str) (ip_ok nfkc_ok : str -> bool).
  (** time(), in whole seconds *)
  Variable now : Z.
  Definition date_after (max_age : Z) : str :=
    match cookie_date (DNumber (now + max_age)) with Ok t => t | Raise _ => [] end.
  Record cookie := mk_cookie {
    k_max_age : option Z; k_expires : option expiry; k_path : option str; k_domain : option str;
    k_secure : bool; k_httponly : bool }.
  (** responses.py:400-431 [set_cookie]; a date that cannot be written is refused before
      the other arguments are looked at, where Python comes to it after them. *)
  Definition set_cookie (h : headers) (key value : str) (k : cookie) : res headers :=
    do expires <- expiry_text (k_expires k);
    do t <- dump_cookie idna_part ip_ok nfkc_ok date_after key value
              (Args (k_max_age k) expires (k_path k) (k_domain k) (k_secure k) (k_httponly k) true);
    h_add h (lit "Set-Cookie") (HStr t) [].
  (** responses.py:433-445 [delete_cookie] *)
  Definition delete_cookie (h : headers) (key : str) (path domain : option str) : res headers :=
    set_cookie h key [] (mk_cookie (Some 0%Z) (Some (ExDate (DNumber 0))) path domain false false).
End Cookies.

(** ** The entity tag (responses.py:715-728) *)
Definition set_etag (h : headers) (etag : str) (weak : bool) : headers * option exn :=
  match quote_etag etag weak with
  | Raise e => (h, Some e)
  | Ok q => keep h (h_set h (lit "ETag") (HStr q) [])
  end.
Definition get_etag (h : headers) : option (str * bool) :=
  match h_get h (lit "ETag") with None => None | Some v => unquote_etag v end.
(** [md5] is generate_etag (cache_control.py:578-580) *)
Definition add_etag (md5 : str -> str) (r : response) (overwrite weak : bool) : response * option exn :=
  if overwrite || negb (h_contains (rs_headers r) (lit "etag"))
  then match get_data r with
       | (r', Raise e) => (r', Some e)
       | (r', Ok d) => let (h, e) := set_etag (rs_headers r') (md5 d) weak in (with_headers r' h, e)
       end
  else (r, None).

(** ** Content-Range (responses.py:745-767) *)
Definition cr_update (h : headers) (c : content_range) : headers * option exn :=
  match c_units c with
  | None => (h_remove h (lit "content-range"), None)
  | Some _ =>
      match content_range_to_header c with
      | Raise e => (h, Some e)
      | Ok t => keep h (h_set h (lit "Content-Range") (HStr t) [])
      end
  end.
(** Reading the property: every ContentRange made with a callback calls it at once
    (cache_control.py:161-165, 186-195). *)
Definition get_content_range (h : headers) : headers * res content_range :=
  let told c := match cr_update h c with (h', None) => (h', Ok c) | (h', Some e) => (h', Raise e) end in
  match (match h_get h (lit "content-range") with None => Ok None | Some v => parse_content_range_header v end) with
  | Raise e => (h, Raise e)
  | Ok (Some c) => told c
  | Ok None => told (CR None None None None)
  end.
(** responses.py:761-767 [_set_content_range] *)
Inductive cr_value := CvNone | CvText (s : str) | CvRange (c : content_range).
Definition set_content_range (h : headers) (v : cr_value) : headers * option exn :=
  match v with
  | CvNone | CvText [] => (h_remove h (lit "content-range"), None)
  | CvText s => keep h (h_set h (lit "Content-Range") (HStr s) [])
  | CvRange c => cr_update h c
  end.
(** cache_control.py:167-201: the attributes, [set] and [unset] *)
Inductive cr_op :=
| CrUnits (u : option str) | CrStart (z : option Z) | CrStop (z : option Z) | CrLength (z : option Z)
| CrSet (start stop length : option Z) (units : option str) | CrUnset.
Definition cr_step (c : content_range) (h : headers) (o : cr_op) : content_range * headers * option exn :=
  let told c' := let (h', e) := cr_update h c' in (c', h', e) in
  match o with
  | CrUnits u => told (CR u (c_start c) (c_stop c) (c_length c))
  | CrStart z => told (CR (c_units c) z (c_stop c) (c_length c))
  | CrStop z => told (CR (c_units c) (c_start c) z (c_length c))
  | CrLength z => told (CR (c_units c) (c_start c) (c_stop c) z)
  | CrSet start stop length units =>
      if is_byte_range_valid start stop length then told (CR units start stop length) else (c, h, Some ValueError)
  | CrUnset => told (CR None None None None)
  end.

(** ** The mimetype (responses.py:837-852) *)
Definition get_mimetype (h : headers) : option str :=
  match h_get h (lit "content-type") with
  | None | Some [] => None
  | Some ct => Some (strip (hd [] (split_on 59 ct)))
  end.
Definition set_mimetype (charset : str) (h : headers) (v : str) : headers * option exn :=
  keep h (h_set h (lit "Content-Type") (HStr (get_content_type v charset)) []).
Definition get_mimetype_params (h : headers) : res (dict (option str)) :=
  do r <- parse_options_header (match h_get h (lit "content-type") with Some v => v | None => [] end);
  Ok (snd r).
Definition params_update (h : headers) (d : dict (option str)) : headers * option exn :=
  keep h (h_set h (lit "Content-Type") (HStr (dump_options_header (get_mimetype h) d)) []).

(** ** Sets of names: Vary, Content-Language, Allow (responses.py:939-955) *)
(** http/basic.py:1113-1142 [parse_set_header] *)
Definition parse_set_header (value : option str) : hset :=
  match value with None | Some [] => hs_init [] | Some v => hs_init (parse_list_header v) end.
(** A call on a HeaderSet whose callback changes [x]; the callback is the last thing each
    method does (http/basic.py:977-1093). *)
Definition hs_call {X} (on_update : X -> hset -> X * option exn) (s : hset) (x : X) (o : hsop) : hset * X * option exn :=
  let (s', e) := hs_step s o in
  if Nat.eqb (hs_calls s') (hs_calls s) then (s', x, e)
  else let (x', e') := on_update x s' in (s', x', e').
Definition get_set (name : str) (h : headers) : hset := parse_set_header (h_get h name).
Definition set_update (name : str) (h : headers) (s : hset) : headers * option exn :=
  if Nat.eqb (hs_len s) 0 then ((if h_contains h name then h_remove h name else h), None)
  else keep h (h_set h name (HStr (hs_to_header s)) []).
Inductive set_value := SvNone | SvText (s : str) | SvNames (l : list str).
Definition assign_set (name : str) (h : headers) (v : set_value) : headers * option exn :=
  match v with
  | SvNone | SvText [] | SvNames [] => (h_remove h name, None)
  | SvText s => keep h (h_set h name (HStr s) [])
  | SvNames l => keep h (h_set h name (HStr (dump_header_list true l)) [])
  end.
Definition set_calls (name : str) (s : hset) (h : headers) (ops : list hsop) : hset * headers :=
  fold_left (fun sh o => fst (hs_call (set_update name) (fst sh) (snd sh) o)) ops (s, h).

(** ** WWW-Authenticate (responses.py:985-994) *)
(** quote_header_value and title write None as a text, but the type None is no type
    (http/auth.py:175-184) *)
Definition shown_field (kv : str * option str) : list (str * str) :=
  match snd kv with
  | Some s => [(fst kv, s)]
  | None => if eqs (fst kv) auth_type_key then [] else [(fst kv, lit "None")]
  end.
Definition www_text (d : dict (option str)) : str := www_to_header (flat_map shown_field d).
Definition www_update (h : headers) (d : dict (option str)) : headers * option exn :=
  match d with
  | [] => ((if h_contains h (lit "www-authenticate") then h_remove h (lit "www-authenticate") else h), None)
  | _ => keep h (h_set h (lit "WWW-Authenticate") (HStr (www_text d)) [])
  end.
Definition get_www (h : headers) : dict (option str) :=
  match h_get h (lit "www-authenticate") with None => [] | Some v => parse_www_authenticate_header v end.
(** http/auth.py:126-131 and 241-245: the attributes; 146-173: set_basic, set_digest; a
    dict method; a call on one of the sets domain and qop (192-199), which changes the
    challenge, which changes the response. *)
Inductive www_op :=
| WwAttr (name : str) (v : option str)
| WwStale (v : option bool)
| WwBasic (realm : str)
| WwDigest (realm nonce : str) (qop : list str) (opaque algorithm : option str) (stale : bool)
| WwDict (o : dop (option str)).
Definition www_replace (h : headers) (d : dict str) : dict (option str) * headers * option exn :=
  let d' := map (fun kv => (fst kv, Some (snd kv))) d in
  let (h', e) := www_update h d' in (d', h', e).
Definition failure {A} (r : res A) : option exn := match r with Ok _ => None | Raise e => Some e end.
Definition www_dict (d : dict (option str)) (h : headers) (o : dop (option str)) : dict (option str) * headers * option exn :=
  let '(d', h', r) := cb_step www_update d h o in (d', h', failure r).
Definition www_step (d : dict (option str)) (h : headers) (o : www_op) : dict (option str) * headers * option exn :=
  match o with
  | WwAttr name None => www_dict d h (DPop name (Some None))
  | WwAttr name (Some v) => www_dict d h (DSet name (Some v))
  | WwStale None => www_dict d h (DPop (lit "stale") (Some None))
  | WwStale (Some b) => www_dict d h (DSet (lit "stale") (Some (if b then lit "TRUE" else lit "FALSE")))
  | WwBasic realm => www_replace h (set_basic realm)
  | WwDigest realm nonce qop opaque algorithm stale => www_replace h (set_digest realm nonce qop opaque algorithm stale)
  | WwDict o => www_dict d h o
  end.
Definition www_set (name : str) (d : dict (option str)) : hset :=
  parse_set_header (match dget d name with Some v => v | None => None end).
Definition www_set_update (name : str) (dh : dict (option str) * headers) (s : hset) : dict (option str) * headers * option exn :=
  let (d, h) := dh in
  if Nat.eqb (hs_len s) 0 then (if dhas d name then www_dict d h (DDel name) else (d, h, None))
  else www_dict d h (DSet name (Some (hs_to_header s))).

(** ** If-Range (http/cache_control.py:22-61) *)
Record if_range := mk_if_range { ir_etag : option str; ir_date : option datetime }.
(** the date is naive, as parse_date makes it *)
Definition if_range_to_header (r : if_range) : res str :=
  match ir_date r with
  | Some d => http_date (DDatetime d None)
  | None => match ir_etag r with Some t => quote_etag t false | None => Ok [] end
  end.
Definition parse_if_range_header (value : option str) : res if_range :=
  match value with
  | None | Some [] => Ok (mk_if_range None None)
  | Some v =>
      do d <- parse_date (Some v);
      match d with
      | Some d => Ok (mk_if_range None (Some d))
      | None => Ok (mk_if_range (option_map fst (unquote_etag v)) None)
      end
  end.

(** ** parse_date for conditional requests (http/cache_control.py:604-617): instants in
    microseconds, as is_resource_modified compares them *)
Definition date_micros (v : str) : option Z :=
  match parse_date (Some v) with Ok (Some d) => Some (seconds d * 1000000)%Z | _ => None end.
