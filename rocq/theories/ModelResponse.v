(** Model of BaseResponse, ETagResponseMixin and ResponseStream (verktyg/responses.py). *)
From Coq Require Import Arith List NArith ZArith Bool.
From Verif Require Import PyStr Regex Utf8 ModelQuote ModelHeaders ModelEtag ModelUrls ModelRoute ModelUrlMap ModelWsgi.
Import ListNotations.
Open Scope N_scope.

(** ** Status (exceptions.py:63-118, responses.py:281-307) *)
Definition http_status_codes : list (Z * str) :=
  [(100%Z, lit "Continue"); (101%Z, lit "Switching Protocols"); (102%Z, lit "Processing");
   (200%Z, lit "OK"); (201%Z, lit "Created"); (202%Z, lit "Accepted");
   (203%Z, lit "Non Authoritative Information"); (204%Z, lit "No Content"); (205%Z, lit "Reset Content");
   (206%Z, lit "Partial Content"); (207%Z, lit "Multi Status"); (226%Z, lit "IM Used");
   (300%Z, lit "Multiple Choices"); (301%Z, lit "Moved Permanently"); (302%Z, lit "Found");
   (303%Z, lit "See Other"); (304%Z, lit "Not Modified"); (305%Z, lit "Use Proxy");
   (307%Z, lit "Temporary Redirect"); (400%Z, lit "Bad Request"); (401%Z, lit "Unauthorized");
   (402%Z, lit "Payment Required"); (403%Z, lit "Forbidden"); (404%Z, lit "Not Found");
   (405%Z, lit "Method Not Allowed"); (406%Z, lit "Not Acceptable"); (407%Z, lit "Proxy Authentication Required");
   (408%Z, lit "Request Timeout"); (409%Z, lit "Conflict"); (410%Z, lit "Gone");
   (411%Z, lit "Length Required"); (412%Z, lit "Precondition Failed"); (413%Z, lit "Request Entity Too Large");
   (414%Z, lit "Request URI Too Long"); (415%Z, lit "Unsupported Media Type"); (416%Z, lit "Requested Range Not Satisfiable");
   (417%Z, lit "Expectation Failed"); (418%Z, lit "I'm a teapot"); (422%Z, lit "Unprocessable Entity");
   (423%Z, lit "Locked"); (424%Z, lit "Failed Dependency"); (426%Z, lit "Upgrade Required");
   (428%Z, lit "Precondition Required"); (429%Z, lit "Too Many Requests"); (431%Z, lit "Request Header Fields Too Large");
   (449%Z, lit "Retry With"); (500%Z, lit "Internal Server Error"); (501%Z, lit "Not Implemented");
   (502%Z, lit "Bad Gateway"); (503%Z, lit "Service Unavailable"); (504%Z, lit "Gateway Timeout");
   (505%Z, lit "HTTP Version Not Supported"); (507%Z, lit "Insufficient Storage"); (510%Z, lit "Not Extended")].
Definition phrase (code : Z) : option str :=
  option_map snd (find (fun kv => (fst kv =? code)%Z) http_status_codes).
Record status := Status { st_line : str; st_code : Z }.
(** _set_status_code, of an int; all phrases are ASCII *)
Definition set_status_code (code : Z) : status :=
  Status (zdec code ++ 32 :: match phrase code with Some p => upper p | None => lit "UNKNOWN" end) code.
(** [s.split(None, 1)[0]] of a text that is not blank *)
Definition first_word (s : str) : option str :=
  match fst (cut is_space (lstrip_by is_space s)) with [] => None | w => Some w end.
(** _set_status, of a str: the new status and the exception raised if any.  An IndexError
    comes after the line has been assigned. *)
Definition set_status (old : status) (value : str) : status * option exn :=
  match first_word value with
  | None => (Status value (st_code old), Some IndexError)
  | Some w =>
      match py_int w with
      | Some z => (Status value z, None)
      | None => (Status (lit "0 " ++ value) 0, None)
      end
  end.

(** ** Bodies
    A sequence (list or tuple) of texts and byte strings, or an iterator; an iterator
    yields some items and may then fail, it may have a close method, and it is known by a
    number.  Bytes objects set as the response attribute and other kinds of items are not
    modelled; the charset is UTF-8. *)
Inductive item := IText (s : str) | IBytes (b : str).
Inductive body :=
| BSeq (l : list item)
| BIter (l : list item) (fail : option exn) (close : option nat).
Inductive callback := CIter (n : nat) | CUser (n : nat).
Record response := Response {
  rs_headers : headers;
  rs_status : status;
  rs_body : body;
  rs_passthrough : bool;
  rs_on_close : list callback;
  rs_implicit : bool;               (* implicit_sequence_conversion *)
  rs_autolength : bool;             (* automatically_set_content_length *)
  rs_autolocation : bool }.         (* autocorrect_location_header *)
Definition with_headers (r : response) (h : headers) : response :=
  Response h (rs_status r) (rs_body r) (rs_passthrough r) (rs_on_close r) (rs_implicit r) (rs_autolength r) (rs_autolocation r).
Definition with_status (r : response) (s : status) : response :=
  Response (rs_headers r) s (rs_body r) (rs_passthrough r) (rs_on_close r) (rs_implicit r) (rs_autolength r) (rs_autolocation r).
Definition with_body (r : response) (b : body) : response :=
  Response (rs_headers r) (rs_status r) b (rs_passthrough r) (rs_on_close r) (rs_implicit r) (rs_autolength r) (rs_autolocation r).
(** call_on_close (responses.py:199-206) *)
Definition call_on_close (r : response) (c : callback) : response :=
  Response (rs_headers r) (rs_status r) (rs_body r) (rs_passthrough r) (rs_on_close r ++ [c]) (rs_implicit r) (rs_autolength r) (rs_autolocation r).

Definition is_seq (b : body) : bool := match b with BSeq _ => true | _ => false end.
Definition body_items (b : body) : list item := match b with BSeq l => l | BIter l _ _ => l end.
Definition body_fail (b : body) : option exn := match b with BSeq _ => None | BIter _ f _ => f end.
(** [len(x)] *)
Definition item_len (i : item) : nat := match i with IText s => length s | IBytes b => length b end.
Definition items_len (l : list item) : nat := fold_right (fun i n => item_len i + n)%nat O l.
Definition encode_item (i : item) : res str := match i with IText s => utf8_encode s | IBytes b => Ok b end.
(** _iter_encoded (responses.py:62-67): what it yields, the exception at its end if any,
    and the items that are rest in the iterator *)
Fixpoint encode_items (l : list item) (fail : option exn) : list str * option exn * list item :=
  match l with
  | [] => ([], fail, [])
  | i :: l' =>
      match encode_item i with
      | Raise e => ([], Some e, l')
      | Ok b => let '(r, e, rest) := encode_items l' fail in (b :: r, e, rest)
      end
  end.

(** make_sequence (responses.py:372-385); when it fails the iterator is partly used *)
Definition make_sequence (r : response) : response * option exn :=
  match rs_body r with
  | BSeq _ => (r, None)
  | BIter l f c =>
      match encode_items l f with
      | (bs, None, _) =>
          let r' := with_body r (BSeq (map IBytes bs)) in
          (match c with Some n => call_on_close r' (CIter n) | None => r' end, None)
      | (_, Some e, rest) =>
          (with_body r (BIter rest (match rest with [] => None | _ => f end) c), Some e)
      end
  end.
(** _ensure_sequence (responses.py:349-370) *)
Definition ensure_sequence (r : response) : response * option exn :=
  match rs_body r with
  | BSeq _ => (r, None)
  | BIter _ _ _ =>
      if rs_passthrough r || negb (rs_implicit r) then (r, Some RuntimeError) else make_sequence r
  end.
(** calculate_content_length (responses.py:341-347); a RuntimeError of the iterator itself
    would also be caught *)
Definition calculate_content_length (r : response) : response * res (option nat) :=
  match ensure_sequence r with
  | (r', Some RuntimeError) => (r', Ok None)
  | (r', Some e) => (r', Raise e)
  | (r', None) => (r', Ok (Some (items_len (body_items (rs_body r')))))
  end.
(** [headers[key] = value] *)
Definition content_length : str := lit "Content-Length".
Definition set_header (r : response) (key value : str) : response * option exn :=
  match h_set (rs_headers r) key (HStr value) [] with
  | Ok h => (with_headers r h, None)
  | Raise e => (r, Some e)
  end.
(** set_data (responses.py:326-339) *)
Definition set_data (r : response) (i : item) : response * option exn :=
  match encode_item i with
  | Raise e => (r, Some e)
  | Ok b =>
      let r' := with_body r (BSeq [IBytes b]) in
      if rs_autolength r' then set_header r' content_length (zdec (Z.of_nat (length b))) else (r', None)
  end.
(** get_data (responses.py:309-324), of bytes *)
Definition get_data (r : response) : response * res str :=
  match ensure_sequence r with
  | (r', Some e) => (r', Raise e)
  | (r', None) =>
      match encode_items (body_items (rs_body r')) None with
      | (bs, None, _) => (r', Ok (concat bs))
      | (_, Some e, _) => (r', Raise e)
      end
  end.
(** freeze (responses.py:486-494) *)
Definition freeze (r : response) : response * option exn :=
  match encode_items (body_items (rs_body r)) (body_fail (rs_body r)) with
  | (bs, None, _) =>
      set_header (with_body r (BSeq (map IBytes bs))) content_length (zdec (Z.of_nat (length (concat bs))))
  | (_, Some e, rest) =>
      (match rs_body r with
       | BSeq _ => r
       | BIter _ f c => with_body r (BIter rest (match rest with [] => None | _ => f end) c)
       end, Some e)
  end.
(** ResponseStream.write (responses.py:789-794) of an open stream *)
Definition stream_write (r : response) (i : item) : response * option exn :=
  match ensure_sequence r with
  | (r', Some e) => (r', Some e)
  | (r', None) =>
      (with_headers (with_body r' (BSeq (body_items (rs_body r') ++ [i])))
         (match h_pop_name (rs_headers r') content_length true with Ok h => h | Raise _ => rs_headers r' end), None)
  end.

(** ** Sending *)
Definition bodyless_status (code : Z) : bool :=
  ((100 <=? code) && (code <? 200))%Z || (code =? 204)%Z || (code =? 304)%Z.
(** The value of the last header of the name, as the loop of get_wsgi_headers finds it *)
Definition last_value (l : headers) (key : str) : option str :=
  fold_left (fun acc kv => if eqs (lower (fst kv)) key then Some (snd kv) else acc) l None.
Section Send.
  Variables (idna_part idna_decode_part : str -> res str) (ip_ok nfkc_ok : str -> bool).
  (** get_current_url with root_only (wsgi.py:89-103) *)
  Definition root_url (environ : dict str) : res str :=
    match dget environ (lit "wsgi.url_scheme") with
    | None => Raise KeyError
    | Some scheme =>
        do host <- get_host idna_part environ None;
        do script <- wsgi_get_bytes (getenv environ (lit "SCRIPT_NAME"));
        uri_to_iri idna_decode_part ip_ok nfkc_ok Replace
          (scheme ++ lit "://" ++ host ++ rstrip_by is_slash (quote_bytes (lit "/") script) ++ [47])
    end.
  (** the new value of a location (responses.py:530-544) *)
  Definition fix_location (environ : dict str) (autocorrect : bool) (location : str) : res str :=
    do l <- iri_to_uri idna_part ip_ok nfkc_ok location;
    if autocorrect
    then
      do root <- root_url environ;
      do root <- iri_to_uri idna_part ip_ok nfkc_ok root;
      urljoin ip_ok nfkc_ok root l
    else Ok l.
  (** get_wsgi_headers (responses.py:496-573) *)
  Definition wsgi_headers (environ : dict str) (r : response) : res headers :=
    let h := rs_headers r in
    let code := st_code (rs_status r) in
    do h1 <- match last_value h (lit "location") with
             | None => Ok h
             | Some old =>
                 do new <- fix_location environ (rs_autolocation r) old;
                 if eqs new old then Ok h else h_set h (lit "Location") (HStr new) []
             end;
    do h2 <- match last_value h (lit "content-location") with
             | None => Ok h1
             | Some old => do new <- iri_to_uri idna_part ip_ok nfkc_ok old; h_set h1 (lit "Content-Location") (HStr new) []
             end;
    if ((100 <=? code) && (code <? 200))%Z || (code =? 204)%Z
    then h_set h2 content_length (HStr (lit "0")) []
    else
      do h3 <- (if (code =? 304)%Z
                then h_setall h2 (map (fun kv => (fst kv, HStr (snd kv)))
                                    (remove_entity_headers h2 [lit "expires"; lit "content-location"]))
                else Ok h2);
      match last_value h (lit "content-length"), rs_body r with
      | None, BSeq l =>
          if rs_autolength r && negb (code =? 304)%Z
          then h_set h3 content_length (HStr (zdec (Z.of_nat (items_len l)))) []
          else Ok h3
      | _, _ => Ok h3
      end.

  (** get_app_iter (responses.py:575-601): what the server can iterate over.  [true]: it
      is wrapped in a ClosingIterator that closes the response. *)
  Inductive app_iter := AEmpty | AEncoded (b : body) | ARaw (b : body).
  Definition get_app_iter (method : str) (r : response) : app_iter :=
    if eqs method (lit "HEAD") || bodyless_status (st_code (rs_status r)) then AEmpty
    else if rs_passthrough r then ARaw (rs_body r)
    else AEncoded (rs_body r).
  (** All that the server gets, and the exception at the end if any; a server is not given
      texts in pass-through mode: TypeError *)
  Fixpoint raw_items (l : list item) (fail : option exn) : list str * option exn :=
    match l with
    | [] => ([], fail)
    | IText _ :: _ => ([], Some TypeError)
    | IBytes b :: l' => let (r, e) := raw_items l' fail in (b :: r, e)
    end.
  Definition chunks (a : app_iter) : list str * option exn :=
    match a with
    | AEmpty => ([], None)
    | AEncoded b => let '(bs, e, _) := encode_items (body_items b) (body_fail b) in (bs, e)
    | ARaw b => raw_items (body_items b) (body_fail b)
    end.
  (** __call__ (responses.py:603-638): status line, headers, iterator *)
  Definition serve (environ : dict str) (r : response) : res (str * headers * app_iter) :=
    do h <- wsgi_headers environ r;
    match dget environ (lit "REQUEST_METHOD") with
    | None => Raise KeyError
    | Some m => Ok (st_line (rs_status r), h, get_app_iter m r)
    end.
End Send.

(** ** make_conditional (responses.py:674-713)
    [now] is http_date(), [date] parse_date, [md5] generate_etag; [None]: out of fuel. *)
Definition finish (x : response * option exn) (k : response -> option (response * option exn)) : option (response * option exn) :=
  match x with (r, None) => k r | (r, Some e) => Some (r, Some e) end.
Definition make_conditional (now : str) (date : str -> option Z) (md5 : str -> str) (fuel : nat) (env : cond_env) (r : response)
    : option (response * option exn) :=
  if eqs (ce_method env) (lit "GET") || eqs (ce_method env) (lit "HEAD")
  then
    finish (if h_contains (rs_headers r) (lit "date") then (r, None) else set_header r (lit "Date") now) (fun r =>
    finish (if rs_autolength r && negb (h_contains (rs_headers r) (lit "content-length"))
            then match calculate_content_length r with
                 | (r', Ok (Some n)) => set_header r' content_length (zdec (Z.of_nat n))
                 | (r', Ok None) => (r', None)
                 | (r', Raise e) => (r', Some e)
                 end
            else (r, None)) (fun r =>
    match is_resource_modified date md5 fuel env (h_get (rs_headers r) (lit "etag")) None
            (match h_get (rs_headers r) (lit "last-modified") with Some s => date s | None => None end) with
    | None => None
    | Some (Raise e) => Some (r, Some e)
    | Some (Ok true) => Some (r, None)
    | Some (Ok false) => Some (with_status r (set_status_code 304), None)
    end))
  else Some (r, None).

(** ** Histories of calls on a response; exceptions are caught by the caller *)
Inductive rop :=
| RSetData (i : item)
| RWrite (i : item)
| RFreeze
| RMakeSequence
| RGetData
| RLength                                  (* calculate_content_length *)
| RStatusCode (z : Z)
| RStatus (s : str)
| RConditional (now : str) (date : str -> option Z) (md5 : str -> str) (fuel : nat) (env : cond_env).
Definition r_step (r : response) (o : rop) : response :=
  match o with
  | RSetData i => fst (set_data r i)
  | RWrite i => fst (stream_write r i)
  | RFreeze => fst (freeze r)
  | RMakeSequence => fst (make_sequence r)
  | RGetData => fst (get_data r)
  | RLength => fst (calculate_content_length r)
  | RStatusCode z => with_status r (set_status_code z)
  | RStatus s => with_status r (fst (set_status (rs_status r) s))
  | RConditional now date md5 fuel env =>
      match make_conditional now date md5 fuel env r with Some (r', _) => r' | None => r end
  end.
Definition r_run (r : response) (ops : list rop) : response := fold_left r_step ops r.
