(** * Requests

    verktyg/requests.py, get_current_url of verktyg/wsgi.py, and the parts of
    urllib.parse (Python 3.11) that read and write query strings.  An environ is a
    dict of texts; values that are no texts (wsgi.input) are separate arguments. *)
From Coq Require Import Arith List NArith ZArith Bool.
From Verif Require Import PyStr Utf8 ModelUrls ModelMultiDict ModelStream ModelWsgi ModelDate.
Import ListNotations.
Open Scope N_scope.

(** ** urllib.parse *)

(* unquote_to_bytes of an ASCII text, decoded *)
Definition unquote_run (err : on_error) (run : str) : res str :=
  utf8_decode err (safe_unquote_bytes [] run).
(* unquote: the text is cut into runs of ASCII characters, [run] being the current
   one from right to left, and other characters, which stay *)
Fixpoint unquote_runs (err : on_error) (run s : str) : res str :=
  match s with
  | [] => unquote_run err (rev run)
  | c :: s' =>
      if c <? 128 then unquote_runs err (c :: run) s'
      else do a <- unquote_run err (rev run); do r <- unquote_runs err [] s'; Ok (a ++ c :: r)
  end.
Definition unquote (err : on_error) (s : str) : res str :=
  if mem 37 s then unquote_runs err [] s else Ok s.
(* unquote_plus *)
Definition unquote_plus (err : on_error) (s : str) : res str := unquote err (swap_c 43 32 s).
(* one turn of the loop of parse_qsl, without keep_blank_values and strict_parsing *)
Definition qsl_piece (err : on_error) (piece : str) : res (list (str * str)) :=
  let (name, value) := partition 61 piece in
  match value with
  | [] => Ok []
  | _ => do n <- unquote_plus err name; do v <- unquote_plus err value; Ok [(n, v)]
  end.
Definition parse_qsl (err : on_error) (qs : str) : res (list (str * str)) :=
  match qs with
  | [] => Ok []
  | _ => do l <- traverse (qsl_piece err) (split_on 38 qs); Ok (concat l)
  end.
(* urlencode of pairs of texts *)
Definition urlencode (pairs : list (str * str)) : res str :=
  do l <- traverse (fun kv => do k <- urlquote_plus [] (fst kv); do v <- urlquote_plus [] (snd kv);
                              Ok (k ++ 61 :: v)) pairs;
  Ok (join [38] l).

(** ** BaseRequest *)

(* environ.get(key) or '' *)
Definition env_or (environ : dict str) (k : str) : str :=
  match dget environ k with Some v => v | None => [] end.
(* verktyg/requests.py:310-319 [path] *)
Definition req_path (environ : dict str) : res str :=
  do raw <- wsgi_decoding_dance Replace (env_or environ (lit "PATH_INFO"));
  Ok (47 :: lstrip_by (N.eqb 47) raw).
(* verktyg/requests.py:326-333 [script_root] *)
Definition req_script_root (environ : dict str) : res str :=
  do raw <- wsgi_decoding_dance Replace (env_or environ (lit "SCRIPT_NAME"));
  Ok (rstrip_by (N.eqb 47) raw).
(* verktyg/requests.py:380-384 [query_string] *)
Definition req_query_string (environ : dict str) : res str :=
  wsgi_decoding_dance Replace (env_or environ (lit "QUERY_STRING")).
(* verktyg/requests.py:321-324 [full_path] *)
Definition req_full_path (environ : dict str) : res str :=
  do p <- req_path environ; do q <- req_query_string environ; Ok (p ++ 63 :: q).
(* verktyg/requests.py:257-271 [args] *)
Definition req_args (environ : dict str) : res (mdict str) :=
  do qs <- wsgi_decoding_dance Replace (env_or environ (lit "QUERY_STRING"));
  do l <- parse_qsl Replace qs;
  Ok (m_init (SPairs l)).
(* verktyg/requests.py:386-390 [method]; upper case of ASCII letters only *)
Definition req_method (environ : dict str) : str :=
  upper (match dget environ (lit "REQUEST_METHOD") with Some m => m | None => lit "GET" end).
(* verktyg/requests.py:392-402 [access_route] *)
Definition req_access_route (environ : dict str) : list str :=
  match dget environ (lit "HTTP_X_FORWARDED_FOR") with
  | Some v => map strip (split_on 44 v)
  | None => match dget environ (lit "REMOTE_ADDR") with Some a => [a] | None => [] end
  end.
(* verktyg/requests.py:423-432 [is_xhr] *)
Definition req_is_xhr (environ : dict str) : bool :=
  eqs (lower (lower (env_or environ (lit "HTTP_X_REQUESTED_WITH")))) (lit "xmlhttprequest").
(* verktyg/requests.py:434-438 [is_secure]: the value is computed and forgotten;
   None is returned *)
Definition req_is_secure (environ : dict str) : res (option bool) :=
  match dget environ (lit "wsgi.url_scheme") with
  | None => Raise KeyError
  | Some _ => Ok None
  end.
(* verktyg/requests.py:611-620 [max_forwards] *)
Definition req_max_forwards (environ : dict str) : res (option Z) :=
  match dget environ (lit "HTTP_MAX_FORWARDS") with
  | None => Raise TypeError
  | Some v => Ok (py_int v)
  end.
(* verktyg/requests.py:496-504 [if_modified_since], [if_unmodified_since], 603-609 [date] *)
Definition req_date (environ : dict str) (key : str) : res (option datetime) :=
  parse_date (dget environ key).

(** ** The data of a request *)

(* [s_stream] is the cached property [stream], [s_cached] is _cached_data.  The
   input is known by its content and plan, see ModelStream. *)
Record rstate := mk_rstate { s_shallow : bool; s_input : under; s_stream : option input_stream; s_cached : option str }.
Definition new_request (shallow : bool) (input : under) : rstate := mk_rstate shallow input None None.
(* reading a stream to its end *)
Definition read_all (s : input_stream) : res str * input_stream :=
  match s with
  | IRaw u => let (r, u') := u_read (-1) u in (r, IRaw u')
  | IEmpty => (Ok [], IEmpty)
  | ILimited l => let (r, l') := read None l in (r, ILimited l')
  end.
(* verktyg/requests.py:45-50, 237-246 [stream] *)
Definition req_stream (environ : dict str) (terminated : bool) (st : rstate) : res input_stream * rstate :=
  match s_stream st with
  | Some s => (Ok s, st)
  | None =>
      if s_shallow st then (Raise RuntimeError, st)
      else let s := get_input_stream environ terminated (s_input st) true in
           (Ok s, mk_rstate (s_shallow st) (s_input st) (Some s) (s_cached st))
  end.
(* verktyg/requests.py:273-293 [get_data] *)
Definition get_data (environ : dict str) (terminated : bool) (cache as_text : bool) (st : rstate) : res str * rstate :=
  let '(rv, st) :=
    match s_cached st with
    | Some d => (Ok d, st)
    | None =>
        match req_stream environ terminated st with
        | (Raise e, st) => (Raise e, st)
        | (Ok s, st) =>
            let (r, s') := read_all s in
            match r with
            | Raise e => (Raise e, mk_rstate (s_shallow st) (s_input st) (Some s') (s_cached st))
            | Ok d => (Ok d, mk_rstate (s_shallow st) (s_input st) (Some s') (if cache then Some d else None))
            end
        end
    end in
  match rv with
  | Raise e => (Raise e, st)
  | Ok d => (if as_text then utf8_decode Replace d else Ok d, st)
  end.
(* a sequence of calls [get_data(cache, as_text)] *)
Fixpoint get_datas (environ : dict str) (terminated : bool) (calls : list (bool * bool)) (st : rstate) : list (res str) * rstate :=
  match calls with
  | [] => ([], st)
  | (c, t) :: calls' =>
      let '(r, st1) := get_data environ terminated c t st in
      let '(rs, st2) := get_datas environ terminated calls' st1 in
      (r :: rs, st2)
  end.
(* what has been taken from the input *)
Definition input_taken (st : rstate) : str :=
  match s_stream st with
  | Some (IRaw u) => u_taken u
  | Some (ILimited l) => u_taken (l_under l)
  | _ => u_taken (s_input st)
  end.

(** ** verktyg/wsgi.py *)
Section current_url.
  Variables (idna_part idna_decode_part : str -> res str) (ip_ok nfkc_ok : str -> bool).
  (* verktyg/wsgi.py:46-103 [get_current_url] *)
  Definition get_current_url (environ : dict str) (root_only strip_querystring host_only : bool)
      (trusted : option (list str)) : res str :=
    match dget environ (lit "wsgi.url_scheme") with
    | None => Raise KeyError
    | Some scheme =>
        do host <- get_host idna_part environ trusted;
        let start := scheme ++ lit "://" ++ host in
        if host_only then uri_to_iri idna_decode_part ip_ok nfkc_ok Replace (start ++ [47])
        else
          do script <- wsgi_get_bytes (env_or environ (lit "SCRIPT_NAME"));
          let start := start ++ rstrip_by (N.eqb 47) (quote_bytes (lit "/") script) ++ [47] in
          do rest <- (if root_only then Ok []
                      else do path <- wsgi_get_bytes (env_or environ (lit "PATH_INFO"));
                           let path := quote_bytes (lit "/") (lstrip_by (N.eqb 47) path) in
                           if strip_querystring then Ok path
                           else do qs <- get_query_string environ;
                                Ok (path ++ match qs with [] => [] | _ => 63 :: qs end));
          uri_to_iri idna_decode_part ip_ok nfkc_ok Replace (start ++ rest)
    end.
End current_url.
