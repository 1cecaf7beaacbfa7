(** * The tools for tests

    verktyg/test.py: multipart bodies, EnvironBuilder, run_wsgi_app and the redirects of
    Client.  Left out: the cookie jar (http.cookiejar), closing the files of a builder,
    the response wrapper, dicts given as files. *)
From Coq Require Import Arith List NArith ZArith Bool.
From Verif Require Import PyStr Utf8 ModelUrls ModelHeaders ModelMultiDict ModelCombined ModelStream ModelWsgi ModelRequest.
Import ListNotations.
Open Scope N_scope.

Definition ClientRedirectError : exn := OtherError 8.
Definition OutOfFuel : exn := OtherError 99.
Definition CRLF : str := [13; 10].

(** ** Multipart bodies *)

(* An object with a method read: what getattr finds as its file name and content type,
   and what its calls of read return, in order. *)
Record file := mk_file { f_filename : option str; f_ctype : option str; f_chunks : list str }.
(* a value of a form *)
Inductive value := VText (s : str) | VBytes (b : str) | VFile (f : file).
(* the local variables of stream_encode_multipart: what the stream holds, in memory or
   on disk *)
Record mstate := mk_mstate { ms_stream : str; ms_total : N; ms_on_disk : bool }.
Definition ms_empty : mstate := mk_mstate [] 0 false.

Section multipart.
  (* mimetypes.guess_type(filename)[0] *)
  Variable guess : str -> option str.
  Variables (use_tempfile : bool) (threshold : N) (boundary : str).
  (* verktyg/test.py:49-66 [write_binary] of bytes *)
  Definition write_binary (b : str) (st : mstate) : mstate :=
    if use_tempfile then
      if ms_on_disk st then mk_mstate (ms_stream st ++ b) (ms_total st) true
      else
        let len := N.of_nat (length b) in
        mk_mstate (ms_stream st ++ b) (ms_total st + len) (negb (len + ms_total st <=? threshold))
    else mk_mstate (ms_stream st ++ b) (ms_total st) (ms_on_disk st).
  (* verktyg/test.py:68-69 [write], with charset utf-8 *)
  Definition write (s : str) (st : mstate) : res mstate :=
    do b <- utf8_encode s; Ok (write_binary b st).
  (* verktyg/test.py:95-99: read until nothing comes *)
  Fixpoint write_chunks (cs : list str) (st : mstate) : mstate :=
    match cs with
    | [] => st
    | [] :: _ => st
    | c :: cs' => write_chunks cs' (write_binary c st)
    end.
  (* verktyg/test.py:75-107: one value.  Neither kind of stream takes a str. *)
  Definition write_value (key : str) (v : value) (st : mstate) : res mstate :=
    do st <- write (lit "--" ++ boundary ++ CRLF ++ lit "Content-Disposition: form-data; name=""" ++ key ++ lit """") st;
    do st <- match v with
             | VFile f =>
                 let ctype := match f_ctype f with
                              | Some t => Some t
                              | None => match f_filename f with
                                        | Some (c :: n) => guess (c :: n)
                                        | _ => None
                                        end
                              end in
                 let ctype := match ctype with Some t => t | None => lit "application/octet-stream" end in
                 do st <- match f_filename f with
                          | Some n => write (lit "; filename=""" ++ n ++ lit """" ++ CRLF) st
                          | None => write CRLF st
                          end;
                 do st <- write (lit "Content-Type: " ++ ctype ++ CRLF ++ CRLF) st;
                 Ok (write_chunks (f_chunks f) st)
             | VText s =>
                 do st <- write s st;
                 do st <- write (CRLF ++ CRLF) st;
                 Raise TypeError
             | VBytes b =>
                 let st := write_binary b st in
                 do st <- write (CRLF ++ CRLF) st;
                 Ok (write_binary b st)
             end;
    write CRLF st.
  Fixpoint write_values (l : list (str * value)) (st : mstate) : res mstate :=
    match l with
    | [] => Ok st
    | (k, v) :: l' => do st <- write_value k v st; write_values l' st
    end.
  (* verktyg/test.py:35-112 [stream_encode_multipart]: what the stream holds and its
     length; [lists] is values.lists(), [boundary] is given or made up *)
  Definition stream_encode_multipart (lists : list (str * list value)) : res (str * N) :=
    do st <- write_values (flat_map (fun kl => map (fun v => (fst kl, v)) (snd kl)) lists) ms_empty;
    do st <- write (lit "--" ++ boundary ++ lit "--" ++ CRLF) st;
    Ok (ms_stream st, N.of_nat (length (ms_stream st))).
  (* the same lines: whether the stream is a temporary file at the end *)
  Definition multipart_on_disk (lists : list (str * list value)) : res bool :=
    do st <- write_values (flat_map (fun kl => map (fun v => (fst kl, v)) (snd kl)) lists) ms_empty;
    do st <- write (lit "--" ++ boundary ++ lit "--" ++ CRLF) st;
    Ok (ms_on_disk st).
End multipart.
(* verktyg/test.py:115-121 [encode_multipart] *)
Definition encode_multipart (guess : str -> option str) (boundary : str) (lists : list (str * list value)) : res str :=
  do r <- stream_encode_multipart guess false (1024 * 500) boundary lists; Ok (fst r).

(** ** EnvironBuilder *)

(* a seekable stream and its position *)
Record seekable := mk_seekable { i_data : str; i_pos : nat }.
(* a value of the form of a builder *)
Inductive fval := FText (s : str) | FBytes (b : str).
Inductive query := QText (s : str) | QBytes (b : str).
(* The attributes of a builder.  The streams of errors and the flags multithread,
   multiprocess and run_once are left out; [b_query] and the three after [b_headers] are
   the attributes with an underscore. *)
Record builder := mk_builder {
  b_path : str; b_scheme : str; b_host : str; b_script : str;
  b_query : option query; b_args : option (mdict str);
  b_method : str; b_headers : headers;
  b_input : option seekable; b_form : option (mdict fval); b_files : option (mdict file);
  b_base : dict str; b_overrides : dict str }.

(* verktyg/test.py:485-514 [query_string], [args] *)
Definition set_query_string (b : builder) (q : option query) : builder :=
  mk_builder (b_path b) (b_scheme b) (b_host b) (b_script b) q None (b_method b) (b_headers b)
    (b_input b) (b_form b) (b_files b) (b_base b) (b_overrides b).
Definition set_args (b : builder) (a : option (mdict str)) : builder :=
  mk_builder (b_path b) (b_scheme b) (b_host b) (b_script b) None a (b_method b) (b_headers b)
    (b_input b) (b_form b) (b_files b) (b_base b) (b_overrides b).
Definition get_args (b : builder) : res (mdict str) * builder :=
  match b_query b with
  | Some _ => (Raise AttributeError, b)
  | None => match b_args b with
            | Some a => (Ok a, b)
            | None => (Ok [], set_args b (Some []))
            end
  end.
(* urlencode of a MultiDict: it has items(), the first value of each key *)
Definition get_query (b : builder) : res query :=
  match b_query b with
  | Some q => Ok q
  | None => match b_args b with
            | Some a => do l <- m_items a; do q <- urlencode l; Ok (QText q)
            | None => Ok (QText [])
            end
  end.
(* verktyg/test.py:448-483 [form], [files], [input_stream] *)
Definition set_input_stream (b : builder) (i : option seekable) : builder :=
  mk_builder (b_path b) (b_scheme b) (b_host b) (b_script b) (b_query b) (b_args b) (b_method b) (b_headers b)
    i None None (b_base b) (b_overrides b).
Definition set_form (b : builder) (f : option (mdict fval)) : builder :=
  mk_builder (b_path b) (b_scheme b) (b_host b) (b_script b) (b_query b) (b_args b) (b_method b) (b_headers b)
    None f (b_files b) (b_base b) (b_overrides b).
Definition set_files (b : builder) (f : option (mdict file)) : builder :=
  mk_builder (b_path b) (b_scheme b) (b_host b) (b_script b) (b_query b) (b_args b) (b_method b) (b_headers b)
    None (b_form b) f (b_base b) (b_overrides b).
Definition get_form (b : builder) : res (mdict fval) * builder :=
  match b_input b with
  | Some _ => (Raise AttributeError, b)
  | None => match b_form b with Some f => (Ok f, b) | None => (Ok [], set_form b (Some [])) end
  end.
Definition get_files (b : builder) : res (mdict file) * builder :=
  match b_input b with
  | Some _ => (Raise AttributeError, b)
  | None => match b_files b with Some f => (Ok f, b) | None => (Ok [], set_files b (Some [])) end
  end.
Definition set_headers (b : builder) (h : headers) : builder :=
  mk_builder (b_path b) (b_scheme b) (b_host b) (b_script b) (b_query b) (b_args b) (b_method b) h
    (b_input b) (b_form b) (b_files b) (b_base b) (b_overrides b).
(* verktyg/test.py:411-425 [content_type] *)
Definition get_content_type (b : builder) : option str :=
  match h_get (b_headers b) (lit "Content-Type"), b_input b with
  | None, None =>
      match b_files b, b_form b with
      | Some (_ :: _), _ => Some (lit "multipart/form-data")
      | _, Some (_ :: _) => Some (lit "application/x-www-form-urlencoded")
      | _, _ => None
      end
  | ct, _ => ct
  end.
Definition set_content_type (b : builder) (v : option str) : res builder :=
  do h <- match v with
          | None => h_pop_name (b_headers b) (lit "Content-Type") true
          | Some v => h_set (b_headers b) (lit "Content-Type") (HStr v) []
          end;
  Ok (set_headers b h).
(* verktyg/test.py:433-440 [content_length] *)
Definition get_length (b : builder) : option Z :=
  match h_get (b_headers b) (lit "Content-Length") with Some v => py_int v | None => None end.
Definition set_content_length (b : builder) (v : option Z) : res builder :=
  do h <- match v with
          | None => h_pop_name (b_headers b) (lit "Content-Length") true
          | Some v => h_set (b_headers b) (lit "Content-Length") (HStr (zdec v)) []
          end;
  Ok (set_headers b h).
(* verktyg/test.py:516-529 [server_name], [server_port] *)
Definition b_server_name (b : builder) : str :=
  match split1 58 (b_host b) with Some (a, _) => a | None => b_host b end.
Definition b_server_port (b : builder) : res Z :=
  let default := if eqs (b_scheme b) (lit "https") then 443%Z else 80%Z in
  match split1 58 (b_host b) with
  | Some (_, p) =>
      if isdigit p then match py_int p with Some n => Ok n | None => Raise ValueError end else Ok default
  | None => Ok default
  end.

(* the argument data: a str, bytes, or the pairs _iter_data yields (verktyg/test.py:184-199) *)
Inductive upload :=
| UFile (name : option str) (chunks : list str)      (* a file with this attribute name *)
| UStorage (f : file).                               (* a FileStorage *)
Inductive dvalue :=
| DText (s : str) | DBytes (b : str)
| DUpload (u : upload)
| DTuple (u : upload) (filename ctype : option str).
Inductive data := NoData | TextData (s : str) | BytesData (b : str) | Fields (l : list (str * dvalue)).
Inductive query_arg := NoQuery | QueryString (q : query) | QueryDict (s : @source str).
Record build_args := mk_args {
  a_path : str; a_base_url : option str; a_query : query_arg; a_method : str; a_input : option seekable;
  a_content_type : option str; a_content_length : option Z; a_headers : list (str * hval); a_data : data;
  a_environ_base : dict str; a_overrides : dict str }.
(* the defaults of the constructor, verktyg/test.py:317-323 *)
Definition plain_args (path : str) : build_args :=
  mk_args path None NoQuery (lit "GET") None None None [] NoData [] [].

Section builder.
  Variable guess : str -> option str.
  Variables (idna_part : str -> res str) (ip_ok nfkc_ok : str -> bool).

  (* verktyg/http/basic.py:853-865: the file name of a FileStorage; names are texts *)
  Definition storage_name (filename stream_name : option str) : option str :=
    match filename with
    | Some n => Some n
    | None =>
        match stream_name with
        | Some (c :: n) => if (c =? 60) && (last (c :: n) 0 =? 62) then None else Some (c :: n)
        | other => other
        end
    end.
  (* verktyg/test.py:208-234 [add_file] of a file object or a FileStorage.  Setting the
     header of the FileStorage refuses line breaks (verktyg/http/basic.py:871-872). *)
  Definition add_file (d : mdict file) (key : str) (u : upload) (filename ctype : option str) : res (mdict file) :=
    match u with
    | UStorage f => Ok (m_add d key f)
    | UFile name chunks =>
        let ctype := match ctype, filename with
                     | Some t, _ => Some t
                     | None, Some (c :: n) => guess (c :: n)
                     | None, _ => None
                     end in
        let ctype := match ctype with Some t => t | None => lit "application/octet-stream" end in
        if validate_value ctype
        then Ok (m_add d key (mk_file (storage_name filename name) (Some ctype) chunks))
        else Raise ValueError
    end.
  (* verktyg/test.py:369-383: one pair of the data *)
  Definition add_field (b : builder) (key : str) (v : dvalue) : res builder :=
    let form_add x :=
      let '(f, b) := get_form b in do f <- f; Ok (set_form b (Some (m_add f key x))) in
    let files_add u n t :=
      let '(f, b) := get_files b in do f <- f; do f <- add_file f key u n t; Ok (set_files b (Some f)) in
    match v with
    | DText s => form_add (FText s)
    | DBytes x => form_add (FBytes x)
    | DUpload u => files_add u None None
    | DTuple u n t => files_add u n t
    end.
  Fixpoint add_fields (b : builder) (l : list (str * dvalue)) : res builder :=
    match l with
    | [] => Ok b
    | (k, v) :: l' => do b <- add_field b k v; add_fields b l'
    end.
  (* verktyg/test.py:390-403: setting base_url; scheme, host and script root *)
  Definition split_base_url (value : option str) : res (str * str * str) :=
    match value with
    | None => Ok (lit "http", lit "localhost", [])
    | Some v =>
        do u <- urlsplit ip_ok nfkc_ok v;
        match u_query u, u_fragment u with
        | [], [] => Ok (u_scheme u, u_netloc u, rstrip_by (N.eqb 47) (u_path u))
        | _, _ => Raise ValueError
        end
    end.
  (* verktyg/test.py:359-376: the argument data *)
  Definition add_data (b : builder) (input : option seekable) (d : data) : res builder :=
    let bytes_data (x : str) :=
      match x with
      | [] => Ok b
      | _ => match input with
             | Some _ => Raise TypeError
             | None =>
                 let b := set_input_stream b (Some (mk_seekable x 0)) in
                 match get_length b with
                 | Some _ => Ok b
                 | None => set_content_length b (Some (Z.of_nat (length x)))
                 end
             end
      end in
    match d with
    | NoData => Ok b
    | BytesData x => bytes_data x
    | TextData s =>
        match s, input with
        | _ :: _, Some _ => Raise TypeError
        | _, _ => do x <- utf8_encode s; bytes_data x
        end
    | Fields [] => Ok b
    | Fields l => match input with Some _ => Raise TypeError | None => add_fields b l end
    end.
  (* verktyg/test.py:324-325: the query string may stand in the path *)
  Definition split_args (a : build_args) : str * query_arg :=
    match a_query a, split1 63 (a_path a) with
    | NoQuery, Some (p, q) => (p, QueryString (QText q))
    | q, _ => (a_path a, q)
    end.
  (* verktyg/test.py:331-338: the attributes _query_string and _args *)
  Definition query_of (q : query_arg) : option query * option (mdict str) :=
    match q with NoQuery => (None, Some []) | QueryString q => (Some q, None) | QueryDict s => (None, Some (m_init s)) end.
  (* verktyg/test.py:317-376 [__init__], with charset utf-8; the headers are given as a dict
     or an iterator of pairs (a list is copied without a check of the values) *)
  Definition new_builder (a : build_args) : res builder :=
    let '(path, query) := split_args a in
    do uri <- iri_to_uri idna_part ip_ok nfkc_ok path;
    do base <- match a_base_url a with
               | None => Ok None
               | Some u => do u <- url_fix idna_part ip_ok nfkc_ok u; Ok (Some u)
               end;
    do base <- split_base_url base;
    let '(scheme, host, script) := base in
    let '(q, args) := query_of query in
    let '(h, bad) := h_init_pairs (a_headers a) in
    do h <- match bad with Some e => Raise e | None => Ok h end;
    let b := mk_builder uri scheme host script q args (a_method a) h (a_input a) None None
               (a_environ_base a) (a_overrides a) in
    do b <- match a_content_type a with None => Ok b | t => set_content_type b t end;
    do b <- set_content_length b (a_content_length a);
    add_data b (a_input a) (a_data a).

  (* verktyg/test.py:585-588 [_path_encode] *)
  Definition path_encode (x : str) : res str := do t <- unquote Replace x; wsgi_encoding_dance t.
  (* urlencode of a form; a value may be bytes *)
  Definition form_urlencode (f : mdict fval) : res str :=
    do l <- m_items f;
    do l <- traverse (fun kv : str * fval =>
              do k <- urlquote_plus [] (fst kv);
              do v <- match snd kv with
                      | FText s => urlquote_plus [] s
                      | FBytes b => Ok (swap_c 32 43 (quote_bytes (lit " ") b))
                      end;
              Ok (k ++ 61 :: v)) l;
    Ok (join [38] l).
  Definition fval_value (v : fval) : value := match v with FText s => VText s | FBytes b => VBytes b end.
  Definition or_empty {V} (d : option (mdict V)) : mdict V := match d with Some d => d | None => [] end.
  (* CombinedMultiDict([form, files]).lists() *)
  Definition form_lists (b : builder) : list (str * list value) :=
    c_lists [map (fun kl => (fst kl, map fval_value (snd kl))) (or_empty (b_form b));
             map (fun kl => (fst kl, map VFile (snd kl))) (or_empty (b_files b))].
  (* verktyg/test.py:557-579: the input, its length and its type.  [boundary] is the
     boundary made up for a multipart body. *)
  Definition request_body (boundary : str) (b : builder) : res (str * option Z * option str) :=
    match b_input b with
    | Some i => Ok (skipn (i_pos i) (i_data i), Some (Z.of_nat (length (i_data i)) - Z.of_nat (i_pos i))%Z, get_content_type b)
    | None =>
        match get_content_type b with
        | Some t =>
            if eqs t (lit "multipart/form-data") then
              do r <- stream_encode_multipart guess true (1024 * 500) boundary (form_lists b);
              Ok (fst r, Some (Z.of_N (snd r)), Some (t ++ lit "; boundary=""" ++ boundary ++ lit """"))
            else if eqs t (lit "application/x-www-form-urlencoded") then
              do v <- form_urlencode (or_empty (b_form b));
              Ok (v, Some (Z.of_nat (length v)), Some t)
            else Ok ([], get_length b, Some t)
        | None => Ok ([], get_length b, None)
        end
    end.
  Definition length_text (n : option Z) : str :=
    match n with Some 0%Z | None => lit "0" | Some n => zdec n end.
  (* verktyg/test.py:611-612: the header variables *)
  Definition header_key (k : str) : str := lit "HTTP_" ++ swap_c 45 95 (upper k).
  Definition put_headers (environ : dict str) (h : headers) : dict str :=
    fold_left (fun e kv => dset e (header_key (fst kv)) (snd kv)) h environ.
  (* verktyg/test.py:555-615 [get_environ]: the variables that are texts, and wsgi.input *)
  Definition get_environ (boundary : str) (b : builder) : res (dict str * under) :=
    do body <- request_body boundary b;
    let '(input, len, ctype) := body in
    do q <- get_query b;
    do qs <- match q with QText s => wsgi_encoding_dance s | QBytes x => Ok x end;
    do script <- path_encode (b_script b);
    do path <- path_encode (b_path b);
    do port <- b_server_port b;
    let result := d_update (d_update [] (b_base b))
      [(lit "REQUEST_METHOD", b_method b); (lit "SCRIPT_NAME", script); (lit "PATH_INFO", path);
       (lit "QUERY_STRING", qs); (lit "SERVER_NAME", b_server_name b); (lit "SERVER_PORT", zdec port);
       (lit "HTTP_HOST", b_host b); (lit "SERVER_PROTOCOL", lit "HTTP/1.1");
       (lit "CONTENT_TYPE", match ctype with Some t => t | None => [] end); (lit "CONTENT_LENGTH", length_text len);
       (lit "wsgi.url_scheme", b_scheme b)] in
    Ok (d_update (put_headers result (b_headers b)) (b_overrides b), mkUnder [] input []).
  (* verktyg/test.py:867-886 [create_environ] *)
  Definition create_environ (boundary : str) (a : build_args) : res (dict str * under) :=
    do b <- new_builder a; get_environ boundary b.
End builder.

(** ** run_wsgi_app *)

(* What an application does: call start_response, perhaps with exc_info, or the function
   write it got. *)
Inductive act := AStart (status : str) (h : headers) (exc : option exn) | AWrite (b : str).
(* A call of next: what happens, and then a chunk, the end or an exception. *)
Inductive outcome := Chunk (b : str) | End_ | Fail (e : exn).
(* The whole run of an application: the call, which may raise; then, if iteration goes
   on, the steps of its iterator; after the last step comes the end. *)
Record app_run := mk_app {
  r_call : list act; r_fail : option exn;
  r_steps : list (list act * outcome);
  r_closable : bool   (* the object returned has a method close *) }.
Record wstate := mk_wstate { w_response : option (str * headers); w_buffer : list str }.

(* verktyg/test.py:914-921 [start_response]; with exc_info it raises that exception.
   There is no function write before start_response returned it. *)
Definition perform (a : act) (st : wstate) : res wstate :=
  match a with
  | AStart _ _ (Some e) => Raise e
  | AStart s h None => Ok (mk_wstate (Some (s, h)) (w_buffer st))
  | AWrite b => match w_response st with
                | Some _ => Ok (mk_wstate (w_response st) (w_buffer st ++ [b]))
                | None => Raise TypeError
                end
  end.
Fixpoint performs (l : list act) (st : wstate) : res wstate :=
  match l with [] => Ok st | a :: l' => do st <- perform a st; performs l' st end.
(* list(app_iter), or reading the rest of it: the chunks, how it ended, and the state *)
Fixpoint drain (steps : list (list act * outcome)) (st : wstate) : list str * option exn * wstate :=
  match steps with
  | [] => ([], None, st)
  | (l, o) :: steps' =>
      match performs l st with
      | Raise e => ([], Some e, st)
      | Ok st =>
          match o with
          | Chunk b => let '(bs, e, st) := drain steps' st in (b :: bs, e, st)
          | End_ => ([], None, st)
          | Fail e => ([], Some e, st)
          end
      end
  end.
(* verktyg/test.py:941-942: ask until there is a response *)
Fixpoint await (steps : list (list act * outcome)) (st : wstate) : res (list (list act * outcome) * wstate) :=
  match w_response st with
  | Some _ => Ok (steps, st)
  | None =>
      match steps with
      | [] => Raise StopIteration
      | (l, o) :: steps' =>
          do st <- performs l st;
          match o with
          | Chunk b => await steps' (mk_wstate (w_response st) (w_buffer st ++ [b]))
          | End_ => Raise StopIteration
          | Fail e => Raise e
          end
      end
  end.
(* What whoever calls run_wsgi_app gets in the end: they read the iterator returned to
   its end and close it if it can be closed.  [x_closed] counts the calls of the method
   close of the application, [x_fail] is the exception they see while reading. *)
Record seen := mk_seen { x_status : str; x_headers : headers; x_body : list str; x_fail : option exn }.
(* verktyg/test.py:889-948 [run_wsgi_app] *)
Definition run_wsgi_app (a : app_run) (buffered : bool) : res seen * nat :=
  let once := if r_closable a then 1%nat else 0%nat in
  match performs (r_call a) (mk_wstate None []) with
  | Raise e => (Raise e, 0%nat)
  | Ok st =>
      match r_fail a with
      | Some e => (Raise e, 0%nat)
      | None =>
          if buffered then
            let '(bs, e, st) := drain (r_steps a) st in
            match e, w_response st with
            | Some e, _ => (Raise e, once)
            | None, None => (Raise IndexError, once)
            | None, Some (s, h) => (Ok (mk_seen s h bs None), once)
            end
          else
            match await (r_steps a) st with
            | Raise e => (Raise e, 0%nat)
            | Ok (steps, st) =>
                match w_response st with
                | None => (Raise IndexError, 0%nat)
                | Some (s, h) =>
                    (* the rest is read when the caller asks for it; what is written then
                       goes to a list nobody reads any more *)
                    let '(bs, e, _) := drain steps st in
                    (Ok (mk_seen s h (w_buffer st ++ bs) e), once)
                end
            end
      end
  end.

(** ** Client *)

(* verktyg/test.py:718-719 *)
Definition server_labels (before_first : bool) (host : str) : list str :=
  split_on 46 (match (if before_first then split1 58 host else rsplit1 58 host) with Some (a, _) => a | None => host end).
(* int(status.split(None, 1)[0]) *)
Definition status_number (status : str) : res Z :=
  match split_ws status with
  | [] => Raise IndexError
  | w :: _ => match py_int w with Some n => Ok n | None => Raise ValueError end
  end.
Definition is_redirect (code : Z) : bool := existsb (Z.eqb code) [301; 302; 303; 305; 307]%Z.
Section client.
  Variable guess : str -> option str.
  Variables (idna_part : str -> res str) (ip_ok nfkc_ok : str -> bool).
  (* The application: what it answers to the request with this number, environ and input,
     status and headers.  It may raise.  The client has no cookies. *)
  Variable application : nat -> dict str -> str -> res (str * headers).
  Definition request_of (n : nat) (r : dict str * under) : res (str * headers) := application n (fst r) (u_left (snd r)).
  (* verktyg/test.py:709-749 [resolve_redirect]: the environ of the next request; lists
     have no method endswith *)
  Definition redirect_environ (allow_subdomain : bool) (status location : str) (environ : dict str) : res (dict str * under) :=
    do u <- urlsplit ip_ok nfkc_ok location;
    let base_url := rstrip_by (N.eqb 47) (urlunsplit (Split (u_scheme u) (u_netloc u) [] [] [])) ++ [47] in
    do real <- get_host idna_part environ None;
    do allowed <- (if allow_subdomain then Raise AttributeError
                   else Ok (if list_eq_dec (list_eq_dec N.eq_dec) (server_labels true (u_netloc u)) (server_labels false real)
                            then true else false));
    if negb allowed then Raise RuntimeError
    else
      do code <- status_number status;
      do method <- (if (code =? 307)%Z
                    then match dget environ (lit "REQUEST_METHOD") with Some m => Ok m | None => Raise KeyError end
                    else Ok (lit "GET"));
      create_environ guess idna_part ip_ok nfkc_ok []
        (mk_args (u_path u) (Some base_url) (QueryString (QText (u_query u))) method None None None [] NoData [] []).
  (* verktyg/test.py:795-812: the loop of [open] with follow_redirects.  [trail] are the
     environs of the requests made so far; the inner calls of open do not
     follow redirects.  [None]: it goes on after [fuel] more redirects. *)
  Fixpoint follow (fuel : nat) (allow_subdomain : bool) (environ : dict str) (response : str * headers)
      (chain : list (str * Z)) (trail : list (dict str * under)) : option (res (dict str * (str * headers))) * list (str * Z) * list (dict str * under) :=
    let stop r := (Some r, chain, trail) in
    match status_number (fst response) with
    | Raise e => stop (Raise e)
    | Ok code =>
        if negb (is_redirect code) then stop (Ok (environ, response))
        else
          match h_getitem (snd response) (lit "location") with
          | Raise e => stop (Raise e)
          | Ok location =>
              if existsb (fun lc => eqs (fst lc) location && (snd lc =? code)%Z) chain
              then stop (Raise ClientRedirectError)
              else
                let chain := chain ++ [(location, code)] in
                match redirect_environ allow_subdomain (fst response) location environ with
                | Raise e => (Some (Raise e), chain, trail)
                | Ok r =>
                    match request_of (length trail) r with
                    | Raise e => (Some (Raise e), chain, trail ++ [r])
                    | Ok response =>
                        match fuel with
                        | O => (None, chain, trail ++ [r])
                        | S fuel => follow fuel allow_subdomain (fst r) response chain (trail ++ [r])
                        end
                    end
                end
          end
    end.
  (* verktyg/test.py:751-818 [open] of an environ *)
  Definition client_open (fuel : nat) (allow_subdomain follow_redirects : bool) (r : dict str * under)
      : option (res (dict str * (str * headers))) * list (str * Z) * list (dict str * under) :=
    match request_of 0 r with
    | Raise e => (Some (Raise e), [], [r])
    | Ok response =>
        if follow_redirects then follow fuel allow_subdomain (fst r) response [] [r]
        else match status_number (fst response) with
             | Raise e => (Some (Raise e), [], [r])
             | Ok _ => (Some (Ok (fst r, response)), [], [r])
             end
    end.
End client.
