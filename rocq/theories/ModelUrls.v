(** Model of /repo/verktyg/urls.py and of the string transcoding helpers of
    /repo/verktyg/wsgi.py, with the parts of urllib.parse (CPython 3.11) they use.

    Parameters instead of models: the IDNA codec, ipaddress.ip_address and the
    NFKC check of urllib.parse. *)
From Coq Require Import List NArith ZArith Bool.
From Verif Require Import PyStr Utf8.
Import ListNotations.
Open Scope N_scope.

(** ** urllib.parse.quote *)
Definition hex_upper (d : N) : N := if d <? 10 then 48 + d else 55 + d.
(** format string percent, two upper case hexadecimal digits *)
Definition pct (c : N) : str := [37; hex_upper (c / 16); hex_upper (c mod 16)].
(** letters, digits and underscore, dot, dash, tilde *)
Definition always_safe (c : N) : bool := is_ascii_alnum c || mem c (lit "_.-~").
Definition quote_safe (safe : str) (c : N) : bool := (c <? 128) && (always_safe c || mem c safe).
(** urllib.parse.quote_from_bytes *)
Definition quote_byte (safe : str) (c : N) : str := if quote_safe safe c then [c] else pct c.
Definition quote_bytes (safe b : str) : str := flat_map (quote_byte safe) b.
(** urllib.parse.quote of a [str] *)
Definition urlquote (safe s : str) : res str := do b <- utf8_encode s; Ok (quote_bytes safe b).
(** urllib.parse.quote_plus of a [str] *)
Definition urlquote_plus (safe s : str) : res str :=
  do b <- utf8_encode s;
  Ok (map (fun c => if c =? 32 then 43 else c) (quote_bytes (32 :: safe) b)).

(** ** urls.py *)

(** the keys of _hextobyte: two hexadecimal digits (urls.py:16-20) *)
Definition hexval (c : N) : option N :=
  if is_ascii_digit c then Some (c - 48)
  else if between 65 70 c then Some (c - 55)
  else if between 97 102 c then Some (c - 87)
  else None.
Definition hextobyte (a b : N) : option N :=
  match hexval a, hexval b with Some x, Some y => Some (16 * x + y) | _, _ => None end.

(** body of the loop of _safe_urlunquote_to_bytes (urls.py:31-40) *)
Definition unquote_item (unsafe item : str) : str :=
  match item with
  | a :: b :: r =>
      match hextobyte a b with
      | Some c => if mem c unsafe then 37 :: item else c :: r
      | None => 37 :: item
      end
  | _ => 37 :: item
  end.
(** _safe_urlunquote_to_bytes on bytes (urls.py:23-41) *)
Definition safe_unquote_bytes (unsafe s : str) : str :=
  match split_on 37 s with
  | first :: items => first ++ flat_map (unquote_item unsafe) items
  | [] => []
  end.
(** _safe_urlunquote on a [str] (urls.py:44-60); [unsafe] is ASCII at every call *)
Definition safe_unquote (err : on_error) (unsafe s : str) : res str :=
  do b <- utf8_encode s; utf8_decode err (safe_unquote_bytes unsafe b).

(** ** urllib.parse.urlsplit and urlunsplit *)
Record split_result := Split {
  u_scheme : str; u_netloc : str; u_path : str; u_query : str; u_fragment : str }.

Definition is_ascii (s : str) : bool := forallb (fun c => c <? 128) s.
Definition scheme_char (c : N) : bool := is_ascii_alnum c || mem c (lit "+-.").
(** the text before the first of some characters, and the rest *)
Fixpoint cut (p : N -> bool) (s : str) : str * str :=
  match s with
  | [] => ([], [])
  | c :: s' => if p c then ([], s) else let (a, b) := cut p s' in (c :: a, b)
  end.
(** [s.partition(c)] without the separator itself *)
Definition partition (c : N) (s : str) : str * str :=
  match split1 c s with Some (a, b) => (a, b) | None => (s, []) end.

Section Idna.
  (** The IDNA codec on one label: [part.encode('idna')]. *)
  Variable idna_part : str -> res str.
  (** [part.decode('idna')] *)
  Variable idna_decode_part : str -> res str.
  (** _check_bracketed_host accepts *)
  Variable ip_ok : str -> bool.
  (** _checknetloc accepts a netloc that is not ASCII *)
  Variable nfkc_ok : str -> bool.

  (** the text kept for the component split: leading control characters and
      spaces go, then every tab, carriage return and line feed *)
  Definition url_clean (url : str) : str :=
    filter (fun c => negb (mem c [9; 13; 10])) (lstrip_by (fun c => c <=? 32) url).

  Definition split_scheme (url : str) : str * str :=
    match split1 58 url with
    | Some (c :: a, b) =>
        if is_ascii_alpha c && forallb scheme_char (c :: a) then (lower (c :: a), b) else ([], url)
    | _ => ([], url)
    end.

  Definition bracket_ok (netloc : str) : bool :=
    if mem 91 netloc
    then mem 93 netloc && ip_ok (fst (partition 93 (snd (partition 91 netloc))))
    else negb (mem 93 netloc).

  Definition urlsplit (url : str) : res split_result :=
    let url := url_clean url in
    let (scheme, url) := split_scheme url in
    let (netloc, url) :=
      if starts [47; 47] url
      then cut (fun c => mem c [47; 63; 35]) (skipn 2 url)
      else ([], url) in
    let (url, fragment) := partition 35 url in
    let (url, query) := partition 63 url in
    if bracket_ok netloc && (is_ascii netloc || nfkc_ok netloc)
    then Ok (Split scheme netloc url query fragment)
    else Raise ValueError.

  Definition uses_netloc : list str :=
    [lit ""; lit "ftp"; lit "http"; lit "gopher"; lit "nntp"; lit "telnet"; lit "imap"; lit "wais";
     lit "file"; lit "mms"; lit "https"; lit "shttp"; lit "snews"; lit "prospero"; lit "rtsp";
     lit "rtsps"; lit "rtspu"; lit "rsync"; lit "svn"; lit "svn+ssh"; lit "sftp"; lit "nfs";
     lit "git"; lit "git+ssh"; lit "ws"; lit "wss"].
  Definition is_nil (s : str) : bool := match s with [] => true | _ => false end.
  Definition prefix_if (s : str) (pre : str) : str := if is_nil s then [] else pre ++ s.

  Definition urlunsplit (u : split_result) : str :=
    let url := u_path u in
    let url :=
      if negb (is_nil (u_netloc u))
         || (negb (is_nil (u_scheme u)) && existsb (eqs (u_scheme u)) uses_netloc)
         || starts [47; 47] url
      then [47; 47] ++ u_netloc u
           ++ (if negb (is_nil url) && negb (starts [47] url) then 47 :: url else url)
      else url in
    let url := if is_nil (u_scheme u) then url else u_scheme u ++ 58 :: url in
    url ++ prefix_if (u_query u) [63] ++ prefix_if (u_fragment u) [35].

  (** SplitResult.username and .password; [None] when absent *)
  Definition userinfo (netloc : str) : option (str * option str) :=
    match rsplit1 64 netloc with
    | Some (info, _) =>
        Some (match split1 58 info with Some (u, p) => (u, Some p) | None => (info, None) end)
    | None => None
    end.
  (** SplitResult._hostinfo: host name and the text of the port *)
  Definition hostinfo (netloc : str) : str * str :=
    let h := match rsplit1 64 netloc with Some (_, h) => h | None => netloc end in
    match split1 91 h with
    | Some (_, bracketed) =>
        let (hostname, rest) := partition 93 bracketed in (hostname, snd (partition 58 rest))
    | None => partition 58 h
    end.
  (** SplitResult.hostname; empty for [None] *)
  Definition hostname (netloc : str) : str :=
    let h := fst (hostinfo netloc) in
    match split1 37 h with
    | Some (a, zone) => lower a ++ 37 :: zone
    | None => lower h
    end.
  (** SplitResult.port; 0 for [None] (the callers only test its truth) *)
  Definition port (netloc : str) : res N :=
    let p := snd (hostinfo netloc) in
    if is_nil p then Ok 0
    else if forallb is_ascii_digit p
         then (if digits_val p <=? 65535 then Ok (digits_val p) else Raise ValueError)
         else Raise ValueError.

  (** encode_idna on a [str] (urls.py:63-79) *)
  Definition encode_idna (domain : str) : res str :=
    if is_ascii domain then Ok domain
    else
      do parts <- fold_right (fun p acc => do l <- acc; do e <- idna_part p; Ok (e :: l))
                             (Ok []) (split_on 46 domain);
      Ok (join [46] parts).

  (** decode_idna on a [str] (urls.py:81-102) *)
  Definition decode_idna (domain : str) : str :=
    if is_ascii domain
    then join [46] (map (fun p => match idna_decode_part p with Ok d => d | Raise _ => p end)
                        (split_on 46 domain))
    else domain.

  (** the end both conversions share: brackets, port, user info (urls.py:131-157, 178-203) *)
  Definition make_netloc (host : str) (p : N) (auth : option str) : str :=
    let host := if mem 58 host then 91 :: host ++ [93] else host in
    let netloc := if p =? 0 then host else host ++ 58 :: dec p in
    match auth with Some a => a ++ 64 :: netloc | None => netloc end.

  (** user name and password, each converted, when one of them is not empty *)
  Definition convert_auth (conv : str -> res str) (netloc : str) : res (option str) :=
    match userinfo netloc with
    | None => Ok None
    | Some (u, p) =>
        let p := match p with Some p => p | None => [] end in
        if is_nil u && is_nil p then Ok None
        else
          do u' <- (if is_nil u then Ok [] else conv u);
          if is_nil p then Ok (Some u') else do p' <- conv p; Ok (Some (u' ++ 58 :: p'))
    end.

  (** _encode_netloc (urls.py:173-204) *)
  Definition encode_netloc (netloc : str) : res str :=
    do host <- (if is_nil (hostname netloc) then Ok []
                else do h <- encode_idna (hostname netloc);
                     if is_ascii h then Ok h else Raise UnicodeError);
    do p <- port netloc;
    do auth <- convert_auth (urlquote (lit "/:%")) netloc;
    Ok (make_netloc host p auth).

  (** The safe characters of each component (urls.py:232-240). *)
  Definition path_safe : str := lit "/:~+%".
  Definition query_safe : str := lit "%&[]:;$*()+,!?*/=".
  Definition fragment_safe : str := lit "=%&[]:;$()+,!?*/".

  (** iri_to_uri (urls.py:207-244) *)
  Definition iri_to_uri (iri : str) : res str :=
    do u <- urlsplit iri;
    do netloc <- encode_netloc (u_netloc u);
    do path <- urlquote path_safe (u_path u);
    do query <- urlquote query_safe (u_query u);
    do fragment <- urlquote fragment_safe (u_fragment u);
    Ok (urlunsplit (Split (u_scheme u) netloc path query fragment)).

  (** The characters whose escapes uri_to_iri keeps (urls.py:159-167). *)
  Definition path_unsafe : str := lit "%/;?".
  Definition query_unsafe : str := lit "%;/?:@&=+,$#".

  (** uri_to_iri (urls.py:105-170) *)
  Definition uri_to_iri (err : on_error) (uri : str) : res str :=
    do u <- urlsplit uri;
    let host := if is_nil (hostname (u_netloc u)) then [] else decode_idna (hostname (u_netloc u)) in
    do p <- port (u_netloc u);
    do auth <- convert_auth (safe_unquote Strict (lit "/:%")) (u_netloc u);
    do path <- safe_unquote err path_unsafe (u_path u);
    do query <- safe_unquote err query_unsafe (u_query u);
    do fragment <- safe_unquote err query_unsafe (u_fragment u);
    Ok (urlunsplit (Split (u_scheme u) (make_netloc host p auth) path query fragment)).

  (** url_fix with the default charset (urls.py:247-290); [isalpha] knows ASCII letters only *)
  Definition url_fix (s : str) : res str :=
    let s := map (fun c => if c =? 92 then 47 else c) s in
    let r := skipn 7 s in
    let s := if starts (lit "file://") s
                && match r with
                   | c :: r' => is_ascii_alpha c && (starts (lit ":/") r' || starts (lit "|/") r')
                   | [] => false
                   end
             then lit "file:///" ++ r else s in
    do u <- urlsplit s;
    do netloc <- encode_netloc (u_netloc u);
    do path <- urlquote (lit "/%+$!*'(),") (u_path u);
    do qs <- urlquote_plus (lit ":&%=+$!*'(),") (u_query u);
    do anchor <- urlquote_plus (lit ":&%=+$!*'(),") (u_fragment u);
    Ok (urlunsplit (Split (u_scheme u) netloc path qs anchor)).
End Idna.

(** ** wsgi.py transcoding *)

(** wsgi_decoding_dance with charset utf-8 (wsgi.py:32-33) *)
Definition wsgi_decoding_dance (err : on_error) (s : str) : res str :=
  do b <- latin1_encode s; utf8_decode err b.
(** wsgi_encoding_dance of a [str] with charset utf-8 (wsgi.py:36-39) *)
Definition wsgi_encoding_dance (s : str) : res str := utf8_encode s.
(** wsgi_get_bytes (wsgi.py:42-43) *)
Definition wsgi_get_bytes (s : str) : res str := latin1_encode s.
(** get_path_info, get_script_name (wsgi.py:240-276) of a variable of the environ *)
Definition get_environ_text (err : on_error) (environ : dict str) (key : str) : res str :=
  do b <- wsgi_get_bytes (match dget environ key with Some v => v | None => [] end);
  utf8_decode err b.
Definition get_path_info (err : on_error) (environ : dict str) : res str :=
  get_environ_text err environ (lit "PATH_INFO").
Definition get_script_name (err : on_error) (environ : dict str) : res str :=
  get_environ_text err environ (lit "SCRIPT_NAME").
(** get_query_string (wsgi.py:223-237) *)
Definition get_query_string (environ : dict str) : res str :=
  do b <- wsgi_get_bytes (match dget environ (lit "QUERY_STRING") with Some v => v | None => [] end);
  Ok (quote_bytes (lit ":&%=+$!*'(),") b).
