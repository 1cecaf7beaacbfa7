(** URLMap.bind_to_environ, and matching what the environ asked for. *)
From Coq Require Import List NArith ZArith Bool.
From Verif Require Import PyStr Utf8 ModelUrls ModelRoute ModelUrlMap.
Import ListNotations.
Open Scope N_scope.

(** ** Names (routing.py:1188-1221)
    str.lower is [lower], exact up to U+00FF. *)
Definition invalid_subdomain : str := lit "<invalid>".
(** routing.py:1209-1221; the current name is in lower case already *)
Definition split_subdomain (server current : str) : str :=
  let cur := split_on 46 current in
  let real := split_on 46 server in
  let n := (length cur - length real)%nat in
  if list_eqb eqs (skipn n cur) real
  then join [46] (filter (fun s => negb (is_nil s)) (firstn n cur))
  else invalid_subdomain.
Definition env_get (environ : dict str) (k : str) : res str :=
  match dget environ k with Some v => Ok v | None => Raise KeyError end.
(** Whether scheme and port are the usual pair (routing.py:1193-1196, 1204-1207) *)
Definition usual_port (scheme port : str) : bool :=
  (eqs scheme (lit "https") && eqs port (lit "443")) || (eqs scheme (lit "http") && eqs port (lit "80")).
(** routing.py:1189-1197 *)
Definition environ_host (environ : dict str) : res str :=
  match dget environ (lit "HTTP_HOST") with
  | Some h => Ok h
  | None =>
      do name <- env_get environ (lit "SERVER_NAME");
      do scheme <- env_get environ (lit "wsgi.url_scheme");
      do port <- env_get environ (lit "SERVER_PORT");
      Ok (if usual_port scheme port then name else name ++ 58 :: port)
  end.
(** routing.py:1200-1209: the same with environ.get, so that a missing name fails later: it
    has no lower() and cannot be added to *)
Definition wsgi_host (environ : dict str) : res str :=
  match dget environ (lit "HTTP_HOST") with
  | Some h => Ok h
  | None =>
      do scheme <- env_get environ (lit "wsgi.url_scheme");
      do port <- env_get environ (lit "SERVER_PORT");
      match dget environ (lit "SERVER_NAME") with
      | Some name => Ok (if usual_port scheme port then name else name ++ 58 :: port)
      | None => if usual_port scheme port then Raise AttributeError else Raise TypeError
      end
  end.
(** The server name and the subdomain given to bind *)
Definition environ_names (hostmatching : bool) (environ : dict str) (server subdomain : option str) : res (str * option str) :=
  match server with
  | None => do h <- environ_host environ; Ok (h, subdomain)
  | Some s =>
      match subdomain with
      | Some _ => Ok (s, subdomain)
      | None =>
          if hostmatching then Ok (s, None)
          else do h <- wsgi_host environ; Ok (lower s, Some (split_subdomain (lower s) (lower h)))
      end
  end.

(** ** The adapter (routing.py:1223-1235, 1257-1270)
    It remembers the path and the query of the environ. *)
Record bound := Bound {
  bd_adapter : adapter;
  bd_path : option str;
  bd_query : option str }.
(** _get_wsgi_string (routing.py:1223-1226) *)
Definition wsgi_string (environ : dict str) (k : str) : res (option str) :=
  match dget environ k with
  | Some v => do t <- wsgi_decoding_dance Replace v; Ok (Some t)
  | None => Ok None
  end.
(** bind_to_environ (routing.py:1158-1235); the environ is a dict of texts, not an object
    with the attribute environ *)
Definition bind_environ (norm : str -> res str) (m : url_map) (environ : dict str) (server subdomain : option str) : res bound :=
  do ns <- environ_names (g_host_matching (m_config m)) environ server subdomain;
  do script <- wsgi_string environ (lit "SCRIPT_NAME");
  do path <- wsgi_string environ (lit "PATH_INFO");
  do query <- wsgi_string environ (lit "QUERY_STRING");
  do scheme <- env_get environ (lit "wsgi.url_scheme");
  do a <- bind_map norm m (fst ns) script (snd ns) scheme;
  Ok (Bound a path query).

(** match without arguments (routing.py:1336-1345): path and query are those of the
    environ; without a path there is nothing to strip slashes from *)
Definition match_bound (ip_ok nfkc_ok : str -> bool) (b : bound) : adapter * res outcome :=
  match bd_path b with
  | None => (update_adapter (bd_adapter b), Raise AttributeError)
  | Some p => match_path ip_ok nfkc_ok (bd_adapter b) p (match bd_query b with Some q => q | None => [] end)
  end.
