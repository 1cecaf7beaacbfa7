(** Model of the middlewares and environment helpers of verktyg/wsgi.py and of
    secure_filename of verktyg/utils.py. *)
From Coq Require Import List NArith ZArith Bool.
From Verif Require Import PyStr ModelUrls ModelAuth.
Import ListNotations.
Open Scope N_scope.

Definition SecurityError : exn := OtherError 3.

(** [s.replace(a, b)] for single characters *)
Definition swap_c (a b : N) (s : str) : str := map (fun c => if c =? a then b else c) s.

(** ** DispatcherMiddleware.__call__ (wsgi.py:538-552)
    Applications are numbers.  Returned: the application called, the part of the path
    added to SCRIPT_NAME and the new PATH_INFO.  [None]: the loop did not end within
    [fuel] turns. *)
Fixpoint dispatch_loop (fuel : nat) (mounts : dict nat) (default : nat) (script path_info : str)
    : option (nat * str * str) :=
  match fuel with
  | O => None
  | S f =>
      match rsplit1 47 script with
      | None =>                                   (* while-else: no '/' left *)
          Some (match dget mounts script with Some a => a | None => default end, script, path_info)
      | Some (script', last_item) =>
          match dget mounts script with
          | Some a => Some (a, script, path_info)
          | None => dispatch_loop f mounts default script' (47 :: last_item ++ path_info)
          end
      end
  end.
(** The environment's SCRIPT_NAME and PATH_INFO are set, then the application is called
    with it: returned are the application and the environment it sees. *)
Definition getenv (environ : dict str) (k : str) : str :=
  match dget environ k with Some v => v | None => [] end.
Definition dispatcher (fuel : nat) (mounts : dict nat) (default : nat) (environ : dict str)
    : option (nat * dict str) :=
  match dispatch_loop fuel mounts default (getenv environ (lit "PATH_INFO")) [] with
  | None => None
  | Some (app, script, path_info) =>
      Some (app, dset (dset environ (lit "SCRIPT_NAME") (getenv environ (lit "SCRIPT_NAME") ++ script))
                      (lit "PATH_INFO") path_info)
  end.

(** ** SharedDataMiddleware (wsgi.py:324-520): which file is looked up
    On a POSIX system: os.sep is '/' and os.altsep is None. *)

(** the loaders (wsgi.py:389-399): a file, a directory, or package data *)
Inductive export := EFile (name : str) | EDir (dir : str) | EPackage (dir : str).

(** [os.path.join(a, b)], [posixpath.join] *)
Definition path_join (a b : str) : str :=
  if starts [47] b then b
  else match a with
       | [] => b
       | _ => if ends [47] a then a ++ b else a ++ 47 :: b
       end.
(** [os.path.basename] *)
Definition basename (p : str) : str :=
  match rsplit1 47 p with Some (_, b) => b | None => p end.

(** Calling a loader (wsgi.py:419-457): the names the file system is asked about, and
    the base name with the file to open if there is one.  [exists_ name] answers
    os.path.isfile, or has_resource for package data. *)
Definition load (exists_ : str -> bool) (e : export) (path : option str) : list str * option (str * str) :=
  match e with
  | EFile name => ([], Some (basename name, name))
  | EDir dir =>
      let p := match path with Some r => path_join dir r | None => dir end in
      ([p], if exists_ p then Some (basename p, p) else None)
  | EPackage dir =>
      match path with
      | None => ([], None)
      | Some r => let p := path_join dir r in ([p], if exists_ p then Some (basename p, p) else None)
      end
  end.

(** the cleaned path (wsgi.py:469-478), from the decoded PATH_INFO *)
Definition clean_path (path_info : str) : str :=
  47 :: join [47] (filter (fun x => negb (eqs x []) && negb (eqs x (lit "..")))
                          (split_on 47 (strip_by (N.eqb 47) path_info))).

(** the search (wsgi.py:479-490) *)
Fixpoint find_file (exists_ : str -> bool) (exports : dict export) (path : str) : list str * option (str * str) :=
  match exports with
  | [] => ([], None)
  | (search_path, e) :: rest =>
      let '(asked1, r1) := if eqs search_path path then load exists_ e None else ([], None) in
      match r1 with
      | Some r => (asked1, Some r)
      | None =>
          let sp := if ends [47] search_path then search_path else search_path ++ [47] in
          let '(asked2, r2) := if starts sp path then load exists_ e (Some (skipn (length sp) path)) else ([], None) in
          match r2 with
          | Some r => (asked1 ++ asked2, Some r)
          | None => let (asked3, r3) := find_file exists_ rest path in (asked1 ++ asked2 ++ asked3, r3)
          end
      end
  end.
(** the decision to serve (wsgi.py:491-492): [None] passes the request on.  What is
    sent for a file that is served is in [ModelServe]. *)
Definition shared_data (exists_ : str -> bool) (allowed : str -> bool) (exports : dict export) (path_info : str)
    : list str * option str :=
  let (asked, r) := find_file exists_ exports (clean_path path_info) in
  (asked, match r with
          | Some (real_filename, file) => if allowed real_filename then Some file else None
          | None => None
          end).

(** ** host_is_trusted (wsgi.py:106-139)
    encode_idna returns bytes; names are str, so the sum '.' + ref of line 137 raises
    TypeError. *)
Section Host.
  Variable idna_part : str -> res str.
  Definition normalize_host (hostname : str) : res str :=
    encode_idna idna_part (match rsplit1 58 hostname with Some (a, _) => a | None => hostname end).
  Fixpoint trusted_loop (hostname : str) (trusted : list str) : res bool :=
    match trusted with
    | [] => Ok false
    | ref :: rest =>
        let '(ref, suffix_match) := match ref with
                                    | c :: r => if c =? 46 then (r, true) else (ref, false)
                                    | [] => (ref, false)
                                    end in
        do ref <- normalize_host ref;
        if eqs ref hostname then Ok true
        else if suffix_match then Raise TypeError
        else trusted_loop hostname rest
    end.
  Definition host_is_trusted (hostname : str) (trusted : list str) : res bool :=
    match hostname with
    | [] => Ok false
    | _ => do h <- normalize_host hostname; trusted_loop h trusted
    end.

  (** get_host (wsgi.py:142-172) *)
  Definition get_host (environ : dict str) (trusted : option (list str)) : res str :=
    do rv <- match dget environ (lit "HTTP_X_FORWARDED_HOST") with
             | Some v => Ok (strip (match split1 44 v with Some (a, _) => a | None => v end))
             | None =>
                 match dget environ (lit "HTTP_HOST") with
                 | Some v => Ok v
                 | None =>
                     match dget environ (lit "SERVER_NAME"), dget environ (lit "wsgi.url_scheme"),
                           dget environ (lit "SERVER_PORT") with
                     | Some name, Some scheme, Some port =>
                         if (eqs scheme (lit "https") && eqs port (lit "443"))
                            || (eqs scheme (lit "http") && eqs port (lit "80"))
                         then Ok name else Ok (name ++ 58 :: port)
                     | _, _, _ => Raise KeyError
                     end
                 end
             end;
    match trusted with
    | None => Ok rv
    | Some t => do ok <- host_is_trusted rv t; if ok then Ok rv else Raise SecurityError
    end.
End Host.

(** ** EnvironHeaders (wsgi.py:279-321); values are str *)
Definition content_keys : list str := [lit "CONTENT_TYPE"; lit "CONTENT_LENGTH"].
Definition is_content_key (k : str) : bool := existsb (eqs k) content_keys.
(** [__getitem__] (wsgi.py:291-297) *)
Definition env_getitem (environ : dict str) (key : str) : res str :=
  let key := swap_c 45 95 (upper key) in
  match dget environ (if is_content_key key then key else lit "HTTP_" ++ key) with
  | Some v => Ok v
  | None => Raise KeyError
  end.
(** [__iter__] (wsgi.py:304-318) *)
Definition env_header (k : str) : option str :=
  if starts (lit "HTTP_") k
     && negb (existsb (eqs k) [lit "HTTP_CONTENT_TYPE"; lit "HTTP_CONTENT_LENGTH"])
  then Some (title false (swap_c 95 45 (skipn 5 k)))
  else if is_content_key k then Some (title false (swap_c 95 45 k))
  else None.
Fixpoint env_iter (environ : dict str) : list (str * str) :=
  match environ with
  | [] => []
  | (k, v) :: rest => match env_header k with
                      | Some n => (n, v) :: env_iter rest
                      | None => env_iter rest
                      end
  end.

(** [__len__] (wsgi.py:299-302) *)
Definition env_len (environ : dict str) : nat := length (env_iter environ).

(** ** secure_filename (utils.py:139-182)
    [nfkd] is unicodedata.normalize('NFKD', _); [nt] is os.name == 'nt', where both the
    backslash and the slash are separators. *)
Definition name_char (c : N) : bool := is_ascii_alnum c || (c =? 95) || (c =? 46) || (c =? 45).
Definition device_files : list str :=
  [lit "CON"; lit "AUX"; lit "COM1"; lit "COM2"; lit "COM3"; lit "COM4";
   lit "LPT1"; lit "LPT2"; lit "LPT3"; lit "PRN"; lit "NUL"].
Definition secure_filename (nfkd : str -> str) (nt : bool) (filename : str) : str :=
  let f := filter (fun c => c <? 128) (nfkd filename) in
  let f := swap_c 47 32 (if nt then swap_c 92 32 f else f) in
  let f := strip_by (fun c => (c =? 46) || (c =? 95)) (filter name_char (join [95] (split_ws f))) in
  if nt && negb (eqs f []) && existsb (eqs (upper (hd [] (split_on 46 f)))) device_files
  then 95 :: f else f.
