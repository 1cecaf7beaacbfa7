(** SharedDataMiddleware: what it sends for a file (verktyg/wsgi.py:380-520).  Which file
    is found is in [ModelWsgi]. *)
From Coq Require Import List NArith ZArith Bool.
From Verif Require Import PyStr ModelWsgi ModelEtag ModelDate ModelMirror.
Import ListNotations.
Open Scope N_scope.

(** zlib.adler32 over bytes (standard library); the mask 0xffffffff of wsgi.py:465 changes
    nothing, as the two sums are below 65536. *)
Fixpoint adler_sums (data : str) (a b : N) : N * N :=
  match data with
  | [] => (a, b)
  | c :: r => let a' := (a + c) mod 65521 in adler_sums r a' ((b + a') mod 65521)
  end.
Definition adler32 (data : str) : N := let (a, b) := adler_sums data 1 0 in b * 65536 + a.

(** What can be opened (wsgi.py:412-417 [_opener] and 441-445): bytes on a disk with the
    time of the last change as utcfromtimestamp gives it, or a stream of a package that is
    not on a disk, for which the time of loading is taken.  Microseconds stand beside. *)
Inductive source :=
| OnDisk (bytes : str) (mtime : datetime) (micro : Z)
| InPackage (bytes : str) (loadtime : datetime) (micro : Z).
(** wsgi.py:412-417, 441-445: (file, mtime, file_size); the file is its bytes *)
Definition opener (s : source) : str * (datetime * Z) * Z :=
  match s with
  | OnDisk b t u => (b, (t, u), Z.of_nat (length b))
  | InPackage b t u => (b, (t, u), 0%Z)
  end.

(** wsgi.py:402-404: the rule in force.  fnmatch takes one pattern; anything else is not a
    path and makes it raise TypeError. *)
Inductive rules := NoRules | Pattern (p : str) | PatternList (ps : list str).

(** The arguments of the constructor (wsgi.py:381-384); the exports are already loaders
    (see [ModelWsgi.export]). *)
Record sdm := SDM { m_exports : dict export; m_disallow : rules; m_cache : bool; m_timeout : Z; m_fallback : str }.

(** What the server gets: status, headers, the file that is wrapped (None for []) and
    whether the middleware has closed the file. *)
Record reply := RP { r_status : str; r_headers : list (str * str); r_body : option str; r_closed : bool }.
Inductive answer := PassedOn | Sent (r : reply).

Section Serve.
  (** fnmatch.fnmatch; mimetypes.guess_type(...)[0]; time.mktime of the fields, which are
      read as local time; encoding a name for the file system; os.path.isfile and
      has_resource; what lies under a name *)
  Variable fnmatch : str -> str -> bool.
  Variable guess_type : str -> option str.
  Variable mktime : datetime -> Z.
  Variable fs_encode : str -> res str.
  Variable exists_ : str -> bool.
  Variable disk : str -> source.

  (** wsgi.py:402-410 [is_allowed] *)
  Definition is_allowed (d : rules) (filename : str) : res bool :=
    match d with
    | NoRules => Ok true
    | Pattern p => Ok (negb (fnmatch filename p))
    | PatternList _ => Raise TypeError
    end.

  (** wsgi.py:459-466 [generate_etag] *)
  Definition generate_etag (mtime : datetime) (file_size : Z) (real_filename : str) : res str :=
    do b <- fs_encode real_filename;
    Ok (lit "wzsdm-" ++ zdec (mktime mtime) ++ lit "-" ++ zdec file_size ++ lit "-" ++ dec (adler32 b)).

  (** wsgi.py:494-495: an empty guess counts as none *)
  Definition mime_type (m : sdm) (real_filename : str) : str :=
    match guess_type real_filename with Some (c :: t) => c :: t | _ => m_fallback m end.

  (** wsgi.py:494-520: sending a file.  [now] is time(), in whole seconds.  [fuel] is for
      reading If-None-Match; None: not ended. *)
  Definition send_file (m : sdm) (now : Z) (fuel : nat) (env : cond_env) (real_filename : str) (s : source)
      : option (res reply) :=
    let '(f, (mtime, micro), file_size) := opener s in
    let finish h :=
      do lm <- http_date (DDatetime mtime None);
      Ok (RP (lit "200 OK")
             (h ++ [(lit "Content-Type", mime_type m real_filename); (lit "Content-Length", zdec file_size);
                    (lit "Last-Modified", lm)]) (Some f) false) in
    match http_date (DNumber now) with
    | Raise e => Some (Raise e)
    | Ok date =>
        let h := [(lit "Date", date)] in
        if m_cache m then
          match generate_etag mtime file_size real_filename with
          | Raise e => Some (Raise e)
          | Ok etag =>
              let h := h ++ [(lit "Etag", 34 :: etag ++ [34]);
                             (lit "Cache-Control", lit "max-age=" ++ zdec (m_timeout m) ++ lit ", public")] in
              match is_resource_modified date_micros (fun d => d) fuel env (Some etag) None
                      (Some (seconds mtime * 1000000 + micro)%Z) with
              | None => None
              | Some (Raise e) => Some (Raise e)
              | Some (Ok false) => Some (Ok (RP (lit "304 Not Modified") h None true))
              | Some (Ok true) =>
                  match http_date (DNumber (now + m_timeout m)) with
                  | Raise e => Some (Raise e)
                  | Ok ex => Some (finish (h ++ [(lit "Expires", ex)]))
                  end
              end
          end
        else Some (finish (h ++ [(lit "Cache-Control", lit "public")]))
    end.

  (** wsgi.py:468-520 [__call__]: the answer, and the files opened *)
  Definition shared_call (m : sdm) (now : Z) (fuel : nat) (env : cond_env) (path_info : str)
      : option (res answer) * list str :=
    match snd (find_file exists_ (m_exports m) (clean_path path_info)) with
    | None => (Some (Ok PassedOn), [])
    | Some (real_filename, file) =>
        match is_allowed (m_disallow m) real_filename with
        | Raise e => (Some (Raise e), [])
        | Ok false => (Some (Ok PassedOn), [])
        | Ok true =>
            (option_map (fun r => do x <- r; Ok (Sent x)) (send_file m now fuel env real_filename (disk file)), [file])
        end
    end.
End Serve.
