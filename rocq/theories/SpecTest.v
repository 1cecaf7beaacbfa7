(** Vocabulary of the claims about the tools for tests (C86-C90). *)
From Coq Require Import List NArith ZArith Bool.
From Verif Require Import PyStr Utf8 SpecUrls ModelHeaders SpecHeaders SpecRequest ModelMultiDict ModelStream ModelWsgi ModelRequest ModelTest.
Import ListNotations.
Open Scope N_scope.

(** ** How a receiver reads a multipart body (RFC 2046) *)

(** [s] cut at the first place where [sep] stands *)
Definition cut_at (sep s before after : str) : Prop :=
  s = before ++ sep ++ after /\ forall b a, s = b ++ sep ++ a -> (length before <= length b)%nat.
(** The parts of a body: the lines of their headers and their contents.  A part begins
    after a line with the boundary; its headers end with an empty line; its content ends
    where a line with the boundary begins; after the last part stands a boundary with two
    more dashes. *)
Inductive reads (boundary : str) : str -> list (str * str) -> Prop :=
| reads_end : reads boundary (lit "--" ++ boundary ++ lit "--" ++ [13; 10]) []
| reads_part s head rest content rest' parts :
    cut_at [13; 10; 13; 10] s head rest ->
    cut_at ([13; 10] ++ lit "--" ++ boundary) rest content rest' ->
    reads boundary (lit "--" ++ boundary ++ rest') parts ->
    reads boundary (lit "--" ++ boundary ++ [13; 10] ++ s) ((head, content) :: parts).
(** The part a file should become: its name, file name and type in the headers and what
    it holds, up to the first read that gives nothing, as content. *)
Fixpoint file_content (chunks : list str) : str :=
  match chunks with [] => [] | [] :: _ => [] | c :: cs => c ++ file_content cs end.
Definition file_type (guess : str -> option str) (f : file) : str :=
  match f_ctype f, f_filename f with
  | Some t, _ => t
  | None, Some n => match n, guess n with _ :: _, Some t => t | _, _ => lit "application/octet-stream" end
  | None, None => lit "application/octet-stream"
  end.
Definition file_head (guess : str -> option str) (key : str) (f : file) : str :=
  lit "Content-Disposition: form-data; name=""" ++ key ++ lit """" ++
  match f_filename f with Some n => lit "; filename=""" ++ n ++ lit """" | None => [] end ++
  [13; 10] ++ lit "Content-Type: " ++ file_type guess f.
Definition part_of (guess : str -> option str) (kf : str * file) (part : str * str) : Prop :=
  utf8_encode (file_head guess (fst kf) (snd kf)) = Ok (fst part) /\ snd part = file_content (f_chunks (snd kf)).
Definition one_header_line (s : str) : Prop := ~ In 13 s /\ ~ In 10 s.
(** A file that can be sent with this boundary. *)
Record sendable (guess : str -> option str) (boundary key : str) (f : file) : Prop := {
  sd_key : unicode_text key /\ one_header_line key;
  sd_name : forall n, f_filename f = Some n -> unicode_text n /\ one_header_line n;
  sd_type : unicode_text (file_type guess f) /\ one_header_line (file_type guess f);
  sd_content : forall b a, file_content (f_chunks f) <> b ++ ([13; 10] ++ lit "--" ++ boundary) ++ a }.

(** ** Builders *)

(** What can be done to a builder after it was made. *)
Inductive bop :=
| SetInput (i : option seekable) | SetForm (f : option (mdict fval)) | SetFiles (f : option (mdict file))
| ReadForm | ReadFiles
| SetQuery (q : option query) | SetArgs (a : option (mdict str)) | ReadArgs
| SetType (t : option str) | SetLength (n : option Z).
Definition b_step (b : builder) (o : bop) : builder :=
  match o with
  | SetInput i => set_input_stream b i
  | SetForm f => set_form b f
  | SetFiles f => set_files b f
  | ReadForm => snd (get_form b)
  | ReadFiles => snd (get_files b)
  | SetQuery q => set_query_string b q
  | SetArgs a => set_args b a
  | ReadArgs => snd (get_args b)
  | SetType t => match set_content_type b t with Ok b' => b' | Raise _ => b end
  | SetLength n => match set_content_length b n with Ok b' => b' | Raise _ => b end
  end.
Definition b_run (b : builder) (ops : list bop) : builder := fold_left b_step ops b.
(** Setting one of these replaces the input stream, form and files, or query string and
    arguments. *)
Definition sets_body (o : bop) : Prop := match o with SetInput _ | SetForm _ | SetFiles _ => True | _ => False end.
Definition sets_query (o : bop) : Prop := match o with SetQuery _ | SetArgs _ => True | _ => False end.

(** ** Requests *)

(** The variable of an environ that carries a header. *)
Definition variable_of (name : str) : str := lit "HTTP_" ++ map (fun c => if c =? 45 then 95 else c) (upper name).
(** The environ is one of a request with this method for this address. *)
Record request_for (idna_part : str -> res str) (environ : dict str) (method scheme name host script path query : str) : Prop := {
  rf_method : dget environ (lit "REQUEST_METHOD") = Some method;
  rf_scheme : dget environ (lit "wsgi.url_scheme") = Some scheme;
  rf_host : get_host idna_part environ None = Ok host;
  rf_name : dget environ (lit "SERVER_NAME") = Some name;
  rf_script : req_script_root environ = Ok script;
  rf_path : req_path environ = Ok path;
  rf_query : req_query_string environ = Ok query }.
(** A path in IRI form as an argument, which stands for this text. *)
Definition path_argument (arg text : str) : Prop :=
  (exists r, arg = 47 :: r /\ no_first_slash r) /\ ~ In 63 arg /\ ~ In 35 arg /\ one_line arg /\
  (exists b, stands_for arg b /\ utf8_encode text = Ok b) /\ (exists r, text = 47 :: r /\ no_first_slash r).
(** The arguments ask for this path and this query string. *)
Inductive asks_for : build_args -> str -> str -> Prop :=
| ask_path a path : a_query a = NoQuery -> path_argument (a_path a) path -> asks_for a path []
| ask_inline a arg path query : a_query a = NoQuery -> a_path a = arg ++ 63 :: query -> path_argument arg path ->
    asks_for a path query
| ask_query a path query : a_query a = QueryString (QText query) -> path_argument (a_path a) path -> asks_for a path query.
(** The argument base_url says where the application lives; [script] does not end with a
    slash. *)
Inductive base_for : option str -> str -> str -> str -> str -> Prop :=
| base_none : base_for None (lit "http") (lit "localhost") (lit "localhost") []
| base_bare scheme name host : scheme = lit "http" \/ scheme = lit "https" -> plain_host name host ->
    base_for (Some (scheme ++ lit "://" ++ host)) scheme name host []
| base_url scheme name host arg n script :
    scheme = lit "http" \/ scheme = lit "https" -> plain_host name host ->
    (exists r, arg ++ repeat 47 n = 47 :: r) -> no_final_slash arg -> ~ In 63 arg -> ~ In 35 arg -> ~ In 92 arg -> one_line arg ->
    (exists b, stands_for arg b /\ utf8_encode script = Ok b) -> no_final_slash script ->
    base_for (Some (scheme ++ lit "://" ++ host ++ arg ++ repeat 47 n)) scheme name host script.
(** Neither a header of the arguments nor the environ they start from says something about
    the host. *)
Definition silent_on_host (a : build_args) : Prop :=
  dget (a_environ_base a) (lit "HTTP_X_FORWARDED_HOST") = None /\
  forall k v, In (k, v) (a_headers a) -> variable_of k <> lit "HTTP_HOST" /\ variable_of k <> lit "HTTP_X_FORWARDED_HOST".

(** The arguments carry this data: as bytes, as text, or in a stream, from its position. *)
Inductive carries : build_args -> str -> Prop :=
| carry_bytes a d : a_input a = None -> a_data a = BytesData d -> d <> [] -> carries a d
| carry_text a s d : a_input a = None -> a_data a = TextData s -> d <> [] -> utf8_encode s = Ok d -> carries a d
| carry_stream a i : a_input a = Some i -> a_data a = NoData -> (i_pos i <= length (i_data i))%nat ->
    carries a (skipn (i_pos i) (i_data i)).
(** They carry none, and do not announce any. *)
Record without_data (a : build_args) : Prop := {
  wd_input : a_input a = None; wd_data : a_data a = NoData; wd_type : a_content_type a = None; wd_length : a_content_length a = None;
  wd_header : forall k v, In (k, v) (a_headers a) -> ~ same_name k (lit "Content-Type") }.
(** The values of the headers and the content type are on one line. *)
Definition fit_headers (a : build_args) : Prop :=
  (forall k v, In (k, v) (a_headers a) -> SpecHeaders.one_line (text v)) /\
  (forall t, a_content_type a = Some t -> SpecHeaders.one_line t).

(** ** Applications *)

(** A step that hands over a chunk and does nothing else. *)
Definition chunk_step (b : str) : list act * outcome := ([], Chunk b).
(** An application that behaves: it calls start_response once, either when it is called
    or when it is asked for a chunk; it uses write only right after that; it may fail in
    the end.  [sent] is all it sends, in order. *)
Inductive behaves : app_run -> str -> headers -> list str -> option exn -> Prop :=
| starts_at_once s h written chunks fail closable :
    behaves (mk_app (AStart s h None :: map AWrite written) None
               (map chunk_step chunks ++ match fail with Some e => [([], Fail e)] | None => [] end) closable)
            s h (written ++ chunks) fail
| starts_late s h before written chunk chunks fail closable :
    behaves (mk_app [] None
               (map chunk_step before ++ (AStart s h None :: map AWrite written, Chunk chunk) ::
                map chunk_step chunks ++ match fail with Some e => [([], Fail e)] | None => [] end) closable)
            s h (before ++ written ++ chunk :: chunks) fail.
(** It never uses write. *)
Definition never_writes (a : app_run) : Prop :=
  (forall b, ~ In (AWrite b) (r_call a)) /\ forall l o b, In (l, o) (r_steps a) -> ~ In (AWrite b) l.
(** It calls start_response with these at some time. *)
Definition started (a : app_run) (s : str) (h : headers) : Prop :=
  In (AStart s h None) (r_call a) \/ exists l o, In (l, o) (r_steps a) /\ In (AStart s h None) l.
(** How often its result must be closed *)
Definition closes (a : app_run) : nat := if r_closable a then 1%nat else 0%nat.

(** ** Redirects *)

(** The codes the client follows *)
Definition redirect_code (n : Z) : Prop := In n [301; 302; 303; 305; 307]%Z.
(** The response has this status code and, if that asks for a redirect, this location. *)
Definition says (response : str * headers) (location : str) (code : Z) : Prop :=
  status_number (fst response) = Ok code /\ h_getitem (snd response) (lit "location") = Ok location.
(** The address of a redirect *)
Definition location_for (scheme host arg query : str) : str :=
  scheme ++ lit "://" ++ host ++ arg ++ match query with [] => [] | _ => 63 :: query end.
(** Requests that follow each other, numbered from [n]: each comes from the redirect the
    application answered to the one before. *)
Inductive hops (next : str -> str -> dict str -> res (dict str * under)) (application : nat -> dict str -> str -> res (str * headers)) :
  nat -> dict str -> str * headers -> list (str * Z) -> list (dict str * under) -> dict str -> str * headers -> Prop :=
| hops_none n environ response : hops next application n environ response [] [] environ response
| hops_one n environ response location code r response' chain trail environ' last :
    says response location code -> redirect_code code ->
    next (fst response) location environ = Ok r ->
    application n (fst r) (u_left (snd r)) = Ok response' ->
    hops next application (S n) (fst r) response' chain trail environ' last ->
    hops next application n environ response ((location, code) :: chain) (r :: trail) environ' last.
(** All redirects of the application are among these. *)
Definition within (application : nat -> dict str -> str -> res (str * headers)) (l : list (str * Z)) : Prop :=
  forall n environ body response location code,
    application n environ body = Ok response -> says response location code -> redirect_code code -> In (location, code) l.
