(** * Redirect pages, cached properties, header properties, abort

    verktyg/utils.py, verktyg/exceptions.py. *)
From Coq Require Import Arith List NArith ZArith Bool.
From Verif Require Import PyStr ModelHeaders ModelUrls ModelResponse ModelWsgi.
Import ListNotations.
Open Scope N_scope.

(** ** Redirects *)

(* html.escape, with quotes; used by verktyg/utils.py:203, 215 *)
Definition escape (s : str) : str :=
  replace (lit "'") (lit "&#x27;")
   (replace (lit """") (lit "&quot;")
    (replace (lit ">") (lit "&gt;")
     (replace (lit "<") (lit "&lt;")
      (replace (lit "&") (lit "&amp;") s)))).

(* verktyg/utils.py:209-215, the text of the page *)
Definition page_head : str :=
  lit "<!DOCTYPE HTML PUBLIC ""-//W3C//DTD HTML 3.2 Final//EN"">" ++ [10] ++
  lit "<title>Redirecting...</title>" ++ [10] ++
  lit "<h1>Redirecting...</h1>" ++ [10] ++
  lit "<p>You should be redirected automatically to target URL: " ++
  lit "<a href=""".
Definition page_middle : str := lit """>".
Definition page_foot : str := lit "</a>.  If not click the link.".
Definition redirect_page (location display : str) : str :=
  page_head ++ escape location ++ page_middle ++ display ++ page_foot.

(* verktyg/utils.py:117-136 [get_content_type] *)
Definition get_content_type (mimetype charset : str) : str :=
  if starts (lit "text/") mimetype || eqs mimetype (lit "application/xml")
     || (starts (lit "application/") mimetype && ends (lit "+xml") mimetype)
  then mimetype ++ lit "; charset=" ++ charset
  else mimetype.

(* verktyg/responses.py:161-197 [BaseResponse.__init__] with a text, a status
   code and a mimetype, of the default class (charset utf-8) *)
Definition text_response (text : str) (code : Z) (mimetype : str) : response * option exn :=
  let r := Response [] (set_status_code code) (BSeq []) false [] true true true in
  match set_header r (lit "Content-Type") (get_content_type mimetype (lit "utf-8")) with
  | (r1, None) => set_data r1 (IText text)
  | (r1, Some e) => (r1, Some e)
  end.

Section redirects.
  Variables (idna_part : str -> res str) (ip_ok nfkc_ok : str -> bool).
  (* verktyg/utils.py:185-219 [redirect] of a text *)
  Definition redirect (location : str) (code : Z) : res response :=
    let display := escape location in
    do uri <- iri_to_uri idna_part ip_ok nfkc_ok location;
    match text_response (redirect_page uri display) code (lit "text/html") with
    | (r, Some e) => Raise e
    | (r, None) =>
        match set_header r (lit "Location") uri with
        | (r', None) => Ok r'
        | (_, Some e) => Raise e
        end
    end.
  (* verktyg/utils.py:222-235 [append_slash_redirect] *)
  Definition slash_path (path_info : str) (query : option str) : str :=
    let new_path := strip_by (N.eqb 47) path_info ++ [47] in
    match query with
    | None | Some [] => new_path
    | Some q => new_path ++ [63] ++ q
    end.
  Definition append_slash_redirect (environ : dict str) (code : Z) : res response :=
    match dget environ (lit "PATH_INFO") with
    | None => Raise KeyError
    | Some p => redirect (slash_path p (dget environ (lit "QUERY_STRING"))) code
    end.
End redirects.

(** ** Cached properties

    An object with cached properties, each known by the name under which it is
    stored in the object's dict.  The function of a property may answer
    differently or fail at every call: [func p n] is what it does when the
    functions have been called [n] times before.  It does not itself use the
    property. *)
Section cached.
  Context {V : Type}.
  Variable func : str -> nat -> res V.
  Record cobj := mk_cobj { c_dict : dict V; c_calls : nat }.
  Inductive cop := CRead (p : str) | CAssign (p : str) (v : V) | CDelete (p : str).
  (** What happened: the result of the operation, and whether the function was called *)
  Inductive cev :=
  | ERead (p : str) (v : res V) (called : bool)
  | EAssign (p : str) (v : V)
  | EDelete (p : str) (e : option exn).
  Definition c_step (o : cobj) (op : cop) : cobj * cev :=
    match op with
    (* verktyg/utils.py:59-67 [__get__] *)
    | CRead p =>
        match dget (c_dict o) p with
        | Some v => (o, ERead p (Ok v) false)
        | None =>
            match func p (c_calls o) with
            | Ok v => (mk_cobj (dset (c_dict o) p v) (S (c_calls o)), ERead p (Ok v) true)
            | Raise e => (mk_cobj (c_dict o) (S (c_calls o)), ERead p (Raise e) true)
            end
        end
    (* verktyg/utils.py:56-57 [__set__] *)
    | CAssign p v => (mk_cobj (dset (c_dict o) p v) (c_calls o), EAssign p v)
    (* the [__delete__] of property, which has no deleter *)
    | CDelete p => (o, EDelete p (Some AttributeError))
    end.
  Fixpoint c_run (o : cobj) (ops : list cop) : cobj * list cev :=
    match ops with
    | [] => (o, [])
    | op :: ops' =>
        let '(o1, e) := c_step o op in
        let '(o2, es) := c_run o1 ops' in
        (o2, e :: es)
    end.
End cached.
Arguments cobj : clear implicits.
Arguments cop : clear implicits.
Arguments cev : clear implicits.

(** ** Header properties *)
Section header_property.
  Context {V : Type}.
  (* [load] answers None where the function raises ValueError or TypeError; other
     exceptions are not modelled; [dump] gives what is stored *)
  Record hprop := mk_hprop {
    p_name : str; p_default : V; p_load : str -> option V;
    p_dump : V -> res hval; p_read_only : bool }.
  (* verktyg/utils.py:85-96 [__get__] *)
  Definition hp_get (p : hprop) (h : headers) : V :=
    match h_getitem h (p_name p) with
    | Raise _ => p_default p
    | Ok s => match p_load p s with Some v => v | None => p_default p end
    end.
  (* verktyg/utils.py:98-103 [__set__] *)
  Definition hp_set (p : hprop) (h : headers) (v : V) : headers * option exn :=
    if p_read_only p then (h, Some AttributeError)
    else
      match p_dump p v with
      | Raise e => (h, Some e)
      | Ok x => keep h (h_set h (p_name p) x [])
      end.
  (* verktyg/utils.py:105-108 [__delete__] *)
  Definition hp_delete (p : hprop) (h : headers) : headers * option exn :=
    if p_read_only p then (h, Some AttributeError)
    else keep h (h_pop_name h (p_name p) true).
End header_property.
Arguments hprop : clear implicits.

(* verktyg/responses.py:876 [content_length] and 871 [content_type], 860, 881-892 *)
Definition content_length_property : hprop (option Z) :=
  mk_hprop (lit "Content-Length") None (fun s => option_map Some (py_int s))
    (fun v => match v with Some z => Ok (HStr (zdec z)) | None => Ok (HStr (lit "None")) end) false.
Definition text_property (name : str) : hprop (option str) :=
  mk_hprop name None (fun s => Some (Some s))
    (fun v => match v with Some s => Ok (HStr s) | None => Ok (HStr (lit "None")) end) false.

(** ** Exceptions by status code *)

(* A class: its name, its status code and the classes above it, itself included *)
Record eclass := mk_eclass { k_name : str; k_code : option Z; k_above : list str }.
Definition subclass (a b : eclass) : bool := existsb (eqs (k_name b)) (k_above a).

(* A dict from status codes *)
Fixpoint zget {A} (d : list (Z * A)) (k : Z) : option A :=
  match d with
  | [] => None
  | (k', a) :: d' => if (k =? k')%Z then Some a else zget d' k
  end.
Fixpoint zset {A} (d : list (Z * A)) (k : Z) (a : A) : list (Z * A) :=
  match d with
  | [] => [(k, a)]
  | (k', a') :: d' => if (k =? k')%Z then (k', a) :: d' else (k', a') :: zset d' k a
  end.

(* verktyg/exceptions.py:544-556 [_find_exceptions], over the subclasses of
   HTTPException among the module's names, in order *)
Fixpoint find_exceptions (l : list eclass) (d : list (Z * eclass)) : list (Z * eclass) :=
  match l with
  | [] => d
  | c :: l' =>
      match k_code c with
      | None => find_exceptions l' d
      | Some code =>
          match zget d code with
          | Some old => if subclass c old then find_exceptions l' d
                        else find_exceptions l' (zset d code c)
          | None => find_exceptions l' (zset d code c)
          end
      end
  end.

(* verktyg/exceptions.py:121-537: the classes of the module *)
Definition http_exception : eclass := mk_eclass (lit "HTTPException") None [lit "HTTPException"].
Definition direct (name : str) (code : Z) : eclass :=
  mk_eclass name (Some code) [name; lit "HTTPException"].
Definition bad_request (name : str) : eclass :=
  mk_eclass name (Some 400%Z) [name; lit "BadRequest"; lit "HTTPException"].
Definition module_classes : list eclass :=
  [http_exception; direct (lit "BadRequest") 400; bad_request (lit "ClientDisconnected");
   bad_request (lit "SecurityError"); direct (lit "Unauthorized") 401; direct (lit "Forbidden") 403;
   direct (lit "NotFound") 404; direct (lit "MethodNotAllowed") 405; direct (lit "NotAcceptable") 406;
   direct (lit "RequestTimeout") 408; direct (lit "Conflict") 409; direct (lit "Gone") 410;
   direct (lit "LengthRequired") 411; direct (lit "PreconditionFailed") 412;
   direct (lit "RequestEntityTooLarge") 413; direct (lit "RequestURITooLarge") 414;
   direct (lit "UnsupportedMediaType") 415; direct (lit "RequestedRangeNotSatisfiable") 416;
   direct (lit "ExpectationFailed") 417; direct (lit "ImATeapot") 418;
   direct (lit "UnprocessableEntity") 422; direct (lit "PreconditionRequired") 428;
   direct (lit "TooManyRequests") 429; direct (lit "RequestHeaderFieldsTooLarge") 431;
   direct (lit "InternalServerError") 500; direct (lit "NotImplemented") 501;
   direct (lit "BadGateway") 502; direct (lit "ServiceUnavailable") 503;
   direct (lit "GatewayTimeout") 504; direct (lit "HTTPVersionNotSupported") 505].
Definition default_exceptions : list (Z * eclass) := find_exceptions module_classes [].

(* verktyg/exceptions.py:574-579 [Aborter.__init__] *)
Definition new_aborter (mapping extra : option (list (Z * eclass))) : list (Z * eclass) :=
  let m := match mapping with Some m => m | None => default_exceptions end in
  match extra with
  | None => m
  | Some x => fold_left (fun d kv => zset d (fst kv) (snd kv)) x m
  end.
(* verktyg/exceptions.py:581-586 [Aborter.__call__]: a code that is an int, or some
   other object that is not in the mapping (a response); with or without further
   arguments.  What is raised: an instance of the class made of the arguments, an
   HTTPException around the object, or LookupError. *)
Inductive acode := AInt (z : Z) | AObject (n : nat).
Inductive raised := RClass (c : eclass) | RResponse (n : nat) | RLookupError.
Definition abort (mapping : list (Z * eclass)) (code : acode) (arguments : bool) : raised :=
  match code with
  | AObject n => if arguments then RLookupError else RResponse n
  | AInt z => match zget mapping z with None => RLookupError | Some c => RClass c end
  end.
