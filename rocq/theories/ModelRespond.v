(** Making responses: BaseResponse.__init__, from_app, force_type, the stream of a
    response, freeze of the classes (verktyg/responses.py). *)
From Coq Require Import Arith List NArith ZArith Bool.
From Verif Require Import PyStr Utf8 ModelQuote ModelHeaders ModelUtils ModelResponse ModelMirror.
From Verif Require ModelTest.
Import ListNotations.
Open Scope N_scope.

(** ** Classes
    The class attributes (responses.py:141-159); the charset is UTF-8. *)
Record rclass := RClass {
  cl_status : Z;                    (* default_status *)
  cl_mimetype : option str;         (* default_mimetype *)
  cl_implicit : bool;               (* implicit_sequence_conversion *)
  cl_autolocation : bool;           (* autocorrect_location_header *)
  cl_autolength : bool }.           (* automatically_set_content_length *)
Definition base_class : rclass := RClass 200 (Some (lit "text/plain")) true true true.

(** ** The constructor *)
Inductive status_arg := SNone | SCode (z : Z) | SLine (s : str).
Inductive body_arg := ANone | AData (i : item) | ABody (b : body).
Record rargs := RArgs {
  ra_body : body_arg; ra_status : status_arg; ra_headers : headers;
  ra_mimetype : option str; ra_content_type : option str; ra_passthrough : bool }.
(** responses.py:172-178: the type to be set, if any *)
Definition type_to_set (c : rclass) (a : rargs) : option str :=
  match ra_content_type a with
  | Some t => Some t
  | None =>
      let m := match ra_mimetype a with
               | Some m => Some m
               | None => if h_contains (ra_headers a) (lit "content-type") then None else cl_mimetype c
               end in
      match m with Some m => Some (get_content_type m (lit "utf-8")) | None => None end
  end.
(** responses.py:161-197 [__init__].  A Headers object passed is not copied but changed;
    the result has it as it is afterwards. *)
Definition new_response (c : rclass) (a : rargs) : res response :=
  do h <- match type_to_set c a with
          | Some t => h_set (ra_headers a) (lit "Content-Type") (HStr t) []
          | None => Ok (ra_headers a)
          end;
  do st <- match ra_status a with
           | SNone => Ok (set_status_code (cl_status c))
           | SCode z => Ok (set_status_code z)
           | SLine s => match set_status (Status [] 0) s with (st, None) => Ok st | (_, Some e) => Raise e end
           end;
  let r := Response h st (BSeq []) (ra_passthrough a) [] (cl_implicit c) (cl_autolength c) (cl_autolocation c) in
  match ra_body a with
  | ANone => Ok r
  | AData i => match set_data r i with (r', None) => Ok r' | (_, Some e) => Raise e end
  | ABody b => Ok (with_body r b)
  end.

(** ** Applications as responses *)
(** responses.py:263-279 [from_app].  What [run_wsgi_app] returns is a list if buffered,
    else an iterator; [close] is the number under which the close method of the
    application's result is known. *)
Definition from_app (c : rclass) (close : nat) (a : ModelTest.app_run) (buffered : bool) : res response :=
  match fst (ModelTest.run_wsgi_app a buffered) with
  | Raise e => Raise e
  | Ok x =>
      let items := map IBytes (ModelTest.x_body x) in
      new_response c
        (RArgs (ABody (if buffered then BSeq items
                       else BIter items (ModelTest.x_fail x) (if ModelTest.r_closable a then Some close else None)))
               (SLine (ModelTest.x_status x)) (ModelTest.x_headers x) None None false)
  end.
(** The attributes of the class are those of another class: [r.__class__ = cls] *)
Definition set_class (c : rclass) (r : response) : response :=
  Response (rs_headers r) (rs_status r) (rs_body r) (rs_passthrough r) (rs_on_close r)
    (cl_implicit c) (cl_autolength c) (cl_autolocation c).
(** responses.py:219-261 [force_type], of a response or of an application *)
Inductive forced := FResponse (r : response) | FApp (close : nat) (a : ModelTest.app_run) (environ : bool).
Definition force_type (c : rclass) (x : forced) : res response :=
  match x with
  | FResponse r => Ok (set_class c r)
  | FApp close a environ =>
      if environ then do r <- from_app base_class close a false; Ok (set_class c r) else Raise TypeError
  end.
(** responses.py:603-632 [__call__]: a response as an application.  The result is
    closable but for a sequence, or an iterator without a close method, in pass-through
    mode. *)
Definition app_of (x : res (str * headers * app_iter)) : ModelTest.app_run :=
  match x with
  | Raise e => ModelTest.mk_app [] (Some e) [] false
  | Ok (line, h, it) =>
      let (bs, e) := chunks it in
      ModelTest.mk_app [ModelTest.AStart line h None] None
        (map (fun b => ([], ModelTest.Chunk b)) bs ++ match e with Some e => [([], ModelTest.Fail e)] | None => [] end)
        (match it with ARaw (BSeq _) | ARaw (BIter _ _ None) => false | _ => true end)
  end.

(** ** The stream of a response (responses.py:776-815) *)
Record rstream := RStream { sm_closed : bool; sm_response : response }.
Inductive sop :=
| SWrite (i : item)
| SWriteLines (l : list item)
| SClose
| SFlush
| SIsatty.
Definition sm_write (s : rstream) (i : item) : rstream * option exn :=
  if sm_closed s then (s, Some ValueError)
  else let (r, e) := stream_write (sm_response s) i in (RStream false r, e).
Fixpoint sm_writelines (s : rstream) (l : list item) : rstream * option exn :=
  match l with
  | [] => (s, None)
  | i :: l' => match sm_write s i with
               | (s', None) => sm_writelines s' l'
               | (s', Some e) => (s', Some e)
               end
  end.
Definition s_step (s : rstream) (o : sop) : rstream * option exn :=
  match o with
  | SWrite i => sm_write s i
  | SWriteLines l => sm_writelines s l
  | SClose => (RStream true (sm_response s), None)
  | SFlush | SIsatty => if sm_closed s then (s, Some ValueError) else (s, None)
  end.
(** A history: the stream after it and what came out of each call *)
Fixpoint s_run (s : rstream) (ops : list sop) : rstream * list (option exn) :=
  match ops with
  | [] => (s, [])
  | o :: ops' => let (s1, e) := s_step s o in let (s2, es) := s_run s1 ops' in (s2, e :: es)
  end.

(** ** freeze of the classes
    The classes in the order in which Python looks for a method: of those in the order
    only BaseResponse and ETagResponseMixin have freeze (responses.py:486-494, 730-737). *)
Inductive cname := KBase | KETag | KOther.
(** [kw]: the argument no_etag, if it is passed by name *)
Fixpoint class_freeze (md5 : str -> str) (mro : list cname) (kw : option bool) (r : response) : response * option exn :=
  match mro with
  | [] => (r, Some AttributeError)
  | KOther :: mro' => class_freeze md5 mro' kw r
  | KBase :: _ => match kw with Some _ => (r, Some TypeError) | None => freeze r end
  | KETag :: mro' =>
      match (match kw with Some true => (r, None) | _ => add_etag md5 r false false end) with
      | (r', None) => class_freeze md5 mro' None r'
      | (r', Some e) => (r', Some e)
      end
  end.
(** Response (responses.py:997-1001) *)
Definition response_mro : list cname := [KOther; KBase; KETag; KOther; KOther; KOther].
