(** What a new response says, and what is written to a stream, in plain terms. *)
From Coq Require Import List NArith ZArith Bool.
From Verif Require Import PyStr Utf8 ModelQuote ModelHeaders SpecHeaders ModelResponse SpecResponse ModelRespond.
Import ListNotations.
Open Scope N_scope.

(** Types that get a charset *)
Definition textual (m : str) : Prop :=
  (exists r, m = lit "text/" ++ r) \/ m = lit "application/xml"
  \/ (exists a, m = lit "application/" ++ a /\ exists b, m = b ++ lit "+xml").
(** [t] is how the type [m] is announced *)
Definition announced (m t : str) : Prop :=
  (textual m /\ t = m ++ lit "; charset=utf-8") \/ (~ textual m /\ t = m).
(** Which type a response made of the arguments must have: [None], that of the headers *)
Inductive typed (c : rclass) (a : rargs) : option str -> Prop :=
| ty_given t : ra_content_type a = Some t -> typed c a (Some t)
| ty_mimetype m t : ra_content_type a = None -> ra_mimetype a = Some m -> announced m t -> typed c a (Some t)
| ty_default m t : ra_content_type a = None -> ra_mimetype a = None -> absent (lit "Content-Type") (ra_headers a) ->
    cl_mimetype c = Some m -> announced m t -> typed c a (Some t)
| ty_none : ra_content_type a = None -> ra_mimetype a = None -> absent (lit "Content-Type") (ra_headers a) ->
    cl_mimetype c = None -> typed c a None
| ty_kept : ra_content_type a = None -> ra_mimetype a = None -> ~ absent (lit "Content-Type") (ra_headers a) ->
    typed c a None.
(** The headers of an application's answer as a response of the class has them: only a
    missing type is added, at the end. *)
Inductive relayed (c : rclass) (h : headers) : headers -> Prop :=
| rl_kept : ~ absent (lit "Content-Type") h -> relayed c h h
| rl_none : absent (lit "Content-Type") h -> cl_mimetype c = None -> relayed c h h
| rl_default m t : absent (lit "Content-Type") h -> cl_mimetype c = Some m -> announced m t ->
    relayed c h (h ++ [(lit "Content-Type", t)]).
(** The bytes of the pieces of a body, one by one *)
Definition bytes_of (i : item) (b : str) : Prop :=
  match i with IText s => utf8_encode s = Ok b | IBytes x => b = x end.

(** Everything written before the stream is closed *)
Fixpoint said (ops : list sop) : list item :=
  match ops with
  | [] | SClose :: _ => []
  | SWrite i :: r => i :: said r
  | SWriteLines l :: r => l ++ said r
  | _ :: r => said r
  end.
(** What a call on a stream that has been closed gives *)
Definition when_closed (o : sop) (e : option exn) : Prop :=
  match o with
  | SClose | SWriteLines [] => e = None
  | _ => e = Some ValueError
  end.
(** What comes out of the calls on a stream that is, or is not, closed *)
Inductive answers : bool -> list sop -> list (option exn) -> Prop :=
| an_nil b : answers b [] []
| an_open o ops es : o <> SClose -> answers false ops es -> answers false (o :: ops) (None :: es)
| an_close ops es : answers true ops es -> answers false (SClose :: ops) (None :: es)
| an_closed o ops e es : when_closed o e -> answers true ops es -> answers true (o :: ops) (e :: es).
(** All but body, length and closing is left alone. *)
Definition written_to (r r' : response) : Prop :=
  rs_status r' = rs_status r /\ rs_passthrough r' = rs_passthrough r /\ rs_implicit r' = rs_implicit r
  /\ rs_autolength r' = rs_autolength r /\ rs_autolocation r' = rs_autolocation r.
