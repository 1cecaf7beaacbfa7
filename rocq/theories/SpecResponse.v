(** Specification vocabulary for responses. *)
From Coq Require Import List NArith ZArith Bool.
From Verif Require Import PyStr SpecHeaders SpecEtag ModelHeaders ModelResponse.
Import ListNotations.
Open Scope N_scope.

(** ** Status *)
(** The first word of a line is a number. *)
Definition numbered (line : str) (code : Z) : Prop :=
  exists a w b, line = a ++ w ++ b /\ blank a /\ Forall (fun c => is_space c = false) w /\
    (b = [] \/ exists c b', b = c :: b' /\ is_space c = true) /\ py_int w = Some code.

(** ** Bodies *)
Definition ascii_text (s : str) : Prop := Forall (fun c => c < 128) s.
(** A piece whose length can be told without encoding it. *)
Definition plain (i : item) : Prop := match i with IText s => ascii_text s | IBytes _ => True end.
Definition plain_call (o : rop) : Prop := match o with RWrite i => plain i | _ => True end.
(** A response as its constructor leaves it: no length has been announced. *)
Definition fresh (r : response) : Prop :=
  absent (lit "Content-Length") (rs_headers r) /\ match rs_body r with BSeq l => Forall plain l | BIter _ _ _ => True end.
(** Status codes after which no body is sent. *)
Definition informational (code : Z) : Prop := (100 <= code <= 199)%Z.
Definition bodyless (code : Z) : Prop := informational code \/ code = 204%Z \/ code = 304%Z.

(** ** The standard status lines *)
Definition standard_lines : list (Z * str) :=
  [(100%Z, lit "100 CONTINUE"); (101%Z, lit "101 SWITCHING PROTOCOLS"); (102%Z, lit "102 PROCESSING");
   (200%Z, lit "200 OK"); (201%Z, lit "201 CREATED"); (202%Z, lit "202 ACCEPTED");
   (203%Z, lit "203 NON AUTHORITATIVE INFORMATION"); (204%Z, lit "204 NO CONTENT"); (205%Z, lit "205 RESET CONTENT");
   (206%Z, lit "206 PARTIAL CONTENT"); (207%Z, lit "207 MULTI STATUS"); (226%Z, lit "226 IM USED");
   (300%Z, lit "300 MULTIPLE CHOICES"); (301%Z, lit "301 MOVED PERMANENTLY"); (302%Z, lit "302 FOUND");
   (303%Z, lit "303 SEE OTHER"); (304%Z, lit "304 NOT MODIFIED"); (305%Z, lit "305 USE PROXY");
   (307%Z, lit "307 TEMPORARY REDIRECT"); (400%Z, lit "400 BAD REQUEST"); (401%Z, lit "401 UNAUTHORIZED");
   (402%Z, lit "402 PAYMENT REQUIRED"); (403%Z, lit "403 FORBIDDEN"); (404%Z, lit "404 NOT FOUND");
   (405%Z, lit "405 METHOD NOT ALLOWED"); (406%Z, lit "406 NOT ACCEPTABLE"); (407%Z, lit "407 PROXY AUTHENTICATION REQUIRED");
   (408%Z, lit "408 REQUEST TIMEOUT"); (409%Z, lit "409 CONFLICT"); (410%Z, lit "410 GONE");
   (411%Z, lit "411 LENGTH REQUIRED"); (412%Z, lit "412 PRECONDITION FAILED"); (413%Z, lit "413 REQUEST ENTITY TOO LARGE");
   (414%Z, lit "414 REQUEST URI TOO LONG"); (415%Z, lit "415 UNSUPPORTED MEDIA TYPE"); (416%Z, lit "416 REQUESTED RANGE NOT SATISFIABLE");
   (417%Z, lit "417 EXPECTATION FAILED"); (418%Z, lit "418 I'M A TEAPOT"); (422%Z, lit "422 UNPROCESSABLE ENTITY");
   (423%Z, lit "423 LOCKED"); (424%Z, lit "424 FAILED DEPENDENCY"); (426%Z, lit "426 UPGRADE REQUIRED");
   (428%Z, lit "428 PRECONDITION REQUIRED"); (429%Z, lit "429 TOO MANY REQUESTS"); (431%Z, lit "431 REQUEST HEADER FIELDS TOO LARGE");
   (449%Z, lit "449 RETRY WITH"); (500%Z, lit "500 INTERNAL SERVER ERROR"); (501%Z, lit "501 NOT IMPLEMENTED");
   (502%Z, lit "502 BAD GATEWAY"); (503%Z, lit "503 SERVICE UNAVAILABLE"); (504%Z, lit "504 GATEWAY TIMEOUT");
   (505%Z, lit "505 HTTP VERSION NOT SUPPORTED"); (507%Z, lit "507 INSUFFICIENT STORAGE"); (510%Z, lit "510 NOT EXTENDED")].
