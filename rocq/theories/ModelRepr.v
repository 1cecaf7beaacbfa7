(** Model of repr() of responses and requests (verktyg/responses.py:208-217,
    verktyg/requests.py:157-171). *)
From Coq Require Import Arith List NArith ZArith Bool.
From Verif Require Import PyStr ModelHeaders ModelResponse.
Import ListNotations.
Open Scope N_scope.

(** responses.py:208-217 [BaseResponse.__repr__], of a response of the class named [cls]: the
    response afterwards and the text.  A sequence is encoded with iter_encoded
    (responses.py:387-398), which makes bytes of its items; an iterator has no length and so
    is_streamed (responses.py:447-461) is true. *)
Definition r_repr (cls : str) (r : response) : response * res str :=
  let info :=
    match rs_body r with
    | BSeq l =>
        match encode_items l None with
        | (bs, None, _) => Ok (zdec (Z.of_nat (length (concat bs))) ++ lit " bytes")
        | (_, Some e, _) => Raise e
        end
    | BIter _ _ _ => Ok (lit "streamed")
    end in
  (r, do i <- info; Ok (lit "<" ++ cls ++ lit " " ++ i ++ lit " [" ++ st_line (rs_status r) ++ lit "]>")).

(** requests.py:157-171 [BaseRequest.__repr__]; [url] and [method] are what reading these
    attributes gives.  The url is put in the list before the method is read. *)
Definition q_repr (cls : str) (url method : res str) : str :=
  let invalid := lit "(invalid WSGI environ)" in
  let args :=
    match url with
    | Raise _ => [invalid]
    | Ok u => match method with
              | Raise _ => [lit "'" ++ u ++ lit "'"; invalid]
              | Ok m => [lit "'" ++ u ++ lit "'"; lit "[" ++ m ++ lit "]"]
              end
    end in
  lit "<" ++ cls ++ lit " " ++ join [32] args ++ lit ">".
