(** Specification vocabulary: what a list of texts and byte strings counts. *)
From Coq Require Import List NArith.
From Verif Require Import PyStr SpecHeaders ModelResponse.
Import ListNotations.

(** The characters of the texts and the bytes of the byte strings. *)
Inductive counted : list item -> nat -> Prop :=
| cn_nil : counted [] 0
| cn_text s l n : counted l n -> counted (IText s :: l) (length s + n)
| cn_bytes b l n : counted l n -> counted (IBytes b :: l) (length b + n).
(** No length has been announced. *)
Definition unannounced (r : response) : Prop := absent (lit "Content-Length") (rs_headers r).
