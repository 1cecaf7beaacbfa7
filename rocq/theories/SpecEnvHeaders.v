From Coq Require Import Arith List NArith ZArith Bool.
From Verif Require Import PyStr.
Import ListNotations.
Open Scope N_scope.

(** Vocabulary: the variable a server puts a request header in.  Letters are the ASCII
    letters; [str.upper] is modelled for them only. *)

(** Each letter in capitals, a hyphen as an underscore, everything else as it is. *)
Definition var_char (c d : N) : Prop :=
  (97 <= c <= 122 /\ d = c - 32) \/ (c = 45 /\ d = 95) \/ (~ 97 <= c <= 122 /\ c <> 45 /\ d = c).
Definition as_variable (name r : str) : Prop := Forall2 var_char name r.

(** Content-Type and Content-Length have variables of their own, the others are prefixed. *)
Definition variable_of (name k : str) : Prop := exists r, as_variable name r /\
  (((r = lit "CONTENT_TYPE" \/ r = lit "CONTENT_LENGTH") /\ k = r) \/
   (~ (r = lit "CONTENT_TYPE" \/ r = lit "CONTENT_LENGTH") /\ k = lit "HTTP_" ++ r)).

(** A variable without small letters and hyphens. *)
Definition no_small (k : str) : Prop := forall c, In c k -> ~ 97 <= c <= 122 /\ c <> 45.
