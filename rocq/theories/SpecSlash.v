(** Vocabulary of the claim about the URL to which append_slash_redirect leads. *)
From Coq Require Import List NArith.
From Verif Require Import PyStr SpecIri.
Import ListNotations.
Open Scope N_scope.

(** A part of a path between two slashes: printable ASCII, without the characters that have a
    meaning of their own in URLs, and not one or two dots. *)
Definition part (d : str) : Prop :=
  d <> [] /\ d <> lit "." /\ d <> lit ".." /\ forall c, In c d -> 32 <= c < 127 /\ ~ In c (lit "/?#%:").
(** A part as it stands in a URL *)
Definition part_as (d d' : str) : Prop := escaped false (lit "/:~+%") d d'.
(** A query of characters that may stand in one *)
Definition plain_query (q : str) : Prop := forall c, In c q -> kept (lit "%&[]:;$*()+,!?*/=") c.
(** The query of the environ, empty if there is none *)
Definition query_given (environ : dict str) (q : str) : Prop :=
  dget environ (lit "QUERY_STRING") = Some q \/ (dget environ (lit "QUERY_STRING") = None /\ q = []).
