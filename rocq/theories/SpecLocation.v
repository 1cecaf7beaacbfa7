(** * Vocabulary of the claim about the Location header that is sent *)
From Coq Require Import List NArith Bool.
From Verif Require Import PyStr SpecIri SpecRequest SpecJoin.
Import ListNotations.
Open Scope N_scope.

(** A reference without a scheme and without a host: a path, perhaps a query and a
    fragment.  It does not begin with a blank, a control character or two slashes, and no
    colon stands before its first slash. *)
Definition write_reference (p q f : str) : str := p ++ with_mark (lit "?") q ++ with_mark (lit "#") f.
Record reference (p q f : str) : Prop := {
  re_path : free_of (lit "?#") p;
  re_query : free_of (lit "#") q;
  re_fragment : free_of [] f;
  re_begins : forall c r, p = c :: r -> 32 < c;
  re_slashes : forall r, p <> 47 :: 47 :: r;
  re_colon : exists a b, p = a ++ b /\ ~ In 58 a /\ (b = [] \/ exists r, b = 47 :: r) }.

(** A location as a server may send it: everything that is not allowed is escaped. *)
Inductive location_uri (idna : str -> res str) (ip_ok nfkc_ok : str -> bool) : str -> str -> Prop :=
| lu_url l l' : proper ip_ok nfkc_ok l -> as_uri idna l l' ->
    location_uri idna ip_ok nfkc_ok (write_url l) (write_url l')
| lu_reference p q f p' q' f' : reference p q f ->
    escaped false (lit "/:~+%") p p' -> escaped false (lit "%&[]:;$*()+,!?*/=") q q' ->
    escaped false (lit "=%&[]:;$()+,!?*/") f f' ->
    location_uri idna ip_ok nfkc_ok (write_reference p q f) (write_reference p' q' f').

(** The directories of the root of the application, as they stand in a URL *)
Definition root_folders (script : str) (root : list str) : Prop :=
  escaped false (lit "/:~+%") (shown_path (script ++ [47])) (47 :: folders root) /\
  Forall folder root /\ ~ In (lit ".") root /\ ~ In (lit "..") root.
