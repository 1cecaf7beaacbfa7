(** Vocabulary for the header quoting properties, independent of the model. *)
From Coq Require Import List NArith Bool.
From Verif Require Import PyStr.
Import ListNotations.
Open Scope N_scope.

(** RFC 7230 token: one or more of the listed characters. *)
Definition rfc_tchar (c : N) : Prop :=
  (48 <= c <= 57) \/ (65 <= c <= 90) \/ (97 <= c <= 122) \/ In c (lit "!#$%&'*+-.^_`|~").
Definition is_token (s : str) : Prop := s <> [] /\ Forall rfc_tchar s.

(** Body of a quoted-string: plain characters, or a backslash and any character. *)
Inductive qbody : str -> Prop :=
| qb_nil : qbody []
| qb_plain c s : c <> 34 -> c <> 92 -> qbody s -> qbody (c :: s)
| qb_pair c s : qbody s -> qbody (92 :: c :: s).

(** A value that is itself written between double quotes. *)
Definition wears_quotes (v : str) : Prop := v = [34] \/ exists m, v = 34 :: m ++ [34].

(** A name that option header syntax can carry bare: non-empty, without blank,
    ';' or '=', and not starting with a double quote. *)
Definition option_name (k : str) : Prop :=
  k <> [] /\ Forall (fun c => is_space c = false /\ c <> 59 /\ c <> 61) k /\ (forall r, k <> 34 :: r).

(** What becomes of an option that is written and read: an empty value is lost, and a
    file name that begins with a backslash keeps the backslashes it was written with. *)
Definition doubled (v : str) : str :=
  flat_map (fun c => if N.eq_dec c 34 then [92; 34] else if N.eq_dec c 92 then [92; 92] else [c]) v.
Definition comes_back (kv : str * option str) : str * option str :=
  (fst kv, match snd kv with
           | None | Some [] => None
           | Some (c :: r) =>
               if list_eq_dec N.eq_dec (fst kv) (lit "filename")
               then if N.eq_dec c 92 then Some (doubled (c :: r)) else Some (c :: r)
               else Some (c :: r)
           end).
