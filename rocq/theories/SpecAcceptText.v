(** * Vocabulary of the claims on the text of Accept objects *)
From Coq Require Import List NArith.
From Verif Require Import PyStr ModelAccept SpecAccept.
Import ListNotations.
Open Scope N_scope.

(** What is assumed of reading and writing floats: a float that came from a text
    is written as a text that reads as the same float and has no comma, no
    semicolon and no white space; 1.0 reads as one; and a float equal to one is
    one. *)
Record exact_floats (float_of : str -> option fl) (show : fl -> str) : Prop := {
  ef_read : forall s x, float_of s = Some x -> float_of (show (clamp x)) = Some (clamp x);
  ef_bare : forall s x, float_of s = Some x -> bare (show (clamp x));
  ef_one : float_of (lit "1.0") = Some f_one;
  ef_unique : forall s x, float_of s = Some x -> feq x f_one = true -> x = f_one }.

(** No white space at either end. *)
Definition trimmed (s : str) : Prop :=
  (forall c r, s = c :: r -> is_space c = false) /\
  (forall c r, s = r ++ [c] -> is_space c = false).
(** Trimmed, and without commas and semicolons. *)
Definition piece (s : str) : Prop := trimmed s /\ ~ In 44 s /\ ~ In 59 s.

(** A range whose text is that of one range: a value of the right form; its
    quality the number of [0, 1] nearest to something read as a float; different
    parameter names, none q and none with an equals sign, and none at all for
    languages and character sets; no piece with separators or white space at
    its ends. *)
Definition writable (float_of : str -> option fl) (k : kind) (r : range) : Prop :=
  piece (rg_value r) /\
  match k with KContentType => media_like (rg_value r) | _ => plain_like (rg_value r) end /\
  (exists s x, float_of s = Some x /\ rg_q r = clamp x) /\
  NoDup (map fst (rg_params r)) /\
  (forall key v, In (key, v) (rg_params r) ->
     piece key /\ ~ In 61 key /\ key <> lit "q" /\ piece v) /\
  match k with KContentType => True | _ => rg_params r = [] end.

(** The range [r] admits the value [v]. *)
Definition admits (k : kind) (r v : str) : Prop :=
  match k with
  | KContentType => media_matches r v \/ star_subtype r v
  | KLanguage => language_matches r v
  | KCharset => charset_matches r v
  end.
(** A value or a range of the form its kind needs. *)
Definition proper_text (k : kind) (v : str) : Prop :=
  match k with KContentType => well_formed v | _ => True end.
