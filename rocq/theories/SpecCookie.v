(** Vocabulary of the cookie claims (C24-C26). *)
From Coq Require Import List NArith ZArith Bool.
From Verif Require Import PyStr.
Import ListNotations.
Open Scope N_scope.

(** Bytes that may stand in a cookie value on the wire: printable ASCII without
    comma and semicolon. *)
Definition wire_byte (c : N) : Prop := 32 <= c < 127 /\ c <> 44 /\ c <> 59.

(** The characters of a cookie name: letters, digits and some punctuation, none of
    them a separator, a quote or white space. *)
Definition name_char (c : N) : Prop :=
  (48 <= c <= 57) \/ (65 <= c <= 90) \/ (97 <= c <= 122) \/
  In c [33; 35; 36; 37; 38; 39; 42; 43; 45; 46; 94; 95; 96; 124; 126; 58].

(** [lowercase s t]: [t] is the ASCII lower case of [s]. *)
Definition lowercase (s t : str) : Prop :=
  Forall2 (fun c d => (65 <= c <= 90 /\ d = c + 32) \/ (~ (65 <= c <= 90) /\ d = c)) s t.

(** The names that the parser takes for attributes. *)
Definition reserved_name (s : str) : Prop :=
  exists t, lowercase s t /\
    In t [lit "expires"; lit "path"; lit "comment"; lit "max-age"; lit "secure"; lit "httponly"; lit "version"].

Definition legal_name (s : str) : Prop := s <> [] /\ (forall c, In c s -> name_char c) /\ ~ reserved_name s.

(** A Cookie header: name=value pairs separated by a semicolon and a space. *)
Fixpoint cookie_header (quote : str -> str) (l : list (str * str)) : str :=
  match l with
  | [] => []
  | [(n, v)] => n ++ [61] ++ quote v
  | (n, v) :: l' => n ++ [61] ++ quote v ++ [59; 32] ++ cookie_header quote l'
  end.

(** Looking a name up in a list where the last binding counts. *)
Definition last_value (l : list (str * str)) (n : str) : option str :=
  fold_left (fun acc kv => if eqs n (fst kv) then Some (snd kv) else acc) l None.

(** The name of an attribute as a browser reads it: what stands between the space
    after the semicolon and the equals sign. *)
Definition attr_name (part name : str) : Prop :=
  part = 32 :: name \/ exists v, part = 32 :: name ++ 61 :: v /\ ~ In 61 name.

(** The attributes asked for, in the order in which they are written. *)
Definition requested (domain expires max_age secure httponly path : bool) : list str :=
  (if domain then [lit "Domain"] else []) ++ (if expires then [lit "Expires"] else []) ++
  (if max_age then [lit "Max-Age"] else []) ++ (if secure then [lit "Secure"] else []) ++
  (if httponly then [lit "HttpOnly"] else []) ++ (if path then [lit "Path"] else []).
Definition given {A} (o : option A) : bool := match o with Some _ => true | None => false end.
