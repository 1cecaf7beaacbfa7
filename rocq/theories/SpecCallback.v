(** Vocabulary for statements about callbacks, mirrored headers and immutable containers. *)
From Coq Require Import Arith List NArith ZArith Bool.
From Verif Require Import PyStr ModelHeaders ModelRange SpecHeaders ModelCallback.
Import ListNotations.
Open Scope N_scope.

(** Calls that the mixin covers: not the in-place union, and no update whose argument fails
    half way. *)
Definition covered {V} (o : dop V) : Prop :=
  match o with DIor _ | DUpdate _ (Some _) => False | _ => True end.

(** Texts of directives that fit on one line. *)
Definition tidy_value (v : pyval) : Prop := match v with PStr s => one_line s | _ => True end.
Definition tidy_pair (kv : str * pyval) : Prop := one_line (fst kv) /\ tidy_value (snd kv).
Definition tidy_dict_call (o : dop pyval) : Prop :=
  match o with
  | DSet k v | DSetDefault k v => tidy_pair (k, v)
  | DUpdate l None => Forall tidy_pair l
  | DUpdate _ (Some _) | DIor _ => False
  | _ => True
  end.
Definition tidy_call (c : ccall) : Prop :=
  match c with
  | CAttr (CCSet p v) => tidy_pair (cp_key p, v)
  | CAttr (CCDel _) => True
  | CDict o => tidy_dict_call o
  end.
(** The Cache-Control lines that mirror a content: none if empty, else one. *)
Definition mirrors (h : headers) (d : ccdict) : Prop :=
  h_getlist h (lit "cache-control") = match d with [] => [] | _ => [cc_to_header d] end.

(** The methods of Python's list and dict, of MultiDict and of Headers that change the
    object. *)
Definition list_mutators : list str :=
  [lit "append"; lit "clear"; lit "extend"; lit "insert"; lit "pop"; lit "remove"; lit "reverse"; lit "sort";
   lit "__setitem__"; lit "__delitem__"; lit "__iadd__"; lit "__imul__"].
Definition dict_mutators : list str :=
  [lit "clear"; lit "pop"; lit "popitem"; lit "setdefault"; lit "update"; lit "__setitem__"; lit "__delitem__"; lit "__ior__"].
Definition multi_mutators : list str :=
  [lit "add"; lit "setlist"; lit "setlistdefault"; lit "poplist"; lit "popitemlist"] ++ dict_mutators.
Definition headers_mutators : list str :=
  [lit "add"; lit "add_header"; lit "clear"; lit "extend"; lit "pop"; lit "popitem"; lit "remove"; lit "set"; lit "setdefault";
   lit "__setitem__"; lit "__delitem__"].
Definition mutators (c : container) : list str :=
  match c with
  | ImmList => list_mutators
  | ImmDict | ImmTypeDict | ImmRequestCache | ImmAuthorization => dict_mutators
  | ImmMulti | ImmOrdered | ImmCombined => multi_mutators
  | ImmHeaders => headers_mutators
  end.
(** Those that are left open. *)
Definition open_mutator (c : container) : str :=
  match c with ImmList | ImmHeaders => lit "clear" | _ => lit "__ior__" end.
