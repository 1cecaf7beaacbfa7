(** Specification vocabulary for entity tags. *)
From Coq Require Import List NArith ZArith Bool.
From Verif Require Import PyStr.
Import ListNotations.
Open Scope N_scope.

(** An entity tag in a header: a strength mark and an opaque text. *)
Inductive mark := Strong | WeakW | Weakw.
Definition tag := (mark * str)%type.
Definition weak_mark (m : mark) : bool := match m with Strong => false | _ => true end.
Definition write_tag (t : tag) : str :=
  (match fst t with Strong => [] | WeakW => lit "W/" | Weakw => lit "w/" end) ++ 34 :: snd t ++ [34].
(** Tags the grammar allows here: not empty, no double quote, no line feed. *)
Definition plain_tag (t : tag) : Prop := snd t <> [] /\ ~ In 34 (snd t) /\ ~ In 10 (snd t).

Definition blank (s : str) : Prop := Forall (fun c => is_space c = true) s.

(** A comma separated list of tags, with optional white space around commas. *)
Inductive tag_list : str -> list tag -> Prop :=
| tl_one t : tag_list (write_tag t) [t]
| tl_cons t a b h l : blank a -> blank b -> tag_list h l ->
    tag_list (write_tag t ++ a ++ 44 :: b ++ h) (t :: l).

Definition texts (weak : bool) (l : list tag) : list (option str) :=
  map (fun t => Some (snd t)) (filter (fun t => Bool.eqb (weak_mark (fst t)) weak) l).

(** A tag list matches a resource's tag: same text, and both strong, or the
    resource's tag is weak. *)
Definition tag_matches (l : list tag) (weak : bool) (text : str) : Prop :=
  exists m, In (m, text) l /\ (weak_mark m = false \/ weak = true).

Definition get_or_head (s : str) : Prop := s = lit "GET" \/ s = lit "HEAD".
