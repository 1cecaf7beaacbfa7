(** Vocabulary for the claim about which way of reading a path a route takes. *)
From Coq Require Import List NArith ZArith Bool.
From Verif Require Import PyStr ModelRoute SpecRoute.
Import ListNotations.
Open Scope N_scope.

(** What a converter does when it could take more than one text at the same place. *)
Inductive habit := Longest | Shortest | Listed (items : list str).
(** [liked h t t']: of the two texts it would rather take [t]. *)
Definition liked (h : habit) (t t' : str) : Prop :=
  match h with
  | Longest => (length t' < length t)%nat
  | Shortest => (length t < length t')%nat
  | Listed items => t <> t' /\ exists a b, items = a ++ t :: b /\ ~ In t' a
  end.
(** The converters that the package has, and their habits. *)
Inductive built_in : converter -> habit -> Prop :=
| bi_string mn mx : built_in (conv_string mn mx) Longest
| bi_any items : built_in (conv_any items) (Listed items)
| bi_path : built_in conv_path Shortest
| bi_int fixed mn mx : built_in (conv_int fixed mn mx) Longest
| bi_float f g : built_in (conv_float f g) Longest
| bi_uuid : built_in conv_uuid Longest.
(** [habits r hs]: all converters of the route are built in, [hs] are their habits. *)
Definition habits (r : route) (hs : list habit) : Prop :=
  Forall2 (fun v h => built_in (snd v) h) (route_vars r) hs.

(** [better hs ts ts']: at the first variable at which the two lists of texts differ,
    its converter would rather take the text of [ts]. *)
Inductive better : list habit -> list str -> list str -> Prop :=
| be_here h hs t t' ts ts' : liked h t t' -> better (h :: hs) (t :: ts) (t' :: ts')
| be_later h hs t ts ts' : better hs ts ts' -> better (h :: hs) (t :: ts) (t :: ts').

(** Of all ways to read the path as an instance of the route, the best one. *)
Definition chosen (r : route) (hs : list habit) (path : str) (ts : list str) (slash : str) : Prop :=
  up_to_newline (instance r ts slash) path /\
  forall ts' slash', up_to_newline (instance r ts' slash') path -> ts' <> ts -> better hs ts ts'.
