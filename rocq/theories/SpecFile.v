(** Lines, and what a stored file shows, in plain terms. *)
From Coq Require Import List NArith ZArith Bool.
From Verif Require Import PyStr ModelQuote ModelHeaders SpecHeaders ModelFile.
Import ListNotations.
Open Scope N_scope.

(** What is left to be read. *)
Definition unread (f : file) : str := skipn (fl_pos f) (fl_data f).
(** At the end, otherwise as before. *)
Definition finished (f g : file) : Prop :=
  unread g = [] /\ fl_data g = fl_data f /\ fl_bytes g = fl_bytes f /\ fl_closed g = fl_closed f.

(** [ls] are the lines of [s]: each ends with its only line feed, but the last may
    lack it. *)
Definition full_line (l : str) : Prop := exists a, l = a ++ [10] /\ ~ In 10 a.
Definition lines (s : str) (ls : list str) : Prop :=
  concat ls = s /\
  (Forall full_line ls \/ exists init l, ls = init ++ [l] /\ Forall full_line init /\ l <> [] /\ ~ In 10 l).

(** A name of Python for a stream that is no file. *)
Definition bracketed (s : str) : Prop := exists a, s = 60 :: a ++ [62].
