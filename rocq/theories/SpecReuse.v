(** Vocabulary of the claims about a builder that is used more than once (C123). *)
From Coq Require Import List NArith ZArith Bool.
From Verif Require Import PyStr ModelMultiDict ModelCombined ModelTest ModelReuse.
Import ListNotations.
Open Scope N_scope.

(** The files of the builder, by key. *)
Definition files_of (y : system) : mdict nat := match y_files y with Some f => f | None => [] end.
(** The objects of all its files. *)
Definition all_files (y : system) : list nat := flat_map snd (files_of y).
(** [calls]: the first file of every key, in the order of the keys. *)
Definition first_of_each (files : mdict nat) (calls : list nat) : Prop :=
  Forall2 (fun kl n => exists more, snd kl = n :: more) files calls.
(** What the other side would read of a file now: its name, its type and what is left of it. *)
Definition left_of (y : system) (n : nat) : file :=
  match nth_error (y_objects y) n with
  | Some o => mk_file (o_name o) (o_ctype o) [skipn (o_pos o) (o_data o)]
  | None => mk_file None None []
  end.
(** The same file with nothing in it. *)
Definition nothing_of (y : system) (n : nat) : file :=
  match nth_error (y_objects y) n with
  | Some o => mk_file (o_name o) (o_ctype o) []
  | None => mk_file None None []
  end.
(** The values of the form and the files, the files read by [g]. *)
Definition values_with (g : nat -> file) (y : system) : list (str * list value) :=
  c_lists [map (fun kl => (fst kl, map fval_value (snd kl))) (or_empty (y_form y));
           map (fun kl => (fst kl, map (fun n => VFile (g n)) (snd kl))) (files_of y)].
(** The files can be read: every object is there and open, and stands for one file only. *)
Definition readable (y : system) : Prop :=
  NoDup (all_files y) /\
  forall n, In n (all_files y) -> exists o, nth_error (y_objects y) n = Some o /\ o_open o = true.
(** The body is made of files. *)
Definition sends_files (y : system) : Prop :=
  y_input y = None /\ (y_ctype y = Some (lit "multipart/form-data") \/ (y_ctype y = None /\ files_of y <> [])).
(** The body is not made of files. *)
Definition sends_no_files (y : system) : Prop :=
  y_input y <> None \/ files_of y = [] \/ exists t, y_ctype y = Some t /\ t <> lit "multipart/form-data".
