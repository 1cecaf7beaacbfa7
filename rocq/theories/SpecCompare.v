(** What it means that one acceptability is better than another. *)
From Coq Require Import List NArith ZArith QArith Bool.
From Verif Require Import PyStr ModelAccept.
Import ListNotations.
Open Scope N_scope.

(** The quality as a number *)
Definition number_of (fmul : fl -> fl -> fl) (a : acc) (q : Q) : Prop := quality fmul a = Fin q.
(** The match qualities in the order of pairs *)
Definition closer (a b : acc) : Prop :=
  (fst (a_match b) < fst (a_match a))%Z \/ (fst (a_match b) = fst (a_match a) /\ (snd (a_match b) < snd (a_match a))%Z).
Definition as_close (a b : acc) : Prop := a_match a = a_match b.
(** The closer match never has the lower quality. *)
Definition agreeing (fmul : fl -> fl -> fl) (a b : acc) : Prop := forall p q, number_of fmul a p -> number_of fmul b q ->
  (closer a b -> (q <= p)%Q) /\ (closer b a -> (p <= q)%Q).
(** How many parts the hyphens divide a text into *)
Fixpoint parts (s : str) : Z := match s with [] => 1%Z | c :: s' => ((if (c =? 45)%N then 1 else 0) + parts s')%Z end.
