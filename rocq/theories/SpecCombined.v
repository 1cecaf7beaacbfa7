(** Vocabulary for statements about combined dicts and hashing. *)
From Coq Require Import Arith List NArith ZArith Bool.
From Verif Require Import PyStr ModelMultiDict ModelCombined.
Import ListNotations.
Open Scope N_scope.

Section Spec.
  Context {V : Type}.
  (** A wrapped dict: each key once, no key without value. *)
  Definition proper (d : mdict V) : Prop := NoDup (map fst d) /\ Forall (fun kl => snd kl <> []) d.
  (** The values that the wrapped dicts hold for a key, dict after dict. *)
  Definition held (ds : combined V) (k : str) : list V := concat (map (fun d => m_getlist d k) ds).
  (** The first value for a key of each wrapped dict that has the key. *)
  Inductive heads : combined V -> str -> list V -> Prop :=
  | heads_nil k : heads [] k []
  | heads_skip d ds k l : ~ In k (map fst d) -> heads ds k l -> heads (d :: ds) k l
  | heads_take d ds k v vs l : In (k, v :: vs) d -> heads ds k l -> heads (d :: ds) k (v :: l).
  (** The first of the candidates that a conversion does not refuse with ValueError. *)
  Inductive first_accepted {W} (conv : V -> res W) : list V -> option (res W) -> Prop :=
  | fa_none : first_accepted conv [] None
  | fa_ok v l w : conv v = Ok w -> first_accepted conv (v :: l) (Some (Ok w))
  | fa_refused v l e r : conv v = Raise e -> e = ValueError \/ e = UnicodeError -> first_accepted conv l r -> first_accepted conv (v :: l) r
  | fa_raised v l e : conv v = Raise e -> e <> ValueError -> e <> UnicodeError -> first_accepted conv (v :: l) (Some (Raise e)).
End Spec.

(** A hash of sets: equal when each element of either has an equal one in the other. *)
Definition lawful {V} (veq : V -> V -> bool) (fhash : list (option nat * (str * V)) -> Z) : Prop :=
  forall a b,
    (forall i k v, In (i, (k, v)) a -> exists w, In (i, (k, w)) b /\ veq v w = true) ->
    (forall i k w, In (i, (k, w)) b -> exists v, In (i, (k, v)) a /\ veq v w = true) ->
    fhash a = fhash b.
