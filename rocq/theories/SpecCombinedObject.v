(** Specification vocabulary: objects that nobody touches. *)
From Coq Require Import List NArith.
From Verif Require Import PyStr ModelMultiDict ModelCombinedObject.
Import ListNotations.

Section Spec.
  Context {V : Type}.
  (** The calls do not give the list another content. *)
  Definition list_left (l : nat) (calls : list (cop V)) : Prop := forall content, ~ In (CSeq l content) calls.
  (** The calls do not ask for the hash of the object. *)
  Definition unhashed (o : nat) (calls : list (cop V)) : Prop := ~ In (CHash o) calls.
  (** The pairs of a MultiDict are those that its keys list. *)
  Definition has_pair (d : mdict V) (kv : str * V) : Prop := exists l, In (fst kv, l) d /\ In (snd kv) l.
  (** The pairs of a list of MultiDicts. *)
  Definition some_has (ds : list (mdict V)) (kv : str * V) : Prop := exists d, In d ds /\ has_pair d kv.
End Spec.
