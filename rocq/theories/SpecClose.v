(** Specification vocabulary for closing. *)
From Coq Require Import Arith List NArith ZArith Bool.
From Verif Require Import PyStr ModelResponse ModelClose.
Import ListNotations.
Open Scope N_scope.

(** What has to be closed: the body iterator, then the callbacks in the order they were
    registered. *)
Definition to_close (r : response) : list callback :=
  match rs_body r with BIter _ _ (Some n) => [CIter n] | _ => [] end ++ rs_on_close r.
(** The closing functions that ran, in order. *)
Fixpoint ran (t : list event) : list callback :=
  match t with
  | [] => []
  | ERun c :: t' => c :: ran t'
  | _ :: t' => ran t'
  end.
(** The chunks that arrived. *)
Fixpoint arrived (t : list event) : list str :=
  match t with
  | [] => []
  | EChunk b :: t' => b :: arrived t'
  | _ :: t' => arrived t'
  end.
