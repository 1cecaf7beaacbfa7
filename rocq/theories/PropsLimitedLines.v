(** C33: the lines of a limited stream. *)
From Coq Require Import List NArith ZArith Bool Lia.
From Verif Require Import PyStr ModelStream SpecStream ProofLimitedLines.
Import ListNotations.
Open Scope N_scope.

(** C33: on a connection that delivers what it is asked for, readlines and the iteration
    both give exactly the lines of the first [limit] bytes; the iteration then ends. *)
Theorem C33_lines : forall limit data fuel, (0 <= limit <= Z.of_nat (length data))%Z -> (Z.to_nat limit < fuel)%nat ->
  exists ls s', lf_lines (firstn (Z.to_nat limit) data) ls /\
  do_call fuel (ReadLines None) (limited_stream (fresh data []) limit) = Some (Ok ls, s') /\
  exists s'', do_calls fuel (repeat Next (length ls) ++ [Next]) (limited_stream (fresh data []) limit) =
    Some (map (fun l => Ok [l]) ls ++ [Raise StopIteration], s'').
Proof. exact limited_lines. Qed.
Print Assumptions C33_lines.
Theorem C33_lines_unique : forall text l1, lf_lines text l1 -> forall l2, lf_lines text l2 -> l1 = l2.
Proof. exact lf_unique. Qed.
Print Assumptions C33_lines_unique.
Example C33_lines_example :
  let data := lit "ab" ++ [10; 10] ++ lit "cde" ++ [10] ++ lit "f" in
  lf_lines (firstn 6 data) [lit "ab" ++ [10]; [10]; lit "cd"] /\
  exists s', do_call 9 (ReadLines None) (limited_stream (fresh data []) 6) = Some (Ok [lit "ab" ++ [10]; [10]; lit "cd"], s').
Proof.
  split.
  - apply (lf_line (lit "ab") (10 :: lit "cd")); [cbn; intuition discriminate|].
    apply (lf_line [] (lit "cd")); [auto|]. apply lf_last; [discriminate|cbn; intuition discriminate].
  - eexists. vm_compute. reflexivity.
Qed.
