(** C09: where the values of a header list come from. *)
From Coq Require Import Arith List NArith ZArith Bool Lia.
From Verif Require Import PyStr ModelHeaders SpecHeaders ProofHeadersSource.
Import ListNotations.
Open Scope N_scope.

(** C09: whatever list the constructor was given and whatever calls follow, a
    value with a line break in it can only be one that the constructor was given:
    no call brings one in. *)
Theorem C09_source : forall (items : list (str * str)) (ops : list hop) (v : str),
  In v (map snd (h_run (h_init_list items) ops)) -> one_line v \/ In v (map snd items).
Proof. exact (fun items ops v => values_source (h_init_list items) ops v). Qed.
Print Assumptions C09_source.

(** C09: so checking the list given to the constructor would be enough, and is
    needed: every history leaves one-line values exactly if that list has none
    with a line break. *)
Theorem C09_constructor_exact : forall items : list (str * str),
  (forall ops : list hop, Forall (fun kv => one_line (snd kv)) (h_run (h_init_list items) ops)) <->
  Forall (fun kv => one_line (snd kv)) items.
Proof. exact (fun items => run_exact (h_init_list items)). Qed.
Print Assumptions C09_constructor_exact.

(** The broken value of the constructor stays, the broken value added does not
    come in. *)
Example C09_source_example :
  let l := h_run (h_init_list [(lit "A", lit "1" ++ [10] ++ lit "2")])
             [HAdd (lit "B") (HStr (lit "3" ++ [13; 10] ++ lit "4")) []; HAdd (lit "C") (HStr (lit "5")) []] in
  l = [(lit "A", lit "1" ++ [10] ++ lit "2"); (lit "C", lit "5")].
Proof. vm_compute. reflexivity. Qed.
