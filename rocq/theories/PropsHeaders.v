(** C08, C09, C14, C15: [Headers], [HeaderSet] and header class filters. *)
From Coq Require Import List NArith ZArith Bool.
From Verif Require Import PyStr PyStrFacts ModelQuote SpecQuote ModelHeaders SpecHeaders ProofHeaders.
Import ListNotations.
Open Scope N_scope.

(** C08: every history of calls has exactly the reference effect, call by call. *)
Theorem C08_history : forall (ops : list hop) (l : list (str * str)),
  header_history l ops (h_run l ops).
Proof. exact history_spec. Qed.
Print Assumptions C08_history.

(** C08: each single call, with the exception it raises. *)
Theorem C08_call : forall (l : list (str * str)) (o : hop),
  header_call l o (fst (h_step l o)) (snd (h_step l o)).
Proof. exact step_spec. Qed.
Print Assumptions C08_call.

(** C08: lookups see exactly the entries of the name, in order. *)
Theorem C08_getlist : forall (l : list (str * str)) (k : str), values_of k l (h_getlist l k).
Proof. exact (fun l k => values_of_filter k l). Qed.
Theorem C08_getitem : forall (l : list (str * str)) (k v : str),
  h_getitem l k = Ok v <-> exists rest, values_of k l (v :: rest).
Proof. exact getitem_ok. Qed.
Theorem C08_getitem_missing : forall (l : list (str * str)) (k : str),
  h_getitem l k = Raise KeyError <-> absent k l.
Proof. exact getitem_missing. Qed.
Theorem C08_contains : forall (l : list (str * str)) (k : str), h_contains l k = true <-> ~ absent k l.
Proof. exact contains_spec. Qed.
Print Assumptions C08_getlist.
Print Assumptions C08_getitem.
Print Assumptions C08_getitem_missing.
Print Assumptions C08_contains.

(** C08: after [set], every spelling of the name reads exactly the new value and
    every other name reads what it read before. *)
Theorem C08_set_then_get : forall (k v : str) (a b : list (str * str)),
  h_set a k (HStr v) [] = Ok b ->
  (forall k', same_name k k' -> h_getlist b k' = [v]) /\
  (forall k', ~ same_name k k' -> h_getlist b k' = h_getlist a k').
Proof.
  exact (fun k v a b H => set_get k v a b (set_is_set_effect k v a b H)).
Qed.
Print Assumptions C08_set_then_get.

Example C08_example :
  let a := [(lit "X", lit "1"); (lit "Y", lit "2"); (lit "x", lit "3"); (lit "y", lit "4")] in
  h_run a [HSet (lit "Y") (HInt 5) []; HAdd (lit "X") (HStr (lit "6")) []; HPop (lit "nope") true]
  = [(lit "X", lit "1"); (lit "Y", lit "5"); (lit "x", lit "3"); (lit "X", lit "6")]
  /\ h_getlist a (lit "x") = [lit "1"; lit "3"] /\ same_name (lit "X") (lit "x").
Proof. vm_compute. auto. Qed.

(** C09, the part that holds: starting from no headers, or from the constructor
    with an iterable of pairs, no history of calls stores a value with a line
    break.  Missing: the constructor called with a list, and header names. *)
Theorem C09_values_one_line_partial : forall (items : list (str * hval)) (ops : list hop),
  Forall (fun kv => one_line (snd kv)) (h_run (fst (h_init_pairs items)) ops).
Proof. exact (fun items ops => run_clean ops _ (init_pairs_clean items)). Qed.
Print Assumptions C09_values_one_line_partial.

(** C09: once a list holds only one-line values, every call keeps it so. *)
Theorem C09_invariant : forall (l : list (str * str)) (o : hop),
  Forall (fun kv => one_line (snd kv)) l ->
  Forall (fun kv => one_line (snd kv)) (fst (h_step l o)).
Proof. exact (fun l o => call_clean l o _ _ (step_spec l o)). Qed.
Print Assumptions C09_invariant.

(** C09: the serialised block is one line "name: value" per header, ended by an
    empty line, for every header list; and if names and values hold no line
    break, it has exactly one line end per header and one at the end. *)
Theorem C09_block_shape : forall l : list (str * str),
  h_str l = concat (map (fun kv => fst kv ++ [58; 32] ++ snd kv ++ [13; 10]) l) ++ [13; 10].
Proof. exact wire_shape. Qed.
Theorem C09_block_lines : forall l : list (str * str),
  Forall (fun kv => one_line (snd kv)) l -> Forall (fun kv => one_line (fst kv)) l ->
  count 10 (h_str l) = S (length l).
Proof. exact wire_lines. Qed.
Print Assumptions C09_block_shape.
Print Assumptions C09_block_lines.

Example C09_example :
  let l := h_run [] [HAdd (lit "A") (HStr (lit "1" ++ [10] ++ lit "B: 2")) []; HAdd (lit "C") (HStr (lit "3")) []] in
  l = [(lit "C", lit "3")] /\ count 10 (h_str l) = 2%nat.
Proof. vm_compute. auto. Qed.

(** Findings: a list given to the constructor is not validated, and header
    names never are. *)
Theorem C09_constructor_refuted : exists items : list (str * str),
  ~ Forall (fun kv => one_line (snd kv)) (h_init_list items) /\
  (count 10 (h_str (h_init_list items)) > S (length (h_init_list items)))%nat.
Proof. exact constructor_breaks. Qed.
Theorem C09_names_refuted : exists ops : list hop,
  (count 10 (h_str (h_run [] ops)) > S (length (h_run [] ops)))%nat.
Proof. exact names_break. Qed.
Print Assumptions C09_constructor_refuted.
Print Assumptions C09_names_refuted.

(** C14, the part that holds: from distinct names, through any history in which
    [remove] and [discard] are given names in lower case and item assignment does
    not introduce a name held at another place, membership, iteration, length
    and [find] agree and no name appears twice.  Missing: exactly those calls,
    see the refutations. *)
Theorem C14_agreement_partial : forall (names : list str) (ops : list hsop),
  distinct_names names -> tame_run (hs_init names) ops ->
  let s := hs_run (hs_init names) ops in
  distinct_names (hs_iter s) /\
  (forall h, hs_contains s h = true <-> exists n, In n (hs_iter s) /\ same_name n h) /\
  (forall h, (0 <= hs_find s h)%Z <-> hs_contains s h = true) /\
  hs_len s = length (hs_iter s).
Proof. exact hs_agreement. Qed.
Print Assumptions C14_agreement_partial.

(** C14: [to_header] lists the same names (values that are themselves written
    between double quotes excepted, see C11). *)
Theorem C14_to_header : forall s : hset,
  hs_iter s <> [[]] -> Forall (fun v => ~ wears_quotes v) (hs_iter s) ->
  parse_list_header (hs_to_header s) = hs_iter s.
Proof. exact hs_to_header_reads. Qed.
Print Assumptions C14_to_header.

Example C14_example :
  let ops := [SAdd (lit "Foo"); SUpdate [lit "BAR"; lit "foo"; lit "Baz"]; SRemove (lit "bar");
              SSetItem (-1) (lit "Qux"); SDelItem 0] in
  tame_run (hs_init []) ops /\ hs_iter (hs_run (hs_init []) ops) = [lit "Qux"] /\
  hs_contains (hs_run (hs_init []) ops) (lit "qUX") = true.
Proof. exact hs_example. Qed.

(** Findings: [remove] with a name in upper case takes it out of the set but not
    out of the list; names given twice to the constructor, and item assignment of
    a name held elsewhere, put the two structures out of step as well. *)
Theorem C14_remove_upper_refuted : exists h,
  match hs_remove (hs_init [h]) h with
  | Ok s => hs_contains s h = false /\ In h (hs_iter s)
  | Raise _ => False
  end.
Proof. exists (lit "Foo"). vm_compute. auto. Qed.
Theorem C14_constructor_refuted : exists names h,
  match hs_remove (hs_init names) h with
  | Ok s => hs_contains s h = false /\ In h (hs_iter s)
  | Raise _ => False
  end /\ hs_len (hs_init names) <> length (hs_iter (hs_init names)).
Proof. exists [lit "a"; lit "a"], (lit "a"). vm_compute. split; [auto|discriminate]. Qed.
Theorem C14_setitem_refuted : exists names i v,
  distinct_names names /\
  let s := hs_run (hs_init names) [SSetItem i v; SDelItem i] in
  hs_contains s v = false /\ In v (hs_iter s).
Proof. exact setitem_breaks. Qed.
Print Assumptions C14_remove_upper_refuted.
Print Assumptions C14_constructor_refuted.
Print Assumptions C14_setitem_refuted.

(** C15: exactly the headers of the class that are not allowed are dropped. *)
Theorem C15_entity : forall (l : list (str * str)) (allowed : list str),
  sifted (fun kv => (exists n, In n entity_names /\ same_name (fst kv) n) /\
                    ~ (exists a, In a allowed /\ same_name (fst kv) a))
         l (remove_entity_headers l allowed).
Proof. exact remove_entity_spec. Qed.
Theorem C15_hop_by_hop : forall l : list (str * str),
  sifted (fun kv => exists n, In n hop_names /\ same_name (fst kv) n) l (remove_hop_by_hop_headers l).
Proof. exact remove_hop_spec. Qed.
Theorem C15_classes : forall h : str,
  (is_entity_header h = true <-> exists n, In n entity_names /\ same_name h n) /\
  (is_hop_by_hop_header h = true <-> exists n, In n hop_names /\ same_name h n).
Proof. exact (fun h => conj (entity_spec h) (hop_spec h)). Qed.
Print Assumptions C15_entity.
Print Assumptions C15_hop_by_hop.
Print Assumptions C15_classes.

Example C15_example :
  remove_entity_headers [(lit "EXPIRES", lit "1"); (lit "Content-type", lit "2"); (lit "X", lit "3")]
     [lit "Expires"] = [(lit "EXPIRES", lit "1"); (lit "X", lit "3")].
Proof. vm_compute. auto. Qed.
