(** C113: hashes, pickles and copies of the immutable containers. *)
From Coq Require Import Arith List NArith ZArith Bool.
From Verif Require Import PyStr ModelCallback SpecCallback ModelMultiDict ModelOrdered SpecOrdered ModelCombined SpecCombined ModelMultiObject SpecMultiObject ModelFrozen SpecFrozen ProofFrozen.
Import ListNotations.
Open Scope N_scope.

(** The hash of a new object is the hash of its content, every time it is asked for,
    whatever mutating methods are called in between.  Missing: the method of each container
    that is left open, see the refutation. *)
Theorem C113_hash_partial : forall (S A R : Type) (h : S -> Z) (base : str -> A -> S -> S * res R) (c : container) (s : S) (l : list (fop A)),
  Forall (frozen_call c) l ->
  let (o, zs) := f_run h base c (Frozen s None) l in
  data o = s /\ zs = map (fun _ => h s) (filter (fun x => match x with FHash => true | _ => false end) l).
Proof.
  intros S A R h base c s l F. pose proof (run_same h base c l (Frozen s None) F (or_introl eq_refl)) as [H1 H2].
  pose proof (run_count h base c l (Frozen s None)) as H3. destruct (f_run h base c (Frozen s None) l) as [o zs]. cbn [fst snd data] in *. split; auto.
  revert H3. generalize (filter (fun x : fop A => match x with FHash => true | _ => false end) l). clear -H2.
  induction H2 as [|z zs E _ IH]; intros [|x l] H; try discriminate; auto. cbn. injection H as H. subst. f_equal. auto.
Qed.
Print Assumptions C113_hash_partial.
Example C113_hash_example : let l := [FHash; FCall (lit "append") 5; FHash] in
  Forall (frozen_call ImmList) l /\ f_run (fun s : list N => Z.of_nat (length s)) (fun _ a s => (a :: s, Ok a)) ImmList (Frozen [7; 8] None) l = (Frozen [7; 8] (Some 2%Z), [2%Z; 2%Z]).
Proof. cbv zeta. split; [|reflexivity]. repeat constructor; cbn; auto 20; discriminate. Qed.
(** Refuted: clear() of an ImmutableList empties it and leaves the old hash, so that it
    hashes differently from the empty list it is then equal to. *)
Theorem C113_hash_refuted : let list_base := fun (name : str) (_ : unit) (s : list N) => if eqs name (lit "clear") then ([], Ok tt) else (s, Raise AttributeError) in
  let h := fun s : list N => Z.of_nat (length s) in
  f_run h list_base ImmList (Frozen [1; 2] None) [FHash; FCall (lit "clear") tt; FHash] = (Frozen [] (Some 2%Z), [2%Z; 2%Z])
  /\ f_run h list_base ImmList (Frozen [] None) [FHash] = (Frozen [] (Some 0%Z), [0%Z]).
Proof. vm_compute. auto. Qed.
Print Assumptions C113_hash_refuted.

(** What is read back from a pickle.  [dup] is what becomes of a value. *)
Theorem C113_pickle_list : forall (V : Type) (dup : V -> V) (l : list V), (forall v, dup v = v) -> il_pickle dup l = l.
Proof. intros V dup l H. unfold il_pickle. rewrite (map_ext _ (fun v => v) H). apply map_id. Qed.
Print Assumptions C113_pickle_list.
Theorem C113_pickle_dict : forall (V : Type) (dup : V -> V) (d : dict V), NoDup (map fst d) -> id_pickle dup d = map (fun kv => (fst kv, dup (snd kv))) d.
Proof. exact @id_pickled. Qed.
Print Assumptions C113_pickle_dict.
(** The keys of a multi dict without values are lost, everything else is kept in order. *)
Theorem C113_pickle_multi : forall (V : Type) (dup : V -> V) (d : mdict V), NoDup (map fst d) ->
  imd_pickle dup d = map (fun kl => (fst kl, map dup (snd kl))) (filter (fun kl => match snd kl with [] => false | _ => true end) d).
Proof. exact @imd_pickled. Qed.
Print Assumptions C113_pickle_multi.
Example C113_pickle_multi_example : imd_pickle (fun v : N => v) [(lit "a", [1; 2]); (lit "b", []); (lit "c", [3])] = [(lit "a", [1; 2]); (lit "c", [3])].
Proof. reflexivity. Qed.
(** Without such keys the result compares equal and hashes equally. *)
Theorem C113_pickle_equal_partial : forall (V : Type) (dup : V -> V) (veq : V -> V -> bool) (fhash : list (option nat * (str * V)) -> Z) (d : mdict V),
  (forall v, veq (dup v) v = true) -> lawful veq fhash -> proper d ->
  md_eq veq (imd_pickle dup d) d = true /\ md_hash fhash (imd_pickle dup d) = md_hash fhash d.
Proof.
  intros V dup veq fhash d E L [N F]. assert (Q : md_eq veq (imd_pickle dup d) d = true).
  { rewrite imd_pickled, filter_all by auto. apply md_eq_dup; auto. }
  split; auto. apply (ProofCombined.md_hash_eq veq); auto. rewrite imd_pickled, filter_all, map_map by auto. exact N.
Qed.
Print Assumptions C113_pickle_equal_partial.
(** Refuted: with such a key it does not compare equal. *)
Theorem C113_pickle_equal_refuted : let d := m_init (SDict [(lit "a", Many []); (lit "b", One 1)]) in md_eq N.eqb (imd_pickle (fun v => v) d) d = false.
Proof. reflexivity. Qed.
Print Assumptions C113_pickle_equal_refuted.
Theorem C113_pickle_ordered : forall (V : Type) (dup : V -> V) (m : source V),
  exists o, iod_pickle dup (o_init m) = Some o /\ ordered_reads o (map (fun kv => (fst kv, dup (snd kv))) (pairs_of m)).
Proof. exact @iod_reads. Qed.
Print Assumptions C113_pickle_ordered.
Theorem C113_pickle_ordered_equal : forall (V : Type) (dup : V -> V) (veq : V -> V -> bool) (fhash : list (option nat * (str * V)) -> Z) (m : source V),
  (forall v, veq (dup v) v = true) -> lawful veq fhash ->
  exists o h, iod_pickle dup (o_init m) = Some o /\ omd_eq veq o (o_init m) = Some true /\ omd_hash fhash o = Some h /\ omd_hash fhash (o_init m) = Some h.
Proof. intros V dup veq fhash m. apply iod_same. Qed.
Print Assumptions C113_pickle_ordered_equal.
Example C113_pickle_ordered_example :
  option_map o_items_multi (iod_pickle (fun v : N => v) (o_init (SPairs [(lit "a", 1); (lit "b", 2); (lit "a", 3)]))) = Some (Some [(lit "a", 1); (lit "b", 2); (lit "a", 3)]).
Proof. vm_compute. reflexivity. Qed.
(** Refuted: a pickled, copied or deep-copied Authorization has the dict as its type and no
    credentials: [__reduce_ex__] passes the dict as the first argument of [__init__]. *)
Theorem C113_authorization_refuted : forall (V : Type) (dup : V -> V) (a : authorization V) t, auth_type a = KText t ->
  auth_data (auth_pickle dup a) = [] /\ auth_type (auth_pickle dup a) <> KText t.
Proof. intros V dup a t H. split; [reflexivity|]. discriminate. Qed.
Print Assumptions C113_authorization_refuted.

(** An immutable multi dict in the middle of others: whatever is done to its copies, its
    deep copies, the lists that were passed to it or that it returned, it stays the same.
    Missing: listvalues(), see the refutation. *)
Theorem C113_frozen_partial : forall (V : Type) (dup : V -> V) (s : store V) (i : nat) (l : list (action V)),
  reached dup (fun c => ~ hands_out c) s -> (i < length (objs s))%nat ->
  all_possible dup (fun c => ~ hands_out c) s l -> Forall (spares i) l -> view (acts dup s l) i = view s i.
Proof. intros V dup s i l. apply views_spared. Qed.
Print Assumptions C113_frozen_partial.
Example C113_frozen_example : let s := act (fun v : N => v) (act (fun v => v) start (NewList [1; 2])) (New (ADict [(lit "a", GList 0)])) in
  let l := [Copy 0; Call 1 (CAdd (lit "a") 3); Call 0 (CGetList (lit "a")); ChangeList 0 []; ChangeList 3 []] in
  reached (fun v : N => v) (fun c => ~ hands_out c) s /\ all_possible (fun v => v) (fun c => ~ hands_out c) s l /\ Forall (spares 0) l
  /\ view (acts (fun v => v) s l) 0 = [(lit "a", [1; 2])] /\ view (acts (fun v => v) s l) 1 = [(lit "a", [1; 2; 3])].
Proof.
  cbv zeta. split; [|split; [|split; [|vm_compute; auto]]].
  - repeat (apply re_step; [|vm_compute; intuition]). apply re_start.
  - vm_compute. intuition auto with arith; discriminate.
  - repeat constructor; cbn; intros; try discriminate; auto.
Qed.
(** Refuted: listvalues() hands out the lists of the immutable dict; changing one of them
    changes the dict. *)
Theorem C113_listvalues_refuted : let s := acts (fun v : N => v) start [New (APairs [(lit "a", 1)]); Call 0 CListValues] in
  In 0%nat (ModelMultiObject.held s) /\ view s 0 = [(lit "a", [1])] /\ view (act (fun v => v) s (ChangeList 0 [1; 2])) 0 = [(lit "a", [1; 2])].
Proof. vm_compute. auto. Qed.
Print Assumptions C113_listvalues_refuted.

(** fromkeys: each of the keys once, in the order of the first occurrences, with the value;
    multi dicts that can be changed likewise. *)
Theorem C113_fromkeys : forall (V : Type) (keys : list str) (v : V), exists r, distinct keys r
  /\ id_fromkeys keys v = map (fun k => (k, v)) r /\ md_fromkeys keys v = map (fun k => (k, [v])) r.
Proof. intros V keys v. destruct (distinct_total keys) as (r & H). exists r. split; auto. split; [apply id_keys|apply md_keys]; auto. Qed.
Print Assumptions C113_fromkeys.
(** Those of the immutable multi dicts hold the value as often as the key was given. *)
Theorem C113_fromkeys_multi : forall (V : Type) (keys : list str) (v : V), exists r, distinct keys r
  /\ imd_fromkeys keys v = map (fun k => (k, repeat v (times k keys))) r /\ ordered_reads (iod_fromkeys keys v) (map (fun k => (k, v)) keys).
Proof.
  intros V keys v. destruct (distinct_total keys) as (r & H). exists r. split; auto. split; [apply imd_keys; auto|].
  destruct (ProofOrdered.ordered_refines (SPairs (keyed keys v)) [] (Forall_nil _)) as [R _]. exact R.
Qed.
Print Assumptions C113_fromkeys_multi.
(** Refuted: so that the immutable and the changeable multi dict differ. *)
Theorem C113_fromkeys_refuted : imd_fromkeys [lit "a"; lit "a"] 1 = [(lit "a", [1; 1])] /\ md_fromkeys [lit "a"; lit "a"] 1 = [(lit "a", [1])].
Proof. vm_compute. auto. Qed.
Print Assumptions C113_fromkeys_refuted.
