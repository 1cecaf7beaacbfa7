(** C127: CombinedMultiDict objects next to the dicts and lists they are made of. *)
From Coq Require Import Arith List NArith ZArith Bool Lia.
From Verif Require Import PyStr PyStrFacts ModelMultiDict ModelOrdered ModelCombined SpecOrdered SpecCombined
  ModelCombinedObject SpecCombinedObject ProofCombinedObject.
Import ListNotations.
Open Scope N_scope.

(** Made from a list that is not empty, and whatever happens then: the object goes through
    the dicts that the list holds now, as these dicts are now. *)
Theorem C127_shows : forall (V : Type) (fhash : list (option nat * (str * V)) -> Z) (s : cstore V) (l : nat) (calls : list (cop V)),
  nth l (c_seqs s) [] <> [] ->
  combined_of (c_run fhash (co_new s l) calls) (length (c_objs s)) =
  map (fun i => nth i (c_dicts (c_run fhash (co_new s l) calls)) []) (nth l (c_seqs (c_run fhash (co_new s l) calls)) []).
Proof. exact @made_shows. Qed.
(** A copy keeps the dicts that the object had, whatever happens to the list of the object;
    the dicts are shown as they are now.  Nobody changes the list of the copy itself. *)
Theorem C127_copy : forall (V : Type) (fhash : list (option nat * (str * V)) -> Z) (s : cstore V) (o : nat) (calls : list (cop V)),
  list_left (list_of (co_copy s o) (length (c_objs s))) calls ->
  combined_of (c_run fhash (co_copy s o) calls) (length (c_objs s)) =
  map (fun i => nth i (c_dicts (c_run fhash (co_copy s o) calls)) []) (nth (list_of s o) (c_seqs s) []).
Proof. exact @copied_shows. Qed.
(** Finding: an empty list is not kept: whatever is put into it later, the object made from
    it shows nothing. *)
Theorem C127_empty_refuted : forall (V : Type) (fhash : list (option nat * (str * V)) -> Z) (s : cstore V) (l : nat) (calls : list (cop V)),
  nth l (c_seqs s) [] = [] -> list_left (length (c_seqs s)) calls ->
  combined_of (c_run fhash (co_new s l) calls) (length (c_objs s)) = [].
Proof. exact @made_empty. Qed.
Print Assumptions C127_shows.
Print Assumptions C127_copy.
Print Assumptions C127_empty_refuted.

(** One MultiDict; list 0 holds it, list 1 is empty.  Objects 0 and 1 are made from the
    lists, 2 is a copy of 0; then the dict changes, a second dict is put into both lists. *)
Definition store1 : cstore N := CStore [[(lit "a", [1])]; [(lit "b", [2])]] [[0%nat]; []] [].
Definition calls1 : list (cop N) :=
  [CNew 1; CCopy 0; CCall 0 (MAdd (lit "a") 3); CSeq 0 [1%nat; 0%nat]; CSeq 1 [1%nat]].
Example C127_example :
  let s := c_run (fun _ => 0%Z) (co_new store1 0) calls1 in
  nth 0 (c_seqs store1) [] <> [] /\
  combined_of s 0 = [[(lit "b", [2])]; [(lit "a", [1; 3])]] /\
  combined_of s 1 = [] /\ seq_at s 1 = [1%nat] /\
  combined_of s 2 = [[(lit "a", [1; 3])]] /\
  list_of s 2 = 3%nat /\ list_left 3 calls1.
Proof.
  cbv zeta. split; [discriminate|]. repeat (split; [vm_compute; reflexivity|]).
  intros c [H|[H|[H|[H|[H|[]]]]]]; discriminate H.
Qed.

(** The hash asked for first is that of the pairs shown then: objects that show the same
    pairs hash equally. *)
Theorem C127_hash : forall (V : Type) (fhash : list (option nat * (str * V)) -> Z) (veq : V -> V -> bool)
    (s : cstore V) (l : nat) (calls : list (cop V)) (s2 : cstore V) (l2 : nat) (calls2 : list (cop V)),
  lawful veq fhash -> (forall v, veq v v = true) ->
  unhashed (length (c_objs s)) calls -> unhashed (length (c_objs s2)) calls2 ->
  (forall kv, some_has (combined_of (c_run fhash (co_new s l) calls) (length (c_objs s))) kv <->
              some_has (combined_of (c_run fhash (co_new s2 l2) calls2) (length (c_objs s2))) kv) ->
  snd (co_hash fhash (c_run fhash (co_new s l) calls) (length (c_objs s))) =
  snd (co_hash fhash (c_run fhash (co_new s2 l2) calls2) (length (c_objs s2))).
Proof. exact @hash_first_same. Qed.
(** Asked for again, the hash is the same, whatever happened to the dicts and the lists. *)
Theorem C127_hash_kept : forall (V : Type) (fhash : list (option nat * (str * V)) -> Z) (s : cstore V) (o : nat) (calls : list (cop V)),
  (o < length (c_objs s))%nat ->
  snd (co_hash fhash (c_run fhash (fst (co_hash fhash s o)) calls) o) = snd (co_hash fhash s o).
Proof. exact @hash_again. Qed.
(** and the first hash is exactly this. *)
Theorem C127_hash_exact : forall (V : Type) (fhash : list (option nat * (str * V)) -> Z) (s : cstore V) (l : nat) (calls : list (cop V)),
  unhashed (length (c_objs s)) calls ->
  let s' := c_run fhash (co_new s l) calls in
  snd (co_hash fhash s' (length (c_objs s))) = fhash (map (fun kv => (None, kv)) (c_items_multi (combined_of s' (length (c_objs s))))).
Proof. exact @hash_first. Qed.
Print Assumptions C127_hash.
Print Assumptions C127_hash_kept.
Print Assumptions C127_hash_exact.

(** A hash of sets that counts whether the pair a, 1 is there; it respects equality. *)
Definition knows (l : list (option nat * (str * N))) : Z :=
  if existsb (fun x => match x with (None, (k, v)) => eqs k (lit "a") && (v =? 1) | _ => false end) l then 1%Z else 0%Z.
Lemma knows_lawful : lawful N.eqb knows.
Proof.
  assert (E : forall a b : list (option nat * (str * N)), (forall i k v, In (i, (k, v)) a -> exists w, In (i, (k, w)) b /\ (v =? w) = true) ->
    existsb (fun x => match x with (None, (k, v)) => eqs k (lit "a") && (v =? 1) | _ => false end) a = true ->
    existsb (fun x => match x with (None, (k, v)) => eqs k (lit "a") && (v =? 1) | _ => false end) b = true).
  { intros a b H Ha. apply existsb_exists in Ha as ([i [k v]] & Hi & Ei). destruct (H _ _ _ Hi) as (w & Hw & Ew).
    apply N.eqb_eq in Ew. subst w. apply existsb_exists. exists (i, (k, v)). auto. }
  intros a b H1 H2. unfold knows. assert (E1 := E a b H1).
  assert (E2 : existsb (fun x => match x with (None, (k, v)) => eqs k (lit "a") && (v =? 1) | _ => false end) b = true ->
               existsb (fun x => match x with (None, (k, v)) => eqs k (lit "a") && (v =? 1) | _ => false end) a = true).
  { apply E. intros i k v Hi. destruct (H2 _ _ _ Hi) as (w & Hw & Ew). exists w. split; auto. rewrite N.eqb_sym. auto. }
  destruct (existsb _ a), (existsb _ b); auto; [discriminate E1; auto|discriminate E2; auto].
Qed.
(** Finding: after the dict behind it has changed, an object that was hashed before keeps the
    old hash, and one made later shows the same pairs and hashes differently. *)
Theorem C127_stale_refuted : exists (s : cstore N) (o o' : nat) (fhash : list (option nat * (str * N)) -> Z),
  lawful N.eqb fhash /\ combined_of s o = combined_of s o' /\ snd (co_hash fhash s o) <> snd (co_hash fhash s o').
Proof.
  exists (c_run knows store1 [CNew 0; CHash 0; CCall 0 (MSet (lit "a") 2); CNew 0]), 0%nat, 1%nat, knows.
  split; [exact knows_lawful|]. split; [vm_compute; reflexivity|vm_compute; discriminate].
Qed.
Print Assumptions C127_stale_refuted.

(** Equality, the part that holds: an OrderedMultiDict on the left equals a combined dict
    exactly when both have the same values, in the same order, under every key.  Missing:
    combined dicts on the left, see the refutations. *)
Theorem C127_equal_partial : forall (V : Type) (veq : V -> V -> bool) (m : source V) (ds : combined V), Forall proper ds ->
  exists b, omd_eq_co veq (o_init m) ds = Some b /\
    (b = true <-> forall k, Forall2 (fun x y => veq x y = true) (held ds k) (of_key (pairs_of m) k)).
Proof. exact @omd_eq_co_exact. Qed.
(** Finding: any two combined dicts compare equal, and one equals a MultiDict exactly if that
    is empty. *)
Theorem C127_equal_refuted : forall (V : Type) (veq : V -> V -> bool) (a b : combined V) (d : mdict V),
  co_eq veq a b = true /\ (co_eq_multi veq a d = true <-> d = []).
Proof. intros. split; [apply co_eq_all|apply co_eq_multi_exact]. Qed.
(** Finding: combined dicts that compare equal hash differently; and equality with an
    OrderedMultiDict depends on which side it stands. *)
Theorem C127_unequal_hash_refuted : exists (s : cstore N) (o o' : nat) (fhash : list (option nat * (str * N)) -> Z) (m : source N),
  lawful N.eqb fhash /\ co_eq N.eqb (combined_of s o) (combined_of s o') = true /\
  snd (co_hash fhash s o) <> snd (co_hash fhash s o') /\
  omd_eq_co N.eqb (o_init m) (combined_of s o) = Some true /\ co_eq_omd (combined_of s o) (o_init m) = false.
Proof.
  exists (c_run knows store1 [CNew 0; CNew 1]), 0%nat, 1%nat, knows, (SPairs [(lit "a", 1)]).
  split; [exact knows_lawful|]. split; [reflexivity|]. split; [vm_compute; discriminate|]. split; vm_compute; reflexivity.
Qed.
Print Assumptions C127_equal_partial.
Print Assumptions C127_equal_refuted.
Print Assumptions C127_unequal_hash_refuted.
Example C127_equal_example :
  let ds := [[(lit "a", [1])]; [(lit "b", [2]); (lit "a", [3])]] in
  Forall proper ds /\
  omd_eq_co N.eqb (o_init (SPairs [(lit "a", 1); (lit "b", 2); (lit "a", 3)])) ds = Some true /\
  omd_eq_co N.eqb (o_init (SPairs [(lit "a", 3); (lit "b", 2); (lit "a", 1)])) ds = Some false /\
  omd_eq_co N.eqb (o_init (SPairs [(lit "a", 1); (lit "a", 3)])) ds = Some false.
Proof.
  cbv zeta. split; [|vm_compute; auto].
  assert (H : forall x y : str, x <> y -> NoDup [x; y]).
  { intros x y H. repeat constructor; intros X; [destruct X as [X|[]]; auto|destruct X]. }
  constructor; [split; [repeat constructor; intros []|repeat constructor; discriminate]|].
  constructor; [split; [apply H; discriminate|repeat constructor; discriminate]|constructor].
Qed.
