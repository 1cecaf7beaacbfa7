(** C03: equality and hashing of immutable multi dicts; C04: CombinedMultiDict. *)
From Coq Require Import Arith List NArith ZArith Bool Lia.
From Verif Require Import PyStr PyStrFacts ModelMultiDict ModelOrdered ModelCombined SpecOrdered SpecCombined ProofCombined.
Import ListNotations.
Open Scope N_scope.

(** C03 for two ImmutableMultiDicts: for any equality of values and any hash of frozensets
    that respects it, dicts that compare equal hash equally. *)
Theorem C03_multi : forall (V : Type) (veq : V -> V -> bool) (fhash : list (option nat * (str * V)) -> Z) (a b : mdict V),
  lawful veq fhash -> NoDup (map fst a) -> NoDup (map fst b) ->
  md_eq veq a b = true -> md_hash fhash a = md_hash fhash b.
Proof. exact @md_hash_eq. Qed.
(** C03 for two ImmutableOrderedMultiDicts, built from anything. *)
Theorem C03_ordered : forall (V : Type) (veq : V -> V -> bool) (fhash : list (option nat * (str * V)) -> Z) (m1 m2 : source V),
  lawful veq fhash -> omd_eq veq (o_init m1) (o_init m2) = Some true ->
  exists h, omd_hash fhash (o_init m1) = Some h /\ omd_hash fhash (o_init m2) = Some h.
Proof. exact @omd_hash_eq. Qed.
(** Two ordered dicts compare equal exactly when their sequences of pairs do. *)
Theorem C03_ordered_equality : forall (V : Type) (veq : V -> V -> bool) (m1 m2 : source V),
  omd_eq veq (o_init m1) (o_init m2) = Some (pairs_eq veq (pairs_of m1) (pairs_of m2)).
Proof. exact @omd_eq_spec. Qed.
Example C03_example :
  let a := [(lit "a", [1; 2]); (lit "b", [3])] in let b := [(lit "b", [3]); (lit "a", [1; 2])] in
  md_eq N.eqb a b = true /\ NoDup (map fst a) /\ NoDup (map fst b) /\
  omd_eq N.eqb (o_init (SPairs [(lit "a", 1); (lit "b", 2)])) (o_init (SDict [(lit "a", One 1); (lit "b", Many [2])])) = Some true /\
  omd_eq N.eqb (o_init (SPairs [(lit "a", 1); (lit "b", 2)])) (o_init (SPairs [(lit "b", 2); (lit "a", 1)])) = Some false.
Proof.
  cbv zeta. assert (H : forall x y : str, x <> y -> NoDup [x; y]).
  { intros x y H. repeat constructor; intros X; [destruct X as [X|[]]; auto|destruct X]. }
  split; [reflexivity|]. split; [apply H; discriminate|]. split; [apply H; discriminate|]. vm_compute. auto.
Qed.
(** Finding: an ImmutableOrderedMultiDict compares equal to an ImmutableMultiDict with the
    same lists, yet hashes positions as well; and the other way round they are unequal. *)
Theorem C03_mixed_refuted : exists (m : source N) (d : mdict N) (fhash : list (option nat * (str * N)) -> Z),
  lawful N.eqb fhash /\ NoDup (map fst d) /\
  omd_eq_multi N.eqb (o_init m) d = Some true /\ md_eq_omd d (o_init m) = false /\
  omd_hash fhash (o_init m) <> Some (md_hash fhash d).
Proof.
  exists (SPairs [(lit "a", 1)]), [(lit "a", [1])], (fun l => if existsb (fun x => match fst x with None => true | _ => false end) l then 1%Z else 0%Z).
  split; [|split; [repeat constructor; intros []|split; [reflexivity|split; [reflexivity|vm_compute; discriminate]]]].
  intros a b H1 H2. cbv beta.
  assert (E : forall a b : list (option nat * (str * N)), (forall i k v, In (i, (k, v)) a -> exists w, In (i, (k, w)) b) ->
    existsb (fun x => match fst x with None => true | _ => false end) a = true -> existsb (fun x => match fst x with None => true | _ => false end) b = true).
  { intros a0 b0 H Ha. apply existsb_exists in Ha as ([i [k v]] & Hi & Ei). destruct (H _ _ _ Hi) as (w & Hw). apply existsb_exists. exists (i, (k, w)). auto. }
  assert (E1 := E a b). assert (E2 := E b a).
  destruct (existsb _ a), (existsb _ b); auto.
  - discriminate E1; auto. intros i k v Hi. destruct (H1 _ _ _ Hi) as (w & Hw & _). eauto.
  - discriminate E2; auto. intros i k v Hi. destruct (H2 _ _ _ Hi) as (w & Hw & _). eauto.
Qed.
(** An ordered dict compares equal to a plain one exactly when both have the same values, in
    the same order, under every key. *)
Theorem C03_mixed_equality : forall (V : Type) (veq : V -> V -> bool) (m : source V) (d : mdict V), proper d ->
  exists b, omd_eq_multi veq (o_init m) d = Some b /\
    (b = true <-> forall k, Forall2 (fun x y => veq x y = true) (m_getlist d k) (of_key (pairs_of m) k)).
Proof. exact @omd_eq_multi_spec. Qed.
Print Assumptions C03_mixed_equality.
Example C03_mixed_equality_example :
  omd_eq_multi N.eqb (o_init (SPairs [(lit "a", 1); (lit "b", 3); (lit "a", 2)])) [(lit "b", [3]); (lit "a", [1; 2])] = Some true /\
  omd_eq_multi N.eqb (o_init (SPairs [(lit "a", 1); (lit "b", 3); (lit "a", 2)])) [(lit "b", [4]); (lit "a", [1; 2])] = Some false.
Proof. split; reflexivity. Qed.
Print Assumptions C03_multi.
Print Assumptions C03_ordered.
Print Assumptions C03_ordered_equality.
Print Assumptions C03_mixed_refuted.

(** C04, reads of one key: item and get give the first held value, getlist all of them. *)
Theorem C04_lookup : forall (V : Type) (ds : combined V) (k : str) (default : V), Forall proper ds ->
  c_getlist ds k = held ds k /\
  c_getitem ds k = match held ds k with v :: _ => Ok v | [] => Raise KeyError end /\
  c_get ds k default = Ok (match held ds k with v :: _ => v | [] => default end) /\
  (c_contains ds k = true <-> held ds k <> []).
Proof.
  intros V ds k x H. split; [apply c_getlist_spec|]. split; [apply c_getitem_spec; auto|]. split; [apply c_get_spec; auto|].
  rewrite (held_in ds k H). apply c_contains_spec.
Qed.
(** C04, the keys: the union without duplicates; len counts them. *)
Theorem C04_keys : forall (V : Type) (ds : combined V),
  NoDup (c_keys ds) /\ (forall k, In k (c_keys ds) <-> exists d, In d ds /\ In k (map fst d)) /\ c_len ds = length (c_keys ds).
Proof. intros V ds. destruct (c_keys_spec ds) as [H1 H2]. auto. Qed.
(** C04, get with a type: among the first values of the wrapped dicts, in order, the first
    one the conversion accepts.  Missing: values behind a refused one in the same dict, see
    the refutation. *)
Theorem C04_typed_partial : forall (V W : Type) (ds : combined V) (k : str) (conv : V -> res W) (default : W), Forall proper ds ->
  exists l r, heads ds k l /\ first_accepted conv l r /\
    c_get_typed ds k conv default = match r with Some y => y | None => Ok default end.
Proof.
  intros V W ds k conv x H. destruct (heads_total ds k H) as (l & Hl). destruct (fa_total conv l) as (r & Hr).
  exists l, r. split; auto. split; auto. eapply c_get_typed_spec; eauto.
Qed.
(** C04, the listings all report the held values: multi items and lists everything, items
    and values the first for each key, to_dict likewise. *)
Theorem C04_listings_partial : forall (V : Type) (ds : combined V), Forall proper ds ->
  (forall k, of_key (c_items_multi ds) k = held ds k) /\
  c_items ds = Ok (firsts (c_items_multi ds)) /\
  c_values ds = Ok (map snd (firsts (c_items_multi ds))) /\
  NoDup (map fst (c_lists ds)) /\
  (forall k, dget (c_lists ds) k = match held ds k with [] => None | l => Some l end) /\
  (exists t, c_to_dict ds = Ok t /\ NoDup (map fst t) /\ forall k, dget t k = match held ds k with v :: _ => Some v | [] => None end).
Proof.
  intros V ds H. split; [intros; apply c_items_multi_spec; auto|]. split; [apply c_items_spec; auto|].
  split; [unfold c_values; rewrite c_items_spec; auto|]. destruct (c_lists_spec ds H) as [H1 H2]. split; auto. split; auto. apply c_to_dict_spec. auto.
Qed.
(** typed getlist: all held values that the conversion accepts *)
Theorem C04_typed_list : forall (V W : Type) (ds : combined V) (k : str) (conv : V -> res W),
  c_getlist_typed ds k conv = convert_all conv (held ds k).
Proof. exact @c_getlist_typed_spec. Qed.
Example C04_example :
  let ds := [[(lit "a", [1; 2]); (lit "b", [3])]; [(lit "c", [4]); (lit "a", [5])]] in
  Forall proper ds /\ c_getlist ds (lit "a") = [1; 2; 5] /\ c_items ds = Ok [(lit "a", 1); (lit "b", 3); (lit "c", 4)] /\
  c_lists ds = [(lit "a", [1; 2; 5]); (lit "b", [3]); (lit "c", [4])] /\
  c_get_typed ds (lit "a") (fun v => if v =? 1 then Raise ValueError else Ok v) 0 = Ok 5.
Proof.
  cbv zeta. split; [|vm_compute; auto].
  assert (H : forall (x y : str) (a b : list N), x <> y -> a <> [] -> b <> [] -> proper [(x, a); (y, b)]).
  { intros x y a b H Ha Hb. split; [|repeat constructor; auto]. cbn. repeat constructor; intros X; [destruct X as [X|[]]; auto|destruct X]. }
  constructor; [apply H; discriminate|]. constructor; [apply H; discriminate|constructor].
Qed.
(** Finding: to_dict(flat=False) keeps, for each key, only the list of the first dict that
    has it, so it reports less than lists(). *)
Theorem C04_to_dict_refuted : exists (ds : combined N) (k : str), Forall proper ds /\
  dget (c_lists ds) k = Some [1; 2] /\ dget (c_to_dict_lists ds) k = Some [1].
Proof.
  exists [[(lit "a", [1])]; [(lit "a", [2])]], (lit "a"). split; [|vm_compute; auto].
  repeat constructor; cbn; auto; discriminate.
Qed.
Theorem C04_to_dict_lists : forall (V : Type) (ds : combined V) (k : str), Forall proper ds ->
  dget (c_to_dict_lists ds) k = match find (fun d => m_contains d k) ds with Some d => Some (m_getlist d k) | None => None end.
Proof. exact @c_to_dict_lists_spec. Qed.
(** Finding: a value behind a refused one in the same dict is never tried. *)
Theorem C04_typed_refuted : exists (ds : combined N) (k : str) (conv : N -> res N), Forall proper ds /\
  held ds k = [1; 2] /\ conv 1 = Raise ValueError /\ conv 2 = Ok 2 /\ c_get_typed ds k conv 0 = Ok 0.
Proof.
  exists [[(lit "a", [1; 2])]], (lit "a"), (fun v => if v =? 1 then Raise ValueError else Ok v). split; [|vm_compute; auto].
  repeat constructor; cbn; auto; discriminate.
Qed.
Print Assumptions C04_lookup.
Print Assumptions C04_keys.
Print Assumptions C04_typed_partial.
Print Assumptions C04_listings_partial.
Print Assumptions C04_typed_list.
Print Assumptions C04_to_dict_refuted.
Print Assumptions C04_to_dict_lists.
Print Assumptions C04_typed_refuted.
