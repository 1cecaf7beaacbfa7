From Coq Require Import Arith List NArith ZArith Bool Lia.
From Verif Require Import PyStr PyStrFacts ModelMultiDict ModelOrdered ModelCombined SpecMultiDict SpecOrdered SpecCombined
  ProofMultiDict ProofOrdered ProofCombined ModelCombinedObject SpecCombinedObject.
Import ListNotations.
Open Scope N_scope.

Lemma put_len {A} (l : list A) : forall i x, length (put l i x) = length l.
Proof. induction l as [|y l IH]; intros [|i] x; cbn [put length]; auto. Qed.
Lemma put_same {A} (l : list A) : forall i x z, (i < length l)%nat -> nth i (put l i x) z = x.
Proof. induction l as [|y l IH]; intros [|i] x z; cbn [put length nth]; intros H; try lia; auto. apply IH. lia. Qed.
Lemma put_other {A} (l : list A) : forall i j x z, i <> j -> nth j (put l i x) z = nth j l z.
Proof.
  induction l as [|y l IH]; intros [|i] [|j] x z H; cbn [put nth]; try reflexivity; try congruence. apply IH. congruence.
Qed.
Lemma old {A} (l t : list A) i z : (i < length l)%nat -> nth i (l ++ t) z = nth i l z.
Proof. apply app_nth1. Qed.
Lemma fresh_nth {A} (l : list A) x z : nth (length l) (l ++ [x]) z = x.
Proof. rewrite app_nth2, Nat.sub_diag; auto. Qed.

Section Obj.
  Context {V : Type}.
  Variable fhash : list (option nat * (str * V)) -> Z.
  Implicit Types s : cstore V.
  Notation stp := (c_step fhash).
  Notation run := (c_run fhash).
  Definition hash_of s o : option Z := snd (nth o (c_objs s) (0%nat, None)).

  (** One call on what exists already. *)
  Lemma step_keeps s x : (length (c_seqs s) <= length (c_seqs (stp s x)))%nat /\ (length (c_objs s) <= length (c_objs (stp s x)))%nat.
  Proof.
    destruct x; cbn [c_step c_seqs c_objs]; rewrite ?put_len, ?app_length; try (cbn [length]; lia).
    - unfold co_new. destruct (seq_at s l); cbn [c_seqs c_objs]; rewrite ?app_length; cbn [length]; lia.
    - unfold co_copy, co_new. destruct (seq_at _ _); cbn [c_seqs c_objs]; rewrite ?app_length; cbn [length]; lia.
    - unfold co_hash. destruct (snd _); cbn [fst c_seqs c_objs]; rewrite ?put_len; lia.
  Qed.
  Lemma step_list s x o : (o < length (c_objs s))%nat -> list_of (stp s x) o = list_of s o.
  Proof.
    intros H. destruct x; cbn [c_step]; auto.
    - unfold co_new, list_of. destruct (seq_at s l); cbn [c_objs]; rewrite old; auto.
    - unfold co_copy, co_new, list_of. destruct (seq_at _ _); cbn [c_objs]; rewrite old; auto.
    - unfold co_hash. destruct (snd _); cbn [fst]; auto. unfold list_of at 1. cbn [c_objs].
      destruct (Nat.eq_dec o0 o) as [->|n]; [rewrite put_same; auto|rewrite put_other; auto].
  Qed.
  Lemma step_seq s x l : (l < length (c_seqs s))%nat -> list_left l [x] -> seq_at (stp s x) l = seq_at s l.
  Proof.
    intros H N. destruct x; cbn [c_step]; auto.
    - unfold co_new, seq_at. destruct (nth l0 (c_seqs s) []); cbn [c_seqs]; rewrite ?old; auto.
    - unfold co_copy, co_new, seq_at. destruct (nth (length _) _ _); cbn [c_seqs]; rewrite ?old; auto. rewrite app_length. lia.
    - unfold co_hash. destruct (snd _); auto.
    - unfold seq_at. cbn [c_seqs]. apply put_other. intros ->. apply (N content). left. auto.
    - unfold seq_at. cbn [c_seqs]. apply old; auto.
  Qed.
  Lemma step_hash s x o : (o < length (c_objs s))%nat -> unhashed o [x] \/ hash_of s o <> None -> hash_of (stp s x) o = hash_of s o.
  Proof.
    intros H N. destruct x; cbn [c_step]; auto.
    - unfold co_new, hash_of. destruct (seq_at s l); cbn [c_objs]; rewrite old; auto.
    - unfold co_copy, co_new, hash_of. destruct (seq_at _ _); cbn [c_objs]; rewrite old; auto.
    - unfold co_hash. destruct (snd (nth o0 _ _)) eqn:E; auto. unfold hash_of. cbn [fst c_objs].
      destruct (Nat.eq_dec o0 o) as [->|n]; [|rewrite put_other; auto].
      destruct N as [N|N]; [exfalso; apply N; left; auto|]. exfalso. apply N. exact E.
  Qed.

  Lemma run_list l : forall s o, (o < length (c_objs s))%nat -> list_of (run s l) o = list_of s o /\ (o < length (c_objs (run s l)))%nat.
  Proof.
    induction l as [|x l IH]; intros s o H; auto. cbn [c_run fold_left]. fold (run (stp s x) l).
    destruct (IH (stp s x) o) as [A B]; [pose proof (step_keeps s x); lia|]. split; auto. rewrite A. apply step_list; auto.
  Qed.
  Lemma run_seq l : forall s i, (i < length (c_seqs s))%nat -> list_left i l -> seq_at (run s l) i = seq_at s i.
  Proof.
    induction l as [|x l IH]; intros s i H N; auto. cbn [c_run fold_left]. fold (run (stp s x) l).
    rewrite IH; [apply step_seq; auto| |].
    - intros c [->|[]]. apply (N c). left. auto.
    - pose proof (step_keeps s x); lia.
    - intros c Hc. apply (N c). right. auto.
  Qed.
  Lemma run_hash l : forall s o, (o < length (c_objs s))%nat -> unhashed o l \/ hash_of s o <> None -> hash_of (run s l) o = hash_of s o.
  Proof.
    induction l as [|x l IH]; intros s o H N; auto. cbn [c_run fold_left]. fold (run (stp s x) l).
    assert (E : hash_of (stp s x) o = hash_of s o).
    { apply step_hash; auto. destruct N as [N|N]; auto. left. intros [->|[]]. apply N. left. auto. }
    rewrite IH; auto; [pose proof (step_keeps s x); lia|]. rewrite E. destruct N as [N|N]; auto. left. intros F. apply N. right. auto.
  Qed.

  Lemma new_obj s l : (length (c_objs s) < length (c_objs (co_new s l)))%nat /\
    list_of (co_new s l) (length (c_objs s)) = match seq_at s l with [] => length (c_seqs s) | _ => l end /\
    hash_of (co_new s l) (length (c_objs s)) = None.
  Proof.
    unfold co_new, list_of, hash_of. destruct (seq_at s l); cbn [c_objs]; rewrite fresh_nth, app_length; cbn [length fst snd]; split; auto; lia.
  Qed.
  Lemma made_shows s l ops : seq_at s l <> [] ->
    combined_of (run (co_new s l) ops) (length (c_objs s)) =
    map (fun i => nth i (c_dicts (run (co_new s l) ops)) []) (nth l (c_seqs (run (co_new s l) ops)) []).
  Proof.
    intros H. destruct (new_obj s l) as (A & B & _). unfold combined_of. rewrite (proj1 (run_list ops _ _ A)), B.
    destruct (seq_at s l); [congruence|]. reflexivity.
  Qed.
  Lemma made_empty s l ops : seq_at s l = [] -> list_left (length (c_seqs s)) ops ->
    combined_of (run (co_new s l) ops) (length (c_objs s)) = [].
  Proof.
    intros H N. destruct (new_obj s l) as (A & B & _). unfold combined_of. rewrite (proj1 (run_list ops _ _ A)), B, H.
    rewrite run_seq; auto; unfold co_new; rewrite H; unfold seq_at; cbn [c_seqs]; [|rewrite app_length; cbn; lia].
    rewrite fresh_nth. auto.
  Qed.
  Lemma copied_shows s o ops : list_left (list_of (co_copy s o) (length (c_objs s))) ops ->
    combined_of (run (co_copy s o) ops) (length (c_objs s)) =
    map (fun i => nth i (c_dicts (run (co_copy s o) ops)) []) (nth (list_of s o) (c_seqs s) []).
  Proof.
    intros N. unfold co_copy in *. set (s1 := CStore (c_dicts s) (c_seqs s ++ [seq_at s (list_of s o)]) (c_objs s)) in *.
    assert (Q : seq_at s1 (length (c_seqs s)) = seq_at s (list_of s o)) by (unfold seq_at, s1; cbn [c_seqs]; apply fresh_nth).
    change (length (c_objs s)) with (length (c_objs s1)) in *.
    destruct (new_obj s1 (length (c_seqs s))) as (A & B & _).
    unfold combined_of. rewrite (proj1 (run_list ops _ _ A)). rewrite B in *. rewrite Q in *.
    destruct (seq_at s (list_of s o)) as [|i t] eqn:E.
    - rewrite run_seq; auto; unfold co_new; rewrite Q; unfold seq_at in *; cbn [c_seqs]; [|rewrite app_length; cbn; lia].
      rewrite fresh_nth, E. auto.
    - rewrite run_seq; auto; unfold co_new; rewrite Q; unfold seq_at in *; cbn [c_seqs].
      + rewrite Q, E. reflexivity.
      + unfold s1. cbn [c_seqs]. rewrite app_length. cbn; lia.
  Qed.

  Lemma hash_again s o ops : (o < length (c_objs s))%nat ->
    snd (co_hash fhash (run (fst (co_hash fhash s o)) ops) o) = snd (co_hash fhash s o).
  Proof.
    intros H. set (s1 := fst (co_hash fhash s o)).
    assert (E : hash_of s1 o = Some (snd (co_hash fhash s o)) /\ (o < length (c_objs s1))%nat).
    { unfold s1, co_hash, hash_of. destruct (snd (nth o (c_objs s) (0%nat, None))) as [z|] eqn:Ez; cbn [fst snd c_objs]; auto.
      rewrite put_same, put_len; auto. }
    destruct E as [E L]. unfold co_hash at 1. fold (hash_of (run s1 ops) o). rewrite run_hash, E; auto. right. congruence.
  Qed.
  Lemma hash_first s l ops : unhashed (length (c_objs s)) ops ->
    let s' := run (co_new s l) ops in
    snd (co_hash fhash s' (length (c_objs s))) = fhash (map (fun kv => (None, kv)) (c_items_multi (combined_of s' (length (c_objs s))))).
  Proof.
    intros N s'. destruct (new_obj s l) as (A & _ & B). unfold co_hash. fold (hash_of s' (length (c_objs s))).
    unfold s'. rewrite run_hash, B; auto.
  Qed.
  Lemma has_multi (ds : combined V) kv : In kv (c_items_multi ds) <-> some_has ds kv.
  Proof.
    destruct kv as [k v]. unfold c_items_multi. rewrite in_flat_map. unfold some_has, has_pair. cbn [fst snd].
    split; intros (d & H1 & H2); exists d; split; auto; apply in_multi; auto.
  Qed.
  Lemma hash_first_same veq s l ops s2 l2 ops2 : lawful veq fhash -> (forall v, veq v v = true) ->
    unhashed (length (c_objs s)) ops -> unhashed (length (c_objs s2)) ops2 ->
    (forall kv, some_has (combined_of (run (co_new s l) ops) (length (c_objs s))) kv <->
                some_has (combined_of (run (co_new s2 l2) ops2) (length (c_objs s2))) kv) ->
    snd (co_hash fhash (run (co_new s l) ops) (length (c_objs s))) = snd (co_hash fhash (run (co_new s2 l2) ops2) (length (c_objs s2))).
  Proof.
    intros L R N N2 H. rewrite (hash_first s l ops N), (hash_first s2 l2 ops2 N2). apply L; intros i k v Hi.
    - apply in_tagged in Hi as [-> Hi]. exists v. split; auto. apply in_tagged. split; auto. apply has_multi, H, has_multi. auto.
    - apply in_tagged in Hi as [-> Hi]. exists v. split; auto. apply in_tagged. split; auto. apply has_multi, H, has_multi. auto.
  Qed.

  Variable veq : V -> V -> bool.
  Lemma co_eq_all (a b : combined V) : co_eq veq a b = true.
  Proof. reflexivity. Qed.
  Lemma co_eq_multi_exact (a : combined V) d : co_eq_multi veq a d = true <-> d = [].
  Proof. unfold co_eq_multi, md_eq, own. destruct d; cbn; split; auto; discriminate. Qed.
  Lemma omd_eq_co_exact m (ds : combined V) : Forall proper ds ->
    exists b, omd_eq_co veq (o_init m) ds = Some b /\
      (b = true <-> forall k, Forall2 (fun x y => veq x y = true) (held ds k) (of_key (pairs_of m) k)).
  Proof.
    intros P. destruct (c_lists_spec ds P) as [L1 L2].
    assert (G : forall k, m_getlist (c_lists ds) k = held ds k).
    { intros k. unfold m_getlist. rewrite L2. destruct (held ds k); auto. }
    assert (Q : proper (c_lists ds)).
    { split; auto. apply Forall_forall. intros [k l] Hl. cbn [snd]. apply nodup_get in Hl; auto. rewrite L2 in Hl.
      destruct (held ds k); congruence. }
    assert (K : c_len ds = length (c_lists ds)).
    { unfold c_len. destruct (c_keys_spec ds) as [K1 K2]. rewrite <- (map_length fst (c_lists ds)).
      assert (I : forall k, In k (c_keys ds) <-> In k (map fst (c_lists ds))).
      { intros k. rewrite K2, <- (held_in ds k P). specialize (L2 k). destruct (dget (c_lists ds) k) as [l|] eqn:E.
        - split; intros _; [|destruct (held ds k); congruence]. apply dget_In in E. apply in_map_iff. exists (k, l). auto.
        - destruct (held ds k); [|congruence]. apply dget_none in E. tauto. }
      apply Nat.le_antisymm; apply NoDup_incl_length; auto; intros k; apply I. }
    destruct (omd_eq_multi_spec veq m (c_lists ds) Q) as (b & B1 & B2). exists b. split.
    - rewrite <- B1. unfold omd_eq_co, omd_eq_multi, m_len. rewrite K. destruct (Nat.eqb _ _); [|reflexivity].
      destruct (o_lists (o_init m)) as [ls|]; cbn [option_map]; [|reflexivity].
      assert (E : forall ls0, forallb (fun kl => leq veq (c_getlist ds (fst kl)) (snd kl)) ls0 = forallb (fun kl => leq veq (m_getlist (c_lists ds) (fst kl)) (snd kl)) ls0).
      { induction ls0 as [|kl t IH]; auto. cbn [forallb]. rewrite IH, c_getlist_spec, G. reflexivity. }
      rewrite E. reflexivity.
    - rewrite B2. split; intros H k; specialize (H k); rewrite G in *; auto.
  Qed.
End Obj.
