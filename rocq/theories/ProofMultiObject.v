(** Proofs about MultiDict objects next to each other. *)
From Coq Require Import Arith List NArith ZArith Bool Lia ZifyBool ZifyN ZifyNat.
From Verif Require Import PyStr PyStrFacts ModelMultiDict SpecMultiDict ProofMultiDict ModelOrdered SpecOrdered ProofOrdered ModelCombined SpecCombined ProofCombined
  ModelMultiObject SpecMultiObject.
Import ListNotations.
Open Scope N_scope.
Ltac inv H := inversion H; subst; clear H.

Section Stores.
  Context {V : Type}.
  Implicit Types (s : store V) (d : dict nat) (i j r : nat) (k : str).
  Notation content := (@ModelMultiObject.content V).

  Lemma put_length {A} (l : list A) : forall i x, length (put_at l i x) = length l.
  Proof. induction l as [|y l IH]; intros [|i] x; cbn; auto. Qed.
  Lemma put_nth {A} (l : list A) : forall i x j z, nth j (put_at l i x) z = if Nat.eqb j i then (if Nat.ltb i (length l) then x else nth j l z) else nth j l z.
  Proof.
    induction l as [|y l IH]; intros i x j z.
    - destruct i; cbn; destruct j; cbn; auto; destruct (Nat.eqb j i); auto.
    - destruct i as [|i], j as [|j]; cbn [put_at nth Nat.eqb length]; auto. rewrite IH.
      destruct (Nat.eqb j i); auto.
  Qed.
  Lemma obj_set s i d j : obj (set_obj s i d) j = if Nat.eqb j i then (if Nat.ltb i (length (objs s)) then d else obj s j) else obj s j.
  Proof. unfold obj, set_obj. cbn [objs]. apply put_nth. Qed.
  Lemma obj_here s i d : (i < length (objs s))%nat -> obj (set_obj s i d) i = d.
  Proof. intros H. rewrite obj_set, Nat.eqb_refl. destruct (Nat.ltb_spec i (length (objs s))); [auto|lia]. Qed.
  Lemma obj_there s i d j : j <> i -> obj (set_obj s i d) j = obj s j.
  Proof. intros H. rewrite obj_set. destruct (Nat.eqb_spec j i); [contradiction|auto]. Qed.
  Lemma content_alloc s l r : (r < length (lists s))%nat -> content (fst (alloc s l)) r = content s r.
  Proof. intros H. unfold ModelMultiObject.content, alloc. cbn [fst lists]. apply app_nth1, H. Qed.
  Lemma content_new s l : content (fst (alloc s l)) (length (lists s)) = l.
  Proof. unfold ModelMultiObject.content, alloc. cbn [fst lists]. rewrite app_nth2, Nat.sub_diag; auto. Qed.
  Lemma content_set s r l r' : content (set_list s r l) r' = if Nat.eqb r' r then (if Nat.ltb r (length (lists s)) then l else content s r') else content s r'.
  Proof. apply put_nth. Qed.

  (** ** Dicts under a map *)
  Lemma map_dset {A B} (f : A -> B) (d : dict A) k x : map (fun kr => (fst kr, f (snd kr))) (dset d k x) = dset (map (fun kr => (fst kr, f (snd kr))) d) k (f x).
  Proof. induction d as [|[k' y] d IH]; [reflexivity|]. cbn [dset map fst snd]. destruct (eqs k k'); cbn [map fst snd]; [reflexivity|]. rewrite IH. reflexivity. Qed.
  Lemma map_ddel {A B} (f : A -> B) (d : dict A) k : map (fun kr => (fst kr, f (snd kr))) (ddel d k) = ddel (map (fun kr => (fst kr, f (snd kr))) d) k.
  Proof. unfold ddel. induction d as [|[k' y] d IH]; [reflexivity|]. cbn [filter map fst snd]. destruct (negb (eqs k k')); cbn [map fst snd]; rewrite IH; reflexivity. Qed.
  Lemma map_dget {A B} (f : A -> B) (d : dict A) k : dget (map (fun kr => (fst kr, f (snd kr))) d) k = option_map f (dget d k).
  Proof. induction d as [|[k' y] d IH]; [reflexivity|]. cbn [dget map fst snd]. destruct (eqs k k'); [reflexivity|exact IH]. Qed.
  Lemma view_get s i k : dget (view s i) k = option_map (content s) (dget (obj s i) k).
  Proof. apply map_dget. Qed.
  Lemma view_keys s i : map fst (view s i) = map fst (obj s i).
  Proof. unfold view. rewrite map_map. reflexivity. Qed.
  Lemma In_dset {A} (d : dict A) k x k' y : In (k', y) (dset d k x) -> In (k', y) d \/ k' = k /\ y = x.
  Proof.
    induction d as [|[k1 z] d IH]; cbn [dset].
    - intros [[= <- <-]|[]]. auto.
    - destruct (eqs k k1) eqn:E; cbn [In].
      + apply eqs_eq in E. subst k1. intros [[= <- <-]|H]; auto.
      + intros [H|H]; auto. apply IH in H. destruct H; auto.
  Qed.
  Lemma In_ddel {A} (d : dict A) k k' (y : A) : In (k', y) (ddel d k) -> In (k', y) d /\ k' <> k.
  Proof.
    unfold ddel. rewrite filter_In. cbn [fst]. intros [H E]. split; auto. intros ->. rewrite (proj2 (eqs_eq k k) eq_refl) in E. discriminate.
  Qed.
  Lemma ddel_nodup {A} (d : dict A) k : NoDup (map fst d) -> NoDup (map fst (ddel d k)).
  Proof.
    intros H. unfold ddel. induction d as [|[k' y] d IH]; [constructor|]. cbn [map fst] in H. inv H. cbn [filter fst].
    destruct (negb (eqs k k')); auto. cbn [map fst]. constructor; auto. intros X. apply in_map_iff in X. destruct X as (z & E & I). apply filter_In in I.
    match goal with N : ~ In _ _ |- _ => apply N end. apply in_map_iff. exists z. tauto.
  Qed.
  Lemma last_split {A} (d d' : list A) x : match rev d with [] => None | y :: t => Some (rev t, y) end = Some (d', x) -> d = d' ++ [x].
  Proof.
    destruct (rev d) as [|y t] eqn:E; [discriminate|]. intros [= <- <-]. rewrite <- (rev_involutive d), E. reflexivity.
  Qed.
  Lemma last_none {A} (d : list A) : match rev d with [] => None | y :: t => Some (rev t, y) end = None -> d = [].
  Proof. destruct (rev d) eqn:E; [|discriminate]. intros _. rewrite <- (rev_involutive d), E. reflexivity. Qed.
  Lemma pop_last_snoc (d : mdict V) x : pop_last (d ++ [x]) = Some (d, x).
  Proof. unfold pop_last. rewrite rev_app_distr. cbn [rev app]. rewrite rev_involutive. reflexivity. Qed.

  (** ** What a call on the object i may touch *)
  Record frame s s' i : Prop := Frame {
    f_held : held s' = held s;
    f_objs : length (objs s') = length (objs s);
    f_others : forall j, j <> i -> obj s' j = obj s j;
    f_more : (length (lists s) <= length (lists s'))%nat;
    f_content : forall r, (r < length (lists s))%nat -> ~ owned s i r -> content s' r = content s r;
    f_refs : forall r, owned s' i r -> owned s i r \/ (length (lists s) <= r)%nat
  }.
  Lemma frame_refl s i : frame s s i.
  Proof. constructor; auto. Qed.
  Lemma frame_trans s1 s2 s3 i : ok s1 -> frame s1 s2 i -> frame s2 s3 i -> frame s1 s3 i.
  Proof.
    intros O A B. destruct A, B. constructor; try congruence.
    - intros j J. rewrite f_others1, f_others0; auto.
    - lia.
    - intros r H N. rewrite f_content1, f_content0; auto; [lia|]. intros X. apply f_refs0 in X. destruct X; [auto|lia].
    - intros r X. apply f_refs1 in X. destruct X as [X|X]; [apply f_refs0 in X; tauto|right; lia].
  Qed.
  Lemma view_ext s s' j : obj s' j = obj s j -> (forall r, owned s j r -> content s' r = content s r) -> view s' j = view s j.
  Proof.
    intros E H. unfold view. rewrite E. apply map_ext_in. intros [k r] I. cbn [fst snd]. f_equal. apply H. exists k. exact I.
  Qed.
  Lemma frame_view s s' i j : ok s -> frame s s' i -> j <> i -> view s' j = view s j.
  Proof.
    intros (L & _ & U & _) F J. apply view_ext; [apply (f_others _ _ _ F), J|].
    intros r (k & H). apply (f_content _ _ _ F); [apply (L j); exists k; auto|]. intros (k' & H'). destruct (U _ _ _ _ _ H H'). contradiction.
  Qed.
  Lemma frame_ok s s' i : ok s -> frame s s' i -> NoDup (map fst (obj s' i)) ->
    (forall r, owned s' i r -> (r < length (lists s'))%nat) ->
    (forall k k' r, In (k, r) (obj s' i) -> In (k', r) (obj s' i) -> k = k') -> ok s'.
  Proof.
    intros (L & N & U & Hd) F N' L' U'. destruct F. split; [|split; [|split]].
    - intros j r X. destruct (Nat.eq_dec j i) as [->|J]; auto. destruct X as (k & X). rewrite f_others0 in X by auto.
      assert (r < length (lists s))%nat by (apply (L j); exists k; auto). lia.
    - intros j. destruct (Nat.eq_dec j i) as [->|J]; auto. rewrite f_others0; auto.
    - assert (C : forall j k k' r, j <> i -> In (k, r) (obj s' i) -> In (k', r) (obj s' j) -> False).
      { intros j k k' r J X Y. rewrite f_others0 in Y by auto. destruct (f_refs0 r) as [(k2 & Z)|Z]; [exists k; auto| |].
        - destruct (U _ _ _ _ _ Z Y). auto.
        - assert (r < length (lists s))%nat by (apply (L j); exists k'; auto). lia. }
      intros a b k k' r X Y. destruct (Nat.eq_dec a i) as [->|A], (Nat.eq_dec b i) as [->|B].
      + split; auto. eapply U'; eauto.
      + exfalso. eapply (C b k k' r); eauto.
      + exfalso. eapply (C a k' k r); eauto.
      + rewrite f_others0 in X, Y by auto. eapply U; eauto.
    - intros r X. rewrite f_held0 in X. apply Hd in X. lia.
  Qed.

  Definition does s s' i (d : mdict V) : Prop := ok s' /\ frame s s' i /\ view s' i = d.
  Lemma does_trans s1 s2 s3 i (d2 d3 : mdict V) : ok s1 -> does s1 s2 i d2 -> does s2 s3 i d3 -> does s1 s3 i d3.
  Proof. intros O (A & B & C) (D & E & F). split; auto. split; auto. eapply frame_trans; eauto. Qed.
  Lemma does_nothing s i : ok s -> does s s i (view s i).
  Proof. intros O. split; auto. split; auto using frame_refl. Qed.

  Lemma put_new_does s i k l : ok s -> (i < length (objs s))%nat -> does s (put_new s i k l) i (dset (view s i) k l).
  Proof.
    intros O H. pose proof O as (L & N & U & Hd). unfold put_new. cbn [alloc].
    set (s1 := Store (lists s ++ [l]) (objs s) (held s)). set (n := length (lists s)).
    assert (E : obj (set_obj s1 i (dset (obj s i) k n)) i = dset (obj s i) k n) by (apply obj_here; exact H).
    assert (F : frame s (set_obj s1 i (dset (obj s i) k n)) i).
    { constructor; auto.
      - cbn. apply put_length.
      - intros j J. rewrite obj_there; auto.
      - cbn [set_obj lists s1]. rewrite app_length. lia.
      - intros r X _. apply (content_alloc s l r X).
      - intros r (k' & X). rewrite E in X. apply In_dset in X. destruct X as [X|[_ ->]]; [left; exists k'; auto|right; unfold n; lia]. }
    split; [|split; auto].
    - apply (frame_ok s _ i O F).
      + rewrite E. apply dset_NoDup, N.
      + intros r (k' & X). rewrite E in X. apply In_dset in X. cbn [set_obj lists s1]. rewrite app_length. cbn [length].
        destruct X as [X|[_ ->]]; [assert (r < n)%nat by (apply (L i); exists k'; auto)|]; unfold n in *; lia.
      + intros k1 k2 r X Y. rewrite E in X, Y. apply In_dset in X, Y.
        assert (G : forall k', In (k', n) (obj s i) -> False). { intros k' I. assert (n < n)%nat by (apply (L i); exists k'; auto). lia. }
        destruct X as [X|[-> ->]], Y as [Y|[-> Y]]; subst; auto; try (exfalso; eapply G; eauto; fail).
        destruct (U _ _ _ _ _ X Y). auto.
    - unfold view at 1. rewrite E. rewrite (map_dset (content _)).
      replace (content (set_obj s1 i (dset (obj s i) k n)) n) with l by (symmetry; apply (content_new s l)).
      f_equal. unfold view. apply map_ext_in. intros [k' r] I. cbn [fst snd]. f_equal. apply (content_alloc s l r). apply (L i). exists k'. exact I.
  Qed.
  Lemma view_dset_same s i k r l : ok s -> In (k, r) (obj s i) ->
    view (set_list s r l) i = dset (view s i) k l.
  Proof.
    intros (L & N & U & _) H. assert (Lr : (r < length (lists s))%nat) by (apply (L i); exists k; auto).
    assert (G : forall d, incl d (obj s i) -> NoDup (map fst d) -> In (k, r) d ->
      map (fun kr => (fst kr, content (set_list s r l) (snd kr))) d = dset (map (fun kr => (fst kr, content s (snd kr))) d) k l).
    { induction d as [|[k' r'] d IH]; [intros _ _ []|]. intros Inc Nd [E|I].
      - injection E as -> ->. cbn [map fst snd dset]. rewrite (proj2 (eqs_eq k k) eq_refl). f_equal.
        + f_equal. rewrite content_set, Nat.eqb_refl. destruct (Nat.ltb_spec r (length (lists s))); [auto|lia].
        + apply map_ext_in. intros [k2 r2] I. cbn [fst snd]. f_equal. rewrite content_set. destruct (Nat.eqb_spec r2 r) as [->|]; auto.
          exfalso. destruct (U i i k k2 r) as [_ <-]; auto; [apply Inc; right; auto|].
          cbn [map fst] in Nd. inversion Nd as [|? ? N1 _]; subst. apply N1. apply in_map_iff. exists (k, r). auto.
      - cbn [map fst snd dset] in *. inversion Nd as [|? ? N1 N2]; subst. destruct (eqs k k') eqn:E.
        + apply eqs_eq in E. subst k'. exfalso. apply N1. apply in_map_iff. exists (k, r). auto.
        + f_equal.
          * f_equal. rewrite content_set. destruct (Nat.eqb_spec r' r) as [->|]; auto. exfalso.
            destruct (U i i k k' r) as [_ ->]; auto; [apply Inc; left; auto|]. rewrite (proj2 (eqs_eq k' k') eq_refl) in E. discriminate.
          * apply IH; auto. intros z Z. apply Inc. right. exact Z. }
    apply (G (obj s i)); auto. apply incl_refl.
  Qed.
  Lemma set_list_does s i k r l : ok s -> In (k, r) (obj s i) -> does s (set_list s r l) i (dset (view s i) k l).
  Proof.
    intros O H. pose proof O as (L & N & U & Hd). split; [|split].
    - split; [|split; [|split]]; cbn [set_list lists held]; rewrite ?put_length; auto.
    - constructor; auto.
      + cbn [set_list lists]. rewrite put_length. lia.
      + intros r' _ X. rewrite content_set. destruct (Nat.eqb_spec r' r) as [->|]; auto. exfalso. apply X. exists k. exact H.
    - apply view_dset_same; auto.
  Qed.
  Lemma add_does s i k v : ok s -> (i < length (objs s))%nat -> does s (x_add s i k v) i (m_add (view s i) k v).
  Proof.
    intros O H. unfold x_add, m_add. rewrite view_get. destruct (dget (obj s i) k) as [r|] eqn:E; cbn [option_map].
    - apply set_list_does; auto. apply dget_In, E.
    - apply put_new_does; auto.
  Qed.
  Lemma adds_does l : forall s i, ok s -> (i < length (objs s))%nat -> does s (x_adds s i l) i (m_adds (view s i) l).
  Proof.
    induction l as [|[k v] l IH]; intros s i O H; [apply does_nothing, O|]. unfold x_adds, m_adds in *. cbn [fold_left fst snd].
    pose proof (add_does s i k v O H) as A. destruct A as (A1 & A2 & A3).
    eapply does_trans; [exact O|split; [exact A1|split; [exact A2|exact A3]]|].
    rewrite <- A3. apply IH; auto. rewrite (f_objs _ _ _ A2). exact H.
  Qed.
  Lemma put_all_does l : forall s i, ok s -> (i < length (objs s))%nat -> does s (put_all s i l) i (fold_left (fun a kl => dset a (fst kl) (snd kl)) l (view s i)).
  Proof.
    induction l as [|[k x] l IH]; intros s i O H; [apply does_nothing, O|]. unfold put_all in *. cbn [fold_left fst snd].
    pose proof (put_new_does s i k x O H) as (A1 & A2 & A3).
    eapply does_trans; [exact O|split; [exact A1|split; [exact A2|exact A3]]|].
    rewrite <- A3. apply IH; auto. rewrite (f_objs _ _ _ A2). exact H.
  Qed.
  (** taking keys out *)
  Lemma shrink_does s i d : ok s -> (i < length (objs s))%nat -> incl d (obj s i) -> NoDup (map fst d) ->
    does s (set_obj s i d) i (map (fun kr => (fst kr, content s (snd kr))) d).
  Proof.
    intros O H Inc Nd. pose proof O as (L & N & U & Hd).
    assert (E : obj (set_obj s i d) i = d) by (apply obj_here; exact H).
    assert (F : frame s (set_obj s i d) i).
    { constructor; auto.
      - cbn. apply put_length.
      - intros j J. apply obj_there, J.
      - intros r (k & X). rewrite E in X. left. exists k. auto. }
    split; [|split; auto].
    - apply (frame_ok s _ i O F); rewrite ?E; auto.
      + intros r (k & X). rewrite E in X. apply (L i). exists k. auto.
      + intros k k' r X Y. destruct (U i i k k' r); auto.
    - unfold view. rewrite E. reflexivity.
  Qed.
  Lemma del_does s i k : ok s -> (i < length (objs s))%nat -> does s (set_obj s i (ddel (obj s i) k)) i (ddel (view s i) k).
  Proof.
    intros O H. pose proof (shrink_does s i (ddel (obj s i) k) O H) as X. rewrite map_ddel in X. apply X.
    - intros [k' r] I. apply In_ddel in I. tauto.
    - apply ddel_nodup. apply O.
  Qed.
  Lemma last_does s i d kr : ok s -> (i < length (objs s))%nat -> obj s i = d ++ [kr] ->
    does s (set_obj s i d) i (map (fun kr => (fst kr, content s (snd kr))) d).
  Proof.
    intros O H E. apply shrink_does; auto.
    - rewrite E. apply incl_appl, incl_refl.
    - pose proof O as (_ & N & _). specialize (N i). rewrite E, map_app in N. apply NoDup_remove_1 with (a := fst kr) in N. rewrite app_nil_r in N. exact N.
  Qed.
  (** a list made without an object *)
  Lemma alloc_does s i l : ok s -> does s (fst (alloc s l)) i (view s i).
  Proof.
    intros O. pose proof O as (L & N & U & Hd).
    assert (F : frame s (fst (alloc s l)) i).
    { constructor; auto.
      - cbn. rewrite app_length. lia.
      - intros r H _. apply content_alloc, H. }
    split; [|split; auto].
    - apply (frame_ok s _ i O F); [apply N| |].
      + intros r X. cbn [alloc fst lists]. rewrite app_length. apply (L i) in X. lia.
      + intros k k' r X Y. destruct (U i i k k' r); auto.
    - apply view_ext; auto. intros r X. apply content_alloc. apply (L i), X.
  Qed.
  Lemma copy_lists_does d : forall s i, ok s -> (forall k r, In (k, r) d -> (r < length (lists s))%nat) ->
    let (s', l) := copy_lists s d in does s s' i (view s i) /\ (forall r, (r < length (lists s))%nat -> content s' r = content s r)
      /\ objs s' = objs s
      /\ map (fun kr => (fst kr, content s' (snd kr))) l = map (fun kr => (fst kr, content s (snd kr))) d
      /\ Forall (fun kr => length (lists s) <= snd kr < length (lists s'))%nat l.
  Proof.
    induction d as [|[k r] d IH]; intros s i O H; cbn [copy_lists].
    - split; [apply does_nothing, O|]. auto.
    - pose proof (alloc_does s i (content s r) O) as A. cbn [alloc] in *. set (s1 := Store (lists s ++ [content s r]) (objs s) (held s)) in *.
      cbn [fst] in A. specialize (IH s1 i (proj1 A)). destruct (copy_lists s1 d) as [s2 l]. 
      assert (L1 : length (lists s1) = S (length (lists s))) by (cbn; rewrite app_length; cbn; lia).
      assert (C1 : forall x, (x < length (lists s))%nat -> content s1 x = content s x) by (intros x X; apply (content_alloc s (content s r) x X)).
      destruct IH as (D & C & Ob & M & F).
      { intros k' r' I. rewrite L1. assert (r' < length (lists s))%nat by (eapply H; right; eauto). lia. }
      assert (Ev : view s1 i = view s i) by apply A. rewrite Ev in D.
      split; [eapply does_trans; eauto|]. split.
      { intros x X. rewrite C, C1; auto. lia. }
      split; [rewrite Ob; reflexivity|]. split.
      + cbn [map fst snd]. f_equal.
        * f_equal. rewrite C by lia. apply (content_new s (content s r)).
        * rewrite M. apply map_ext_in. intros [k' r'] I. cbn [fst snd]. f_equal. apply C1. eapply H. right. eauto.
      + constructor.
        * cbn [snd]. destruct D as (_ & D & _). apply f_more in D. lia.
        * eapply Forall_impl; [|exact F]. intros [k' r']. cbn [snd]. lia.
  Qed.

  Lemma hold_ok s rs : ok s -> (forall r, In r rs -> (r < length (lists s))%nat) -> ok (hold s rs).
  Proof.
    intros (L & N & U & Hd) H. split; [exact L|]. split; [exact N|]. split; [exact U|]. cbn [hold held lists]. intros r X. apply in_app_iff in X. destruct X; auto.
  Qed.
  Lemma first_shows (s : store V) l : shows s (do x <- first l; Ok (OVal x)) (do x <- first l; Ok (RetVal x)).
  Proof. destruct l; reflexivity. Qed.
  Lemma first_item (s : store V) k l : shows s (do x <- first l; Ok (OItem k x)) (do x <- first l; Ok (RetItem k x)).
  Proof. destruct l; cbn; auto. Qed.
  Lemma first_returned l : returned (do x <- first l; Ok (@OVal V x)) = [].
  Proof. destruct l; reflexivity. Qed.
  Lemma first_returned_item k l : returned (do x <- first l; Ok (@OItem V k x)) = [].
  Proof. destruct l; reflexivity. Qed.
  Lemma view_last s i d k r : obj s i = d ++ [(k, r)] -> view s i = map (fun kr => (fst kr, content s (snd kr))) d ++ [(k, content s r)].
  Proof. intros E. unfold view. rewrite E, map_app. reflexivity. Qed.
  Lemma m_adds_pairs (d : mdict V) l : m_adds d (pairs_of (SPairs l)) = m_adds d l.
  Proof. reflexivity. Qed.

  (** Everything about one call *)
  Definition told s i c s' (r : res (ret V)) : Prop :=
    match meant s c with
    | Some o => does s s' i (fst (m_step (view s i) o)) /\ shows s' r (snd (m_step (view s i) o))
    | None => does s s' i (view s i) /\ reads s s' i c r
    end
    /\ (forall n, In n (returned r) -> (n < length (lists s'))%nat)
    /\ (~ hands_out c -> forall n, In n (returned r) -> ~ owned s' i n /\ (owned s i n \/ (length (lists s) <= n)%nat)).

  Lemma lists_told s i c : ok s -> meant s c = None -> (forall k, c <> CGetList k) ->
    let (s', l) := copy_lists s (obj s i) in told s i c s' (Ok (OLists l)).
  Proof.
    intros O M G. pose proof O as (L & _). unfold told. rewrite M. pose proof (copy_lists_does (obj s i) s i O) as D.
    destruct (copy_lists s (obj s i)) as [s' l]. destruct D as (D & C & Ob & E & F).
    { intros k r I. apply (L i). exists k. exact I. }
    cbn [returned]. assert (B : forall n, In n (map snd l) -> (length (lists s) <= n < length (lists s'))%nat).
    { intros n X. apply in_map_iff in X. destruct X as (kr & <- & X). rewrite Forall_forall in F. apply F, X. }
    split; [split; [exact D|]|].
    - destruct c; try (exists l; split; [reflexivity|exact E]). exfalso. eapply G. reflexivity.
    - split; [intros n X; apply B in X; lia|]. intros _ n X. apply B in X. split; [|right; lia].
      intros (k & Y). unfold obj in Y. rewrite Ob in Y. assert (n < length (lists s))%nat by (apply (L i); exists k; exact Y). lia.
  Qed.
  Lemma call_told s i c : ok s -> (i < length (objs s))%nat -> ordinary i c -> let (s', r) := x_call s i c in told s i c s' r.
  Proof.
    intros O H P. pose proof O as (L & N & U & Hd).
    destruct c as [k v|k r|k v|k v|k r|a|k x| |k| |k| |k| | | | |d]; cbn [x_call]; unfold told; cbn [meant ModelMultiDict.m_step fst snd].
    - split; [split; [apply add_does; auto|exact I]|]. split; [intros n []|intros _ n []].
    - split; [split; [apply put_new_does; auto|exact I]|]. split; [intros n []|intros _ n []].
    - split; [split; [apply put_new_does; auto|exact I]|]. split; [intros n []|intros _ n []].
    - unfold m_contains, dhas, m_getitem. rewrite view_get. destruct (dget (obj s i) k) as [r|] eqn:E; cbn [option_map fst snd].
      + rewrite first_returned. split; [split; [apply does_nothing, O|apply first_shows]|]. split; [intros n []|intros _ n []].
      + split; [split; [apply put_new_does; auto|reflexivity]|]. split; [intros n []|intros _ n []].
    - rewrite view_get. destruct (dget (obj s i) k) as [r'|] eqn:E; cbn [option_map fst snd].
      + split; [split; [apply does_nothing, O|reflexivity]|]. split; [|intros X; destruct X; exact I].
        intros n [<-|[]]. apply (L i). exists k. apply dget_In, E.
      + pose proof (put_new_does s i k (content s r) O H) as D. unfold put_new in D. cbn [alloc] in *.
        split; [split; [exact D|]|]. { cbn [shows]. apply (content_new s (content s r)). }
        split; [|intros X; destruct X; exact I]. intros n [<-|[]]. cbn [set_obj lists]. rewrite app_length. cbn. lia.
    - split; [split; [apply adds_does; auto|exact I]|]. split; [intros n []|intros _ n []].
    - rewrite view_get. destruct (dget (obj s i) k) as [r|] eqn:E; cbn [option_map fst snd].
      + rewrite first_returned. split; [split; [apply del_does; auto|apply first_shows]|]. split; [intros n []|intros _ n []].
      + split; [split; [apply does_nothing, O|destruct x; reflexivity]|]. destruct x; (split; [intros n []|intros _ n []]).
    - destruct (x_pop_last (obj s i)) as [[d [k r]]|] eqn:E.
      + apply last_split in E. rewrite (view_last _ _ _ _ _ E), pop_last_snoc. cbn [fst snd]. rewrite first_returned_item.
        split; [split; [eapply last_does; eauto|apply first_item]|]. split; [intros n []|intros _ n []].
      + apply last_none in E. unfold view. rewrite E. cbn. split; [split; [|reflexivity]|split; [intros n []|intros _ n []]].
        pose proof (does_nothing s i O) as D. unfold view in D. rewrite E in D. exact D.
    - unfold m_getlist. rewrite view_get. destruct (dget (obj s i) k) as [r|] eqn:E; cbn [option_map fst snd].
      + split; [split; [apply del_does; auto|reflexivity]|]. apply dget_In in E. split.
        * intros n [<-|[]]. apply (L i). exists k. exact E.
        * intros _ n [<-|[]]. split; [|left; exists k; exact E]. intros (k' & X). rewrite obj_here in X by exact H. apply In_ddel in X. destruct X as [X Y].
          destruct (U _ _ _ _ _ X E). contradiction.
      + pose proof (alloc_does s i [] O) as D. cbn [alloc fst] in D. cbn [alloc]. rewrite ProofMultiDict.ddel_absent by (rewrite view_get, E; reflexivity).
        split; [split; [exact D|apply (content_new s [])]|]. split.
        * intros n [<-|[]]. cbn [lists]. rewrite app_length. cbn. lia.
        * intros _ n [<-|[]]. split; [|right; lia]. intros X. apply (L i) in X. lia.
    - destruct (x_pop_last (obj s i)) as [[d [k r]]|] eqn:E.
      + apply last_split in E. rewrite (view_last _ _ _ _ _ E), pop_last_snoc. cbn [fst snd].
        assert (I : In (k, r) (obj s i)) by (rewrite E; apply in_app_iff; right; left; reflexivity).
        split; [split; [eapply last_does; eauto|split; reflexivity]|]. split.
        * intros n [<-|[]]. apply (L i). exists k. exact I.
        * intros _ n [<-|[]]. split; [|left; exists k; exact I]. intros (k' & X). rewrite obj_here in X by exact H.
          assert (I' : In (k', r) (obj s i)) by (rewrite E; apply in_app_iff; auto). destruct (U _ _ _ _ _ I I') as [_ <-].
          specialize (N i). rewrite E, map_app in N. cbn [map fst] in N. apply NoDup_remove_2 in N. apply N. rewrite app_nil_r. apply in_map_iff. exists (k, r). auto.
      + apply last_none in E. unfold view. rewrite E. cbn. split; [split; [|reflexivity]|split; [intros n []|intros _ n []]].
        pose proof (does_nothing s i O) as D. unfold view in D. rewrite E in D. exact D.
    - unfold m_contains, dhas. rewrite view_get. destruct (dget (obj s i) k) as [r|] eqn:E; cbn [option_map fst snd].
      + split; [split; [apply del_does; auto|exact I]|]. split; [intros n []|intros _ n []].
      + split; [split; [apply does_nothing, O|reflexivity]|]. split; [intros n []|intros _ n []].
    - split; [split; [|exact I]|split; [intros n []|intros _ n []]]. apply (shrink_does s i []); auto; [intros z []|constructor].
    - set (l := match dget (obj s i) k with Some r => content s r | None => [] end). cbn [alloc].
      split; [split; [apply (alloc_does s i l O)|]|].
      + exists (length (lists s)). split; [reflexivity|]. etransitivity; [apply (content_new s l)|]. unfold m_getlist. rewrite view_get. unfold l. destruct (dget (obj s i) k); reflexivity.
      + split.
        * intros n [<-|[]]. cbn [lists]. rewrite app_length. cbn. lia.
        * intros _ n [<-|[]]. split; [|right; lia]. intros X. apply (L i) in X. lia.
    - pose proof (lists_told s i CLists O eq_refl ltac:(discriminate)) as X. destruct (copy_lists s (obj s i)). exact X.
    - split; [split; [apply does_nothing, O|]|].
      + exists (obj s i). split; reflexivity.
      + split; [|intros X; destruct X; exact I]. intros n X. cbn [returned] in X. apply in_map_iff in X. destruct X as ([k r] & <- & X). apply (L i). exists k. exact X.
    - pose proof (lists_told s i CToDictLists O eq_refl ltac:(discriminate)) as X. destruct (copy_lists s (obj s i)). exact X.
    - pose proof (lists_told s i CGetState O eq_refl ltac:(discriminate)) as X. destruct (copy_lists s (obj s i)). exact X.
    - destruct P.
  Qed.

  (** ** Making objects *)
  Lemma new_obj_ok s : ok s -> let (s', i) := new_obj s in ok s' /\ obj s' i = [] /\ (i < length (objs s'))%nat /\ (forall j, obj s' j = obj s j) /\ i = length (objs s).
  Proof.
    intros (L & N & U & Hd). cbn [new_obj].
    assert (E : forall j, obj (Store (lists s) (objs s ++ [[]]) (held s)) j = obj s j).
    { intros j. unfold obj. cbn [objs]. destruct (Nat.ltb_spec j (length (objs s))) as [H|H]; [apply app_nth1, H|].
      rewrite app_nth2 by exact H. rewrite (nth_overflow (objs s)) by exact H. destruct (j - length (objs s))%nat as [|[|?]]; reflexivity. }
    split; [|split; [|split; [|split]]]; auto.
    - split; [|split; [|split]]; auto.
      + intros i r (k & X). rewrite E in X. apply (L i). exists k. exact X.
      + intros i. rewrite E. apply N.
      + intros i j k k' r X Y. rewrite E in X, Y. eapply U; eauto.
    - rewrite E. unfold obj. apply nth_overflow. lia.
    - cbn [objs]. rewrite app_length. cbn. lia.
  Qed.
  (** what making an object of a given content is *)
  Definition makes s s' i (d : mdict V) : Prop :=
    ok s' /\ i = length (objs s) /\ length (objs s') = S i /\ held s' = held s /\ view s' i = d
    /\ (forall j, j <> i -> view s' j = view s j) /\ (forall r, (r < length (lists s))%nat -> content s' r = content s r)
    /\ (length (lists s) <= length (lists s'))%nat
    /\ (forall j r, owned s' j r -> owned s j r \/ (length (lists s) <= r)%nat).
  Lemma makes_from s f (d : mdict V) : ok s -> (forall s1 i, ok s1 -> (i < length (objs s1))%nat -> obj s1 i = [] -> does s1 (f s1 i) i d) ->
    let (s1, i) := new_obj s in makes s (f s1 i) i d.
  Proof.
    intros O H. pose proof (new_obj_ok s O) as N. destruct (new_obj s) as [s1 i] eqn:En. destruct N as (O1 & E & Hi & Eo & Ei).
    assert (G : held s1 = held s /\ lists s1 = lists s /\ length (objs s1) = S i).
    { injection En as <- <-. cbn [held lists objs]. rewrite app_length. cbn [length]. repeat split. lia. }
    destruct G as (Gh & Gl & Go). destruct (H s1 i O1 Hi E) as (A & F & Vw). destruct F.
    assert (Cs : forall r, content s1 r = content s r) by (intros; unfold ModelMultiObject.content; rewrite Gl; reflexivity).
    assert (Ow : forall r, ~ owned s1 i r) by (intros r (k & X); rewrite E in X; destruct X).
    split; [exact A|]. split; [exact Ei|]. split; [congruence|]. split; [congruence|]. split; [exact Vw|].
    split.
    { intros j J. transitivity (view s1 j).
      - apply view_ext; [apply f_others0, J|]. intros r X. apply f_content0; [apply (proj1 O1 j), X|apply Ow].
      - unfold view. rewrite Eo. apply map_ext. intros. rewrite Cs. reflexivity. }
    split. { intros r X. rewrite f_content0, Cs; auto. rewrite Gl. exact X. }
    split. { rewrite Gl in f_more0. exact f_more0. }
    intros j r (k & X). destruct (Nat.eq_dec j i) as [->|J].
    - destruct (f_refs0 r) as [Y|Y]; [exists k; exact X|exfalso; eapply Ow; eauto|rewrite Gl in Y; auto].
    - rewrite f_others0, Eo in X by exact J. left. exists k. exact X.
  Qed.
  Lemma view_empty s i : obj s i = [] -> view s i = [].
  Proof. unfold view. intros ->. reflexivity. Qed.
  Lemma fold_view s i : ok s -> fold_left (fun a kl => dset a (fst kl) (snd kl)) (view s i) [] = view s i.
  Proof. intros (_ & N & _). rewrite fold_dset; [reflexivity|]. cbn [app]. rewrite view_keys. apply N. Qed.
  Lemma init_makes s a : ok s -> let (s', i) := x_init s a in makes s s' i (m_init (source_of s a)).
  Proof.
    intros O. unfold x_init.
    pose proof (makes_from s (fun s1 i => match a with
       | APairs l => x_adds s1 i l
       | ADict d => put_all s1 i (map (fun kg => (fst kg, values s (snd kg))) d)
       | AMulti j => put_all s1 i (view s j) end) (m_init (source_of s a)) O) as M.
    destruct (new_obj s) as [s1 i]. apply M. clear M. intros s2 n O2 Hn En. pose proof (view_empty s2 n En) as Ev. destruct a as [l|d|j]; cbn [source_of m_init].
    - pose proof (adds_does l s2 n O2 Hn) as D. rewrite Ev in D. exact D.
    - pose proof (put_all_does (map (fun kg => (fst kg, values s (snd kg))) d) s2 n O2 Hn) as D. rewrite Ev in D.
      replace (fold_left (fun (a : dict (list V)) (kv : str * mvalue V) => dset a (fst kv) match snd kv with One v => [v] | Many l => l end)
        (map (fun kg => (fst kg, match snd kg with GOne v => One v | GList r => Many (content s r) end)) d) [])
        with (fold_left (fun (a : dict (list V)) (kl : str * list V) => dset a (fst kl) (snd kl)) (map (fun kg => (fst kg, values s (snd kg))) d) []); [exact D|].
      generalize (@nil (str * list V)). clear. induction d as [|[k g] d IH]; intros acc; [reflexivity|]. cbn [map fold_left fst snd]. rewrite IH. destruct g; reflexivity.
    - pose proof (put_all_does (view s j) s2 n O2 Hn) as D. rewrite Ev in D. exact D.
  Qed.
  Lemma copy_makes s j : ok s -> let (s', i) := x_copy s j in makes s s' i (view s j).
  Proof.
    intros O. unfold x_copy. pose proof (init_makes s (AMulti j) O) as M. cbn [source_of m_init] in M. rewrite (fold_view s j O) in M. exact M.
  Qed.
  Variable dup : V -> V.
  Definition dups (d : mdict V) : mdict V := map (fun kl => (fst kl, map dup (snd kl))) d.
  Lemma fold_dups s i : ok s -> fold_left (fun a kl => dset a (fst kl) (snd kl)) (dups (view s i)) [] = dups (view s i).
  Proof.
    intros (_ & N & _). rewrite fold_dset; [reflexivity|]. cbn [app]. unfold dups. rewrite map_map. cbn [fst].
    change (NoDup (map fst (view s i))). rewrite view_keys. apply N.
  Qed.
  Lemma deepcopy_makes s j : ok s -> let (s', i) := x_deepcopy dup s j in makes s s' i (dups (view s j)).
  Proof.
    intros O. unfold x_deepcopy. pose proof (makes_from s (fun s1 i => put_all s1 i (dups (view s j))) (dups (view s j)) O) as M.
    destruct (new_obj s) as [s1 i]. apply M. clear M. intros s2 n O2 Hn En.
    pose proof (put_all_does (dups (view s j)) s2 n O2 Hn) as D. rewrite (view_empty s2 n En), (fold_dups s j O) in D. exact D.
  Qed.
  Lemma items_total (d : mdict V) : Forall (fun kl => snd kl <> []) d -> exists l, m_items d = Ok l.
  Proof.
    unfold m_items. induction 1 as [|[k l] d H F (r & IH)]; [eexists; reflexivity|]. cbn [traverse fst snd] in *. destruct l as [|v l]; [contradiction|].
    cbn [first bind]. rewrite IH. eexists. reflexivity.
  Qed.
  Lemma items_raise (d : mdict V) : ~ Forall (fun kl => snd kl <> []) d -> m_items d = Raise IndexError.
  Proof.
    unfold m_items. induction d as [|[k l] d IH]; intros H; [destruct H; constructor|]. cbn [traverse fst snd]. destruct l as [|v l]; [reflexivity|].
    cbn [first bind]. rewrite IH; [reflexivity|]. intros F. apply H. constructor; [discriminate|exact F].
  Qed.
  Lemma pickle_makes s j : ok s -> Forall (fun kl => snd kl <> []) (view s j) ->
    exists s' i, x_pickle dup s j = (s', Ok i) /\ makes s s' i (dups (view s j)).
  Proof.
    intros O F. destruct (items_total _ F) as (l & El). unfold x_pickle. rewrite El.
    pose proof (makes_from s (fun s1 i => put_all (set_obj (put_all s1 i (map (fun kv => (fst kv, [dup (snd kv)])) l)) i []) i (dups (view s j))) (dups (view s j)) O) as M.
    destruct (new_obj s) as [s1 i]. do 2 eexists. split; [reflexivity|]. apply M. clear M. intros s2 n O2 Hn En.
    pose proof (put_all_does (map (fun kv => (fst kv, [dup (snd kv)])) l) s2 n O2 Hn) as D. set (s3 := put_all s2 n _) in *.
    destruct D as (O3 & F3 & V3). assert (H3 : (n < length (objs s3))%nat) by (rewrite (f_objs _ _ _ F3); exact Hn).
    pose proof (shrink_does s3 n [] O3 H3 (fun z Z => match Z with end) (NoDup_nil _)) as (O4 & F4 & V4). set (s4 := set_obj s3 n []) in *.
    assert (H4 : (n < length (objs s4))%nat) by (rewrite (f_objs _ _ _ F4); exact H3).
    pose proof (put_all_does (dups (view s j)) s4 n O4 H4) as D5. rewrite V4 in D5. cbn [map] in D5. rewrite (fold_dups s j O) in D5.
    eapply does_trans; [exact O2|split; [exact O3|split; [exact F3|exact V3]]|].
    eapply does_trans; [exact O3|split; [exact O4|split; [exact F4|exact V4]]|]. exact D5.
  Qed.
  Lemma pickle_raise s j : ~ Forall (fun kl => snd kl <> []) (view s j) -> x_pickle dup s j = (s, Raise IndexError).
  Proof. intros F. unfold x_pickle. rewrite (items_raise _ F). reflexivity. Qed.

  (** ** Histories *)
  Lemma start_ok : ok (@start V) /\ private (@start V).
  Proof.
    assert (E : forall i, obj (@start V) i = []) by (intros [|[|i]]; reflexivity).
    split; [split; [|split; [|split]]|].
    - intros i r (k & X). rewrite E in X. destruct X.
    - intros i. rewrite E. constructor.
    - intros i j k k' r X. rewrite E in X. destruct X.
    - intros r [].
    - intros i r (k & X). rewrite E in X. destruct X.
  Qed.
  Lemma makes_private s s' i (d : mdict V) : ok s -> private s -> makes s s' i d -> private s'.
  Proof.
    intros (_ & _ & _ & Hd) P (_ & _ & _ & H & _ & _ & _ & _ & Ow) j r X Y. rewrite H in Y. destruct (Ow _ _ X) as [Z|Z]; [eapply P; eauto|].
    apply Hd in Y. lia.
  Qed.
  Lemma act_ok (P : call V -> Prop) s a : ok s -> possible P s a -> ok (act dup s a).
  Proof.
    intros O H. destruct a as [x|j|j|j|i c|l|r l]; cbn [act].
    - pose proof (init_makes s x O) as M. destruct (x_init s x). apply M.
    - pose proof (copy_makes s j O) as M. destruct (x_copy s j). apply M.
    - pose proof (deepcopy_makes s j O) as M. destruct (x_deepcopy dup s j). apply M.
    - destruct (m_items (view s j)) as [l|e] eqn:E.
      + assert (F : Forall (fun kl => snd kl <> []) (view s j)).
        { destruct (Forall_dec (fun kl : str * list V => snd kl <> []) ltac:(intros [? [|? ?]]; [right|left]; cbn; congruence) (view s j)) as [F|F]; auto.
          rewrite (items_raise _ F) in E. discriminate. }
        destruct (pickle_makes s j O F) as (s' & i & -> & M). apply M.
      + unfold x_pickle. rewrite E. exact O.
    - destruct H as (Hi & Or & _). pose proof (call_told s i c O Hi Or) as T. destruct (x_call s i c) as [s' r]. destruct T as (T & B & _).
      apply hold_ok; auto. destruct (meant s c); apply T.
    - cbn [alloc]. apply hold_ok; [apply (alloc_does s 0 l O)|]. intros r [<-|[]]. cbn [lists]. rewrite app_length. cbn. lia.
    - destruct O as (L & N & U & Hd). split; [|split; [|split]]; cbn [set_list lists held]; rewrite ?put_length; auto.
  Qed.
  Lemma act_private s a : ok s -> private s -> possible (fun c => ~ hands_out c) s a -> private (act dup s a).
  Proof.
    intros O Pv H. destruct a as [x|j|j|j|i c|l|r l]; cbn [act].
    - pose proof (init_makes s x O) as M. destruct (x_init s x). eapply makes_private; eauto.
    - pose proof (copy_makes s j O) as M. destruct (x_copy s j). eapply makes_private; eauto.
    - pose proof (deepcopy_makes s j O) as M. destruct (x_deepcopy dup s j). eapply makes_private; eauto.
    - destruct (m_items (view s j)) as [l|e] eqn:E.
      + assert (F : Forall (fun kl => snd kl <> []) (view s j)).
        { destruct (Forall_dec (fun kl : str * list V => snd kl <> []) ltac:(intros [? [|? ?]]; [right|left]; cbn; congruence) (view s j)) as [F|F]; auto.
          rewrite (items_raise _ F) in E. discriminate. }
        destruct (pickle_makes s j O F) as (s' & i & -> & M). eapply makes_private; eauto.
      + unfold x_pickle. rewrite E. exact Pv.
    - destruct H as (Hi & Or & Nh). pose proof (call_told s i c O Hi Or) as T. destruct (x_call s i c) as [s' r]. destruct T as (T & B & Q). specialize (Q Nh).
      assert (F : frame s s' i) by (destruct (meant s c); apply T). destruct F. pose proof O as (L & _ & U & Hd).
      intros j n X Y. cbn [hold held] in Y. apply in_app_iff in Y. change (owned s' j n) in X. destruct (Nat.eq_dec j i) as [->|J].
      + destruct Y as [Y|Y]; [apply (Q n Y), X|]. rewrite f_held0 in Y. destruct (f_refs0 _ X) as [Z|Z]; [eapply Pv; eauto|]. apply Hd in Y. lia.
      + destruct X as (k & X). rewrite f_others0 in X by exact J. destruct Y as [Y|Y].
        * destruct (Q n Y) as [_ [(k' & Z)|Z]].
          -- destruct (U _ _ _ _ _ X Z). contradiction.
          -- assert (n < length (lists s))%nat by (apply (L j); exists k; exact X). lia.
        * rewrite f_held0 in Y. apply (Pv j n); auto. exists k. exact X.
    - cbn [alloc]. pose proof O as (L & _). intros j n X Y. cbn [hold held] in Y. change (owned s j n) in X. destruct Y as [<-|Y].
      + apply L in X. lia.
      + eapply Pv; eauto.
    - intros j n X Y. apply (Pv j n); auto.
  Qed.
  Lemma reached_ok P s : reached dup P s -> ok s.
  Proof. induction 1; [apply start_ok|eapply act_ok; eauto]. Qed.
  Lemma reached_private s : reached dup (fun c => ~ hands_out c) s -> private s.
  Proof. induction 1 as [|s a R IH H]; [apply start_ok|]. apply act_private; auto. eapply reached_ok; eauto. Qed.
  Lemma change_private s r l i : private s -> In r (held s) -> view (set_list s r l) i = view s i.
  Proof.
    intros P H. apply view_ext; auto. intros n X. rewrite content_set. destruct (Nat.eqb_spec n r) as [->|]; auto. exfalso. eapply P; eauto.
  Qed.
  Lemma change_shared s r l i k : ok s -> In (k, r) (obj s i) ->
    view (set_list s r l) i = dset (view s i) k l /\ forall j, j <> i -> view (set_list s r l) j = view s j.
  Proof.
    intros O H. destruct (set_list_does s i k r l O H) as (_ & F & E). split; auto. intros j J. eapply frame_view; eauto.
  Qed.
  Lemma call_spec s i c : ok s -> (i < length (objs s))%nat -> ordinary i c -> let (s', r) := x_call s i c in
    match meant s c with
    | Some o => view s' i = fst (m_step (view s i) o) /\ shows s' r (snd (m_step (view s i) o))
    | None => view s' i = view s i /\ reads s s' i c r
    end
    /\ (forall j, j <> i -> view s' j = view s j)
    /\ (forall n, In n (held s) -> ~ owned s i n -> content s' n = content s n).
  Proof.
    intros O H P. pose proof (call_told s i c O H P) as T. destruct (x_call s i c) as [s' r]. destruct T as (T & _).
    assert (D : exists d : mdict V, does s s' i d) by (destruct (meant s c); eexists; apply T). destruct D as (d & D1 & D2 & D3).
    split; [|split].
    - destruct (meant s c); (split; [apply T|apply T]).
    - intros j J. eapply frame_view; eauto.
    - intros n X Y. apply (f_content _ _ _ D2); auto. apply O, X.
  Qed.
End Stores.

(** ** Ordered and combined multi dicts *)
Section Others.
  Context {V : Type}.
  Lemma made_again (l : list (str * V)) : ordered_reads (o_init (SPairs l)) l.
  Proof. destruct (ordered_refines (SPairs l) [] (Forall_nil _)) as [H _]. exact H. Qed.
  Lemma ordered_copied (o : omd V) sq : ordered_reads o sq -> (exists o', o_copy o = Some o' /\ ordered_reads o' sq) /\ exists o', o_pickle o = Some o' /\ ordered_reads o' sq.
  Proof. intros (H & _). unfold o_copy, o_pickle. rewrite H. cbn [option_map]. split; eexists; (split; [reflexivity|apply made_again]). Qed.
  Lemma ordered_deep (o : omd V) sq : ordered_reads o sq -> exists o', o_deepcopy o = Some o' /\ ordered_reads o' (grouped sq).
  Proof.
    intros H. unfold o_deepcopy. destruct H as (_ & _ & _ & _ & _ & _ & _ & _ & _ & _ & ->). cbn [option_map]. eexists. split; [reflexivity|].
    set (l := SDict _). destruct (ordered_refines l [] (Forall_nil _)) as [H _]. cbn [seq_run fst] in H.
    replace (grouped sq) with (pairs_of l); [exact H|]. unfold l, grouped. cbn [pairs_of]. clear H l.
    induction (firsts sq) as [|kv r IH]; [reflexivity|]. cbn [map flat_map fst snd]. rewrite IH. reflexivity.
  Qed.
  Lemma occurs_self (t : str) : occurs t t = true.
  Proof.
    assert (S : starts t t = true) by (induction t as [|c t IH]; [reflexivity|]; cbn; rewrite N.eqb_refl; exact IH).
    destruct t; cbn [occurs]; rewrite S; reflexivity.
  Qed.
  Lemma texts_fail (ts : list str) k : In k ts -> @texts_getitem V ts k = Raise TypeError.
  Proof.
    induction ts as [|t ts IH]; [intros []|]. intros [->|H]; cbn [texts_getitem].
    - rewrite occurs_self. reflexivity.
    - destruct (occurs k t); auto.
  Qed.
  Lemma combined_deep (ds : combined V) k : Forall proper ds -> SpecCombined.held ds k <> [] -> @texts_getitem V (c_deepcopied ds) k = Raise TypeError.
  Proof.
    intros P H. apply texts_fail. unfold c_deepcopied. pose proof (c_to_dict_lists_spec ds k P) as E.
    destruct (dget (c_to_dict_lists ds) k) as [l|] eqn:G; [apply dget_In in G; apply in_map_iff; exists (k, l); auto|].
    exfalso. destruct (find (fun d => m_contains d k) ds) eqn:F; [discriminate|]. apply H.
    assert (N : forall d, In d ds -> m_contains d k = false) by (apply find_none; exact F).
    destruct (SpecCombined.held ds k) eqn:X; auto. exfalso.
    assert (Y : SpecCombined.held ds k <> []) by (rewrite X; discriminate). apply (held_in ds k P) in Y. apply c_contains_spec in Y.
    unfold c_contains in Y. apply existsb_exists in Y. destruct Y as (d & I & Y). rewrite (N d I) in Y. discriminate.
  Qed.
  Lemma occurs_spec (k t : str) : occurs k t = true <-> exists a b, t = a ++ k ++ b.
  Proof.
    revert k. induction t as [|c t IH]; intros k; cbn [occurs]; rewrite orb_true_iff, starts_spec.
    - split; [intros [[r ->]|H]; [exists [], r; reflexivity|discriminate]|].
      intros (a & b & E). left. destruct a; [|discriminate]. exists b. exact E.
    - rewrite IH. split.
      + intros [[r E]|(a & b & ->)]; [exists [], r; exact E|exists (c :: a), b; reflexivity].
      + intros (a & b & E). destruct a as [|x a]; [left; exists b; exact E|right]. injection E as -> ->. exists a, b. reflexivity.
  Qed.
  Lemma texts_lookup (ts : list str) k :
    ((exists a b, In (a ++ k ++ b) ts) -> @texts_getitem V ts k = Raise TypeError)
    /\ (~ (exists a b, In (a ++ k ++ b) ts) -> @texts_getitem V ts k = Raise KeyError).
  Proof.
    induction ts as [|t ts [IH1 IH2]]; cbn [texts_getitem].
    - split; [intros (a & b & [])|reflexivity].
    - destruct (occurs k t) eqn:O.
      + split; [reflexivity|]. intros H. exfalso. apply occurs_spec in O as (a & b & ->). apply H. exists a, b. left. reflexivity.
      + split.
        * intros (a & b & [E|H]); [|apply IH1; exists a, b; exact H]. exfalso.
          assert (occurs k t = true) by (apply occurs_spec; exists a, b; congruence). congruence.
        * intros H. apply IH2. intros (a & b & H'). apply H. exists a, b. right. exact H'.
  Qed.
  Lemma deep_keys (ds : combined V) k : Forall proper ds -> In k (c_deepcopied ds) <-> SpecCombined.held ds k <> [].
  Proof.
    intros P. pose proof (c_to_dict_lists_spec ds k P) as E. unfold c_deepcopied.
    assert (A : In k (map fst (c_to_dict_lists ds)) <-> dget (c_to_dict_lists ds) k <> None).
    { split.
      - intros H N. apply dget_none in N. contradiction.
      - intros H. destruct (dget (c_to_dict_lists ds) k) as [l|] eqn:G; [|congruence]. apply dget_In in G. apply in_map_iff. exists (k, l). auto. }
    rewrite A, E. rewrite (held_in ds k P). rewrite <- c_contains_spec. unfold c_contains. rewrite existsb_exists.
    destruct (find (fun d => m_contains d k) ds) as [d|] eqn:F.
    - split; [intros _|discriminate]. apply find_some in F as [F1 F2]. exists d. auto.
    - split; [congruence|]. intros (d & I & Y). pose proof (find_none _ _ F d I). cbn beta in *. congruence.
  Qed.
  Lemma combined_deep_exact (ds : combined V) k : Forall proper ds ->
    ((exists a b, SpecCombined.held ds (a ++ k ++ b) <> []) -> @texts_getitem V (c_deepcopied ds) k = Raise TypeError)
    /\ (~ (exists a b, SpecCombined.held ds (a ++ k ++ b) <> []) -> @texts_getitem V (c_deepcopied ds) k = Raise KeyError).
  Proof.
    intros P. destruct (texts_lookup (c_deepcopied ds) k) as [A B]. split.
    - intros (a & b & H). apply A. exists a, b. apply deep_keys; auto.
    - intros H. apply B. intros (a & b & I). apply H. exists a, b. apply deep_keys in I; auto.
  Qed.
End Others.
