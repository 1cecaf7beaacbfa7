From Coq Require Import Arith List NArith ZArith Bool Lia.
From Verif Require Import PyStr PyStrFacts ModelMultiDict ModelOrdered SpecOrdered ProofMultiDict.
Import ListNotations.
Open Scope N_scope.

Section OMDProof.
  Context {V : Type}.
  Implicit Types s : omd V.
  Notation cell := (nat * (str * V))%type.
  Implicit Types a b c cells : list cell.
  Notation sdec := (list_eq_dec N.eq_dec).

  Lemma nodup_app_r {A} (l1 l2 : list A) : NoDup (l1 ++ l2) -> NoDup l2.
  Proof. induction l1; cbn; auto. intros H. inversion H. auto. Qed.
  Lemma nodup_snoc {A} (l : list A) x : NoDup l -> ~ In x l -> NoDup (l ++ [x]).
  Proof.
    intros H Hx. induction l as [|y l IH]; cbn; [repeat constructor; auto|]. inversion H; subst. constructor.
    - intros X. apply in_app_or in X as [X|[->|[]]]; [auto|]. apply Hx. left. auto.
    - apply IH; auto. intros X. apply Hx. right. auto.
  Qed.
  Definition hdid c : option nat := match c with [] => None | x :: _ => Some (fst x) end.
  Definition lastid c : option nat := hdid (rev c).
  Lemma lastid_app c x : lastid (c ++ [x]) = Some (fst x).
  Proof. unfold lastid. rewrite rev_app_distr. reflexivity. Qed.
  Lemma lastid_cons_app a x b : lastid (a ++ x :: b) = match lastid b with Some i => Some i | None => Some (fst x) end.
  Proof. unfold lastid. rewrite rev_app_distr. cbn [rev]. destruct (rev b); cbn; auto. Qed.
  Lemma hdid_app a b : hdid (a ++ b) = match hdid a with Some i => Some i | None => hdid b end.
  Proof. destruct a; auto. Qed.
  Lemma hdid_in c i : hdid c = Some i -> In i (map fst c).
  Proof. destruct c; cbn; [discriminate|]. intros H. inversion H. auto. Qed.
  Lemma lastid_in c i : lastid c = Some i -> In i (map fst c).
  Proof. unfold lastid. intros H. apply hdid_in in H. rewrite map_rev in H. apply in_rev in H. auto. Qed.
  Lemma lastid_nil c : lastid c = None -> c = [].
  Proof. unfold lastid. intros H. destruct c using rev_ind; auto. rewrite rev_app_distr in H. discriminate. Qed.

  (** ** The heap *)
  Lemma nth_change (h : list (bucket V)) i f j :
    nth_error (change_at h i f) j = if Nat.eqb i j then option_map f (nth_error h j) else nth_error h j.
  Proof.
    revert i j. induction h as [|x h IH]; intros [|i] [|j]; cbn; auto; try (destruct (Nat.eqb _ _); reflexivity).
  Qed.
  Lemma length_change (h : list (bucket V)) i f : length (change_at h i f) = length h.
  Proof. revert i. induction h as [|x h IH]; intros [|i]; cbn; auto. Qed.
  Definition content (h : list (bucket V)) (j : nat) : option (str * V) :=
    option_map (fun x => (b_key x, b_val x)) (nth_error h j).
  Lemma content_change h i f j : (forall x, b_key (f x) = b_key x /\ b_val (f x) = b_val x) -> content (change_at h i f) j = content h j.
  Proof.
    intros H. unfold content. rewrite nth_change. destruct (Nat.eqb i j); auto. destruct (nth_error h j); auto. cbn.
    destruct (H b) as [-> ->]. auto.
  Qed.
  Lemma vals_content s s' l : (forall j, In j l -> content (o_heap s') j = content (o_heap s) j) -> vals_of s' l = vals_of s l.
  Proof.
    unfold vals_of. intros H. induction l as [|i l IH]; auto. cbn [flat_map]. rewrite IH by (intros; apply H; right; auto).
    f_equal. specialize (H i (or_introl eq_refl)). unfold content in H.
    destruct (nth_error (o_heap s') i), (nth_error (o_heap s) i); cbn in H; congruence.
  Qed.

  Definition linked (h : list (bucket V)) cells : Prop :=
    forall a i k v b, cells = a ++ (i, (k, v)) :: b -> nth_error h i = Some (Bucket (lastid a) k v (hdid b)).
  Definition chain s cells : Prop :=
    NoDup (map fst cells) /\ linked (o_heap s) cells /\ o_first s = hdid cells /\ o_last s = lastid cells.

  Lemma linked_in h cells i kv : linked h cells -> In (i, kv) cells -> content h i = Some kv.
  Proof.
    intros H Hi. apply in_split in Hi as (a & b & ->). destruct kv as [k v]. unfold content. rewrite (H a i k v b eq_refl). auto.
  Qed.
  Lemma linked_lt h cells i : linked h cells -> In i (map fst cells) -> (i < length h)%nat.
  Proof.
    intros H Hi. apply in_map_iff in Hi as ((i', kv) & E & Hi). cbn in E. subst. apply in_split in Hi as (a & b & ->).
    destruct kv as [k v]. specialize (H a i k v b eq_refl). apply nth_error_Some. congruence.
  Qed.

  Lemma unlink_chain s a i kv b : chain s (a ++ (i, kv) :: b) ->
    chain (unlink s i) (a ++ b) /\ o_dict (unlink s i) = o_dict s /\ length (o_heap (unlink s i)) = length (o_heap s) /\
    forall j, content (o_heap (unlink s i)) j = content (o_heap s) j.
  Proof.
    intros (Hn & Hl & Hf & Hla). destruct kv as [k v]. assert (Hi := Hl a i k v b eq_refl).
    unfold unlink. rewrite Hi. cbn [b_prev b_next].
    set (h1 := match lastid a with Some p => change_at (o_heap s) p (set_next (hdid b)) | None => o_heap s end).
    set (h2 := match hdid b with Some n => change_at h1 n (set_prev (lastid a)) | None => h1 end).
    assert (Hc : forall j, content h2 j = content (o_heap s) j).
    { intros j. assert (H1 : content h1 j = content (o_heap s) j).
      { unfold h1. destruct (lastid a); auto. apply content_change. auto. }
      rewrite <- H1. unfold h2. destruct (hdid b); auto. apply content_change. auto. }
    assert (Hlen : length h2 = length (o_heap s)).
    { assert (H1 : length h1 = length (o_heap s)) by (unfold h1; destruct (lastid a); rewrite ?length_change; auto).
      unfold h2. destruct (hdid b); rewrite ?length_change; auto. }
    cbn [o_dict o_heap]. split; [|auto].
    assert (Hn' := Hn). rewrite map_app in Hn'. cbn [map fst] in Hn'. apply NoDup_remove in Hn' as [Hn1 Hn2].
    rewrite <- map_app in Hn1. split; [exact Hn1|]. cbn [o_first o_last o_heap].
    assert (Hia : ~ In i (map fst a)) by (intros X; apply Hn2; apply in_or_app; auto).
    assert (Hib : ~ In i (map fst b)) by (intros X; apply Hn2; apply in_or_app; auto).
    assert (Hab : forall j, In j (map fst a) -> ~ In j (map fst b)).
    { intros j Ha Hb. rewrite map_app in Hn1. apply in_split in Ha as (p & q & Hpq). rewrite Hpq, <- app_assoc in Hn1. cbn in Hn1.
      apply NoDup_remove_2 in Hn1. apply Hn1. apply in_or_app. right. apply in_or_app. auto. }
    split; [|split].
    - intros c j k' v' d E.
      assert (N2 : forall j x, nth_error (o_heap s) j = Some x ->
        nth_error h2 j = Some (Bucket (match hdid b with Some n => if Nat.eqb n j then lastid a else b_prev x | None => b_prev x end)
          (b_key x) (b_val x) (match lastid a with Some p => if Nat.eqb p j then hdid b else b_next x | None => b_next x end))).
      { intros j0 x0 Hx0.
        assert (N1 : nth_error h1 j0 = Some (Bucket (b_prev x0) (b_key x0) (b_val x0) (match lastid a with Some p => if Nat.eqb p j0 then hdid b else b_next x0 | None => b_next x0 end))).
        { unfold h1. destruct (lastid a); [rewrite nth_change|]; rewrite Hx0; destruct x0; cbn; auto. destruct (Nat.eqb n j0); auto. }
        unfold h2. destruct (hdid b); [rewrite nth_change|]; rewrite N1; cbn; auto. destruct (Nat.eqb n j0); auto. }
      destruct (app_eq_app a b c ((j, (k', v')) :: d) E) as (m & [[E1 E2]|[E1 E2]]).
      + (* a = c ++ m *)
        destruct m as [|[j0 [k0 v0]] m].
        * rewrite app_nil_r in E1. subst c. cbn in E2. subst b.
          specialize (Hl (a ++ [(i, (k, v))]) j k' v' d). rewrite <- app_assoc in Hl. specialize (Hl eq_refl).
          rewrite (N2 _ _ Hl). cbn [b_prev b_next b_key b_val hdid fst]. rewrite Nat.eqb_refl. f_equal. f_equal.
          destruct (lastid a) eqn:El; auto. destruct (Nat.eqb n j) eqn:En; auto. apply Nat.eqb_eq in En. subst.
          exfalso. apply (Hab j); [apply lastid_in; auto|left; auto].
        * cbn in E2. injection E2 as <- <- <- E2. subst d.
          specialize (Hl c j k' v' (m ++ (i, (k, v)) :: b)). rewrite E1, <- app_assoc in Hl. specialize (Hl eq_refl).
          rewrite (N2 _ _ Hl). cbn [b_prev b_next b_key b_val].
          assert (Hj : In j (map fst a)) by (rewrite E1, map_app; apply in_or_app; right; left; auto).
          f_equal. f_equal.
          -- destruct (hdid b) eqn:Eb; auto. destruct (Nat.eqb n j) eqn:En; auto. apply Nat.eqb_eq in En. subst n.
             exfalso. apply (Hab j Hj). apply hdid_in. auto.
          -- rewrite !hdid_app. rewrite E1, lastid_cons_app. cbn [fst]. destruct (lastid m) eqn:Em.
             ++ assert (Hnj : Nat.eqb n j = false).
                { apply Nat.eqb_neq. intros ->. apply lastid_in in Em. rewrite E1 in Hn1. rewrite <- app_assoc, map_app in Hn1. cbn in Hn1.
                  apply NoDup_remove_2 in Hn1. apply Hn1. apply in_or_app. right. rewrite map_app. apply in_or_app. auto. }
                rewrite Hnj. destruct m; [discriminate|]. reflexivity.
             ++ apply lastid_nil in Em. subst m. rewrite Nat.eqb_refl. reflexivity.
      + (* c = a ++ m, b = m ++ x :: d *)
        destruct m as [|y m].
        * rewrite app_nil_r in E1. subst c. cbn in E2. subst b.
          specialize (Hl (a ++ [(i, (k, v))]) j k' v' d). rewrite <- app_assoc in Hl. specialize (Hl eq_refl).
          rewrite (N2 _ _ Hl). cbn [b_prev b_next b_key b_val hdid fst]. rewrite Nat.eqb_refl. f_equal. f_equal.
          destruct (lastid a) eqn:El; auto. destruct (Nat.eqb n j) eqn:En; auto. apply Nat.eqb_eq in En. subst.
          exfalso. apply (Hab j); [apply lastid_in; auto|left; auto].
        * subst b. specialize (Hl (a ++ (i, (k, v)) :: y :: m) j k' v' d). rewrite <- app_assoc in Hl. cbn [app] in Hl. specialize (Hl eq_refl).
          rewrite (N2 _ _ Hl). cbn [b_prev b_next b_key b_val hdid fst app].
          assert (Hj : In j (map fst ((y :: m) ++ (j, (k', v')) :: d))) by (rewrite map_app; apply in_or_app; right; left; auto).
          subst c. f_equal. f_equal.
          -- assert (Hyj : Nat.eqb (fst y) j = false).
             { apply Nat.eqb_neq. intros Ey. rewrite map_app in Hn1. apply nodup_app_r in Hn1. cbn in Hn1. inversion Hn1; subst.
               apply H1. rewrite map_app. apply in_or_app. right. left. auto. }
             rewrite Hyj. rewrite (lastid_cons_app a (i, (k, v)) (y :: m)), (lastid_cons_app a y m).
             change (y :: m) with ([] ++ y :: m). rewrite lastid_cons_app. destruct (lastid m); auto.
          -- destruct (lastid a) eqn:El; auto. destruct (Nat.eqb n j) eqn:En; auto. apply Nat.eqb_eq in En. subst.
             exfalso. apply (Hab j); [apply lastid_in; auto|exact Hj].
    - rewrite Hf, hdid_app. rewrite (hdid_app a b). destruct (hdid a) as [n|] eqn:Ea; cbn [is_num hdid fst].
      + assert (Nat.eqb n i = false) as ->; auto. apply Nat.eqb_neq. intros ->. apply Hia, hdid_in. auto.
      + rewrite Nat.eqb_refl. auto.
    - rewrite Hla, lastid_cons_app. destruct (lastid b) as [n|] eqn:Eb; cbn [is_num fst].
      + assert (Nat.eqb n i = false) as ->; [apply Nat.eqb_neq; intros ->; apply Hib, lastid_in; auto|].
        destruct b as [|y b]; [discriminate|]. rewrite lastid_cons_app.
        change (y :: b) with ([] ++ y :: b) in Eb. rewrite lastid_cons_app in Eb. auto.
      + rewrite Nat.eqb_refl. apply lastid_nil in Eb. subst b. rewrite app_nil_r. auto.
  Qed.

  Notation hk k := (fun c : cell => has_key k (snd c)).
  Notation nhk k := (fun c : cell => negb (has_key k (snd c))).
  Lemma unlink_key k : forall c p s, chain s (p ++ c) ->
    let s' := unlink_all s (map fst (filter (hk k) c)) in
    chain s' (p ++ filter (nhk k) c) /\ o_dict s' = o_dict s /\ length (o_heap s') = length (o_heap s) /\
    forall j, content (o_heap s') j = content (o_heap s) j.
  Proof.
    cbv zeta. unfold unlink_all. induction c as [|[i kv] c IH]; intros p s H; cbn [filter snd].
    - cbn. auto.
    - destruct (has_key k kv) eqn:E; cbn [negb map fst fold_left].
      + apply unlink_chain in H as (H1 & H2 & H3 & H4). destruct (IH p _ H1) as (G1 & G2 & G3 & G4).
        split; [exact G1|]. split; [congruence|]. split; [congruence|]. intros j. rewrite G4. auto.
      + specialize (IH (p ++ [(i, kv)]) s). rewrite <- !app_assoc in IH. cbn [app] in IH. auto.
  Qed.

  (** ** The state *)
  Definition omd_rep s cells : Prop :=
    chain s cells /\
    (forall k, dget (o_dict s) k = match map fst (filter (hk k) cells) with [] => None | l => Some l end) /\
    map fst (o_dict s) = map fst (firsts (map snd cells)).

  Lemma has_key_iff k (kv : str * V) : has_key k kv = true <-> fst kv = k.
  Proof. unfold has_key. destruct (sdec (fst kv) k); split; congruence. Qed.
  Lemma filter_snd f c : map snd (filter (fun x : cell => f (snd x)) c) = filter f (map snd c).
  Proof. induction c as [|x c IH]; cbn; auto. destruct (f (snd x)); cbn; congruence. Qed.
  Lemma filter_both {A} (f g : A -> bool) l : filter f (filter g l) = filter (fun x => g x && f x) l.
  Proof. induction l as [|x l IH]; cbn; auto. destruct (g x); cbn; [destruct (f x)|]; congruence. Qed.
  Lemma filter_same {A} (f g : A -> bool) l : (forall x, f x = g x) -> filter f l = filter g l.
  Proof. intros H. induction l; cbn; auto. rewrite H, IHl. auto. Qed.
  Lemma other_comm (l : pairs V) k k' : other_keys (other_keys l k) k' = other_keys (other_keys l k') k.
  Proof. unfold other_keys. rewrite !filter_both. apply filter_same. intros x. apply andb_comm. Qed.
  Lemma other_idem (l : pairs V) k : other_keys (other_keys l k) k = other_keys l k.
  Proof. unfold other_keys. rewrite filter_both. apply filter_same. intros x. apply andb_diag. Qed.
  Lemma other_cons kv (l : pairs V) k : other_keys (kv :: l) k = if has_key k kv then other_keys l k else kv :: other_keys l k.
  Proof. unfold other_keys. cbn [filter]. destruct (has_key k kv); auto. Qed.
  Lemma firsts_other (l : pairs V) k : firsts (other_keys l k) = other_keys (firsts l) k.
  Proof.
    induction l as [|[k0 v0] l IH]; auto. rewrite other_cons. cbn [firsts]. rewrite other_cons.
    destruct (has_key k (k0, v0)) eqn:E.
    - apply has_key_iff in E. cbn in E. subst. rewrite IH, other_idem. auto.
    - cbn [firsts]. rewrite IH, other_comm. auto.
  Qed.
  Lemma other_fst (l : pairs V) k : map fst (other_keys l k) = remove sdec k (map fst l).
  Proof.
    induction l as [|[k0 v0] l IH]; auto. rewrite other_cons. cbn [map fst remove]. unfold has_key. cbn [fst].
    destruct (sdec k0 k), (sdec k k0); cbn [map fst]; congruence.
  Qed.
  Lemma firsts_nodup (l : pairs V) : NoDup (map fst (firsts l)).
  Proof.
    induction l as [|[k v] l IH]; cbn; [constructor|]. rewrite other_fst. constructor; [apply remove_In|].
    clear -IH. induction (map fst (firsts l)); cbn; [constructor|]. inversion IH; subst. destruct (sdec k a); auto.
    constructor; auto. intros X. apply in_remove in X. tauto.
  Qed.
  Lemma firsts_in (l : pairs V) k : In k (map fst (firsts l)) <-> In k (map fst l).
  Proof.
    induction l as [|[k0 v] l IH]; cbn; [tauto|]. rewrite other_fst. split.
    - intros [->|H]; auto. apply in_remove in H as [H _]. apply IH in H. auto.
    - intros [->|H]; auto. destruct (sdec k0 k) as [->|Hn]; auto. right. apply in_in_remove; [congruence|]. apply IH. auto.
  Qed.
  Lemma other_notin (l : pairs V) k : ~ In k (map fst l) -> other_keys l k = l.
  Proof.
    induction l as [|[k0 v0] l IH]; auto. cbn [map fst]. intros H. rewrite other_cons.
    destruct (has_key k (k0, v0)) eqn:E; [apply has_key_iff in E; cbn in E; subst; destruct H; left; auto|].
    rewrite IH; auto. intros X. apply H. right. auto.
  Qed.
  Lemma of_key_in (l : pairs V) k : of_key l k = [] <-> ~ In k (map fst l).
  Proof.
    unfold of_key. split.
    - intros H Hi. apply in_map_iff in Hi as (kv & E & Hi). assert (Hf : In kv (filter (has_key k) l)) by (apply filter_In; split; auto; apply has_key_iff; auto).
      destruct (filter (has_key k) l); [destruct Hf|discriminate].
    - intros H. induction l as [|kv l IH]; auto. cbn [filter]. destruct (has_key k kv) eqn:E.
      + apply has_key_iff in E. destruct H. left. auto.
      + apply IH. intros X. apply H. right. auto.
  Qed.
  Lemma firsts_value (l : pairs V) k v : In (k, v) (firsts l) -> exists t, of_key l k = v :: t.
  Proof.
    induction l as [|[k0 v0] l IH]; cbn; [tauto|]. intros [H|H].
    - inversion H; subst. unfold of_key. cbn [filter]. unfold has_key at 1. cbn [fst]. destruct (sdec k k); [|congruence]. cbn [map snd]. eauto.
    - apply filter_In in H as [H Hn]. destruct (IH H) as (t & Ht). exists t. unfold of_key in *. cbn [filter].
      unfold has_key at 1. cbn [fst]. destruct (sdec k0 k); auto. subst. unfold has_key in Hn. cbn [fst] in Hn. destruct (sdec k k); [discriminate|congruence].
  Qed.
  Lemma firsts_snoc (l : pairs V) k v : firsts (l ++ [(k, v)]) = if in_dec sdec k (map fst l) then firsts l else firsts l ++ [(k, v)].
  Proof.
    induction l as [|[k0 v0] l IH]; cbn [app firsts map fst].
    - destruct (in_dec sdec k []) as [i|n]; [destruct i|reflexivity].
    - rewrite IH. destruct (in_dec sdec k (map fst l)) as [i|n]; destruct (in_dec sdec k (k0 :: map fst l)) as [i'|n']; auto.
      + destruct n'. right. auto.
      + destruct i' as [->|i']; [|contradiction]. unfold other_keys. rewrite filter_app. cbn [filter]. unfold has_key at 2. cbn [fst].
        destruct (sdec k k); [|congruence]. cbn. rewrite app_nil_r. auto.
      + unfold other_keys. rewrite filter_app. cbn [filter]. unfold has_key at 2. cbn [fst].
        destruct (sdec k k0) as [->|]; [destruct n'; left; auto|]. cbn. auto.
  Qed.

  Lemma cells_of_key c k : map snd (map snd (filter (hk k) c)) = of_key (map snd c) k.
  Proof. unfold of_key. rewrite (filter_snd (has_key k)). auto. Qed.
  Lemma vals_cells s c : (forall x, In x c -> content (o_heap s) (fst x) = Some (snd x)) -> vals_of s (map fst c) = map snd (map snd c).
  Proof.
    intros H. unfold vals_of. induction c as [|[i [k v]] c IH]; auto. cbn [map flat_map fst snd].
    rewrite IH by (intros; apply H; right; auto). specialize (H _ (or_introl eq_refl)). cbn in H. unfold content in H.
    destruct (nth_error (o_heap s) i); cbn in H; [|discriminate]. inversion H. auto.
  Qed.
  Lemma chain_content s cells x : chain s cells -> In x cells -> content (o_heap s) (fst x) = Some (snd x).
  Proof. intros (_ & Hl & _) Hi. destruct x as [i kv]. cbn. eapply linked_in; eauto. Qed.

  (** taking out a key *)
  Lemma take_out s cells k l : omd_rep s cells -> dget (o_dict s) k = Some l ->
    let s' := unlink_all (with_dict s (ddel (o_dict s) k)) l in
    omd_rep s' (filter (nhk k) cells) /\ vals_of s' l = of_key (map snd cells) k /\ of_key (map snd cells) k <> [].
  Proof.
    cbv zeta. intros (Hc & Hd & Hk) El. rewrite Hd in El.
    assert (El' : l = map fst (filter (hk k) cells) /\ l <> []).
    { destruct (map fst (filter (hk k) cells)) eqn:E; [discriminate|]. inversion El. split; [auto|discriminate]. }
    destruct El' as [-> Hne]. clear El.
    assert (Hc' : chain (with_dict s (ddel (o_dict s) k)) ([] ++ cells)) by exact Hc.
    apply unlink_key with (k := k) in Hc'. cbv zeta in Hc'. cbn [app] in Hc'.
    destruct Hc' as (G1 & G2 & G3 & G4). cbn [with_dict o_dict o_heap] in *.
    split; [split; [exact G1|split]|split].
    - intros k'. rewrite G2. rewrite (dget_ddel' (V:=nat)), Hd. destruct (sdec k' k) as [->|Hn].
      + rewrite filter_both. rewrite (filter_same _ (fun _ => false)).
        * assert (E : filter (fun _ => false) cells = []) by (clear; induction cells; auto). rewrite E. auto.
        * intros x. destruct (has_key k (snd x)); auto.
      + rewrite filter_both. rewrite (filter_same (fun x : cell => negb (has_key k (snd x)) && has_key k' (snd x)) (hk k')); auto. intros x. destruct (has_key k (snd x)) eqn:E; auto.
        cbn. symmetry. destruct (has_key k' (snd x)) eqn:F; auto. apply has_key_iff in E, F. congruence.
    - rewrite G2. rewrite (ddel_keys (V:=nat)), Hk. rewrite (filter_snd (fun kv => negb (has_key k kv))).
      change (filter (fun kv => negb (has_key k kv)) (map snd cells)) with (other_keys (map snd cells) k).
      rewrite firsts_other, other_fst. auto.
    - rewrite <- cells_of_key. apply vals_cells. intros x Hx. rewrite G4. apply filter_In in Hx as [Hx _].
      apply (chain_content _ _ _ Hc Hx).
    - rewrite <- cells_of_key. destruct (filter (hk k) cells); [destruct Hne; auto|discriminate].
  Qed.
  Lemma dget_cells s cells k : omd_rep s cells -> (dget (o_dict s) k = None <-> of_key (map snd cells) k = []).
  Proof.
    intros (_ & Hd & _). rewrite Hd, <- cells_of_key. destruct (filter (hk k) cells); cbn; split; auto; discriminate.
  Qed.
  Lemma filter_cells cells k : of_key (map snd cells) k = [] -> filter (nhk k) cells = cells.
  Proof.
    intros H. apply of_key_in in H. induction cells as [|x c IH]; auto. cbn [filter]. destruct (has_key k (snd x)) eqn:E; cbn.
    - apply has_key_iff in E. destruct H. left. auto.
    - rewrite IH; auto. intros X. apply H. right. auto.
  Qed.
  Lemma other_cells cells k : map snd (filter (nhk k) cells) = other_keys (map snd cells) k.
  Proof. apply (filter_snd (fun kv => negb (has_key k kv))). Qed.
  Lemma poplist_rep s cells k : omd_rep s cells ->
    exists c', omd_rep (fst (o_poplist s k)) c' /\ map snd c' = other_keys (map snd cells) k /\ snd (o_poplist s k) = of_key (map snd cells) k.
  Proof.
    intros H. unfold o_poplist. destruct (dget (o_dict s) k) as [l|] eqn:E.
    - destruct (take_out _ _ _ _ H E) as (G1 & G2 & G3). exists (filter (nhk k) cells). cbn [fst snd]. split; auto. split; auto. apply other_cells.
    - assert (E' := E). rewrite (dget_cells _ _ _ H) in E'. exists cells. cbn [fst snd]. split; auto. split; auto.
      rewrite other_notin; auto. apply of_key_in. auto.
  Qed.

  Lemma add_rep s cells k v : omd_rep s cells -> exists i, omd_rep (o_add s k v) (cells ++ [(i, (k, v))]).
  Proof.
    intros ((Hn & Hl & Hf & Hla) & Hd & Hk). exists (length (o_heap s)). set (i := length (o_heap s)).
    assert (Hi : ~ In i (map fst cells)) by (intros X; apply (linked_lt _ _ _ Hl) in X; unfold i in X; lia).
    unfold o_add, new_bucket. cbn [with_dict o_dict o_heap o_first o_last]. fold i.
    set (h := match o_last s with Some l => change_at (o_heap s) l (set_next (Some i)) | None => o_heap s end).
    assert (Hlen : length h = i) by (unfold h; destruct (o_last s); rewrite ?length_change; auto).
    split; [split; [|split; [|split]]|split].
    - rewrite map_app. cbn. apply nodup_snoc; auto.
    - cbn [o_heap]. intros a j k' v' b E. destruct b as [|y b] using rev_ind.
      + apply app_inj_tail in E as [-> E]. inversion E; subst j k' v'. rewrite nth_error_app2 by lia. rewrite Hlen, Nat.sub_diag. cbn.
        rewrite Hla. reflexivity.
      + clear IHb. rewrite app_comm_cons, app_assoc in E. apply app_inj_tail in E as [-> <-].
        assert (Hj := Hl a j k' v' b eq_refl).
        assert (Hlt : (j < length h)%nat) by (rewrite Hlen; apply nth_error_Some; congruence).
        rewrite nth_error_app1 by auto. unfold h. rewrite Hla, lastid_cons_app. cbn [fst].
        destruct (lastid b) eqn:Eb; rewrite nth_change, Hj; cbn [option_map set_next b_prev b_key b_val].
        * assert (Nat.eqb n j = false) as ->.
          { apply Nat.eqb_neq. intros ->. apply lastid_in in Eb. rewrite map_app in Hn. cbn in Hn. apply NoDup_remove_2 in Hn. apply Hn, in_or_app. auto. }
          destruct b; [discriminate|]. reflexivity.
        * rewrite Nat.eqb_refl. apply lastid_nil in Eb. subst b. reflexivity.
    - cbn [o_first]. rewrite Hf. destruct cells; reflexivity.
    - cbn [o_last]. rewrite lastid_app. reflexivity.
    - cbn [o_dict]. intros k'. rewrite filter_app. cbn [filter snd]. rewrite Hd.
      destruct (has_key k' (k, v)) eqn:E.
      + apply has_key_iff in E. cbn in E. subst k'. rewrite map_app. cbn [map fst].
        destruct (map fst (filter (hk k) cells)) eqn:F; rewrite dget_dset_eq; cbn; auto.
      + assert (Hne : k <> k') by (intros ->; unfold has_key in E; cbn [fst] in E; destruct (sdec k' k'); congruence).
        rewrite app_nil_r. destruct (map fst (filter (hk k) cells)) eqn:F; rewrite dget_dset_neq by auto; rewrite Hd; auto.
    - cbn [o_dict]. rewrite map_app. cbn [map snd]. rewrite firsts_snoc.
      assert (Hin : In k (map fst (o_dict s)) <-> In k (map fst (map snd cells))) by (rewrite Hk; apply firsts_in).
      assert (Hds : forall l, map fst (dset (o_dict s) k l) = map fst (if in_dec sdec k (map fst (map snd cells)) then firsts (map snd cells) else firsts (map snd cells) ++ [(k, v)])).
      { intros l. rewrite (dset_keys' (V:=nat)). destruct (in_dec sdec k (map fst (o_dict s))), (in_dec sdec k (map fst (map snd cells))); try tauto.
        rewrite map_app, Hk. auto. }
      destruct (dget (o_dict s) k); apply Hds.
  Qed.
  Lemma adds_rep l : forall s cells, omd_rep s cells -> exists c', omd_rep (o_adds s l) c' /\ map snd c' = map snd cells ++ l.
  Proof.
    induction l as [|[k v] l IH]; intros s cells H; cbn [o_adds fold_left].
    - exists cells. rewrite app_nil_r. auto.
    - destruct (add_rep _ _ k v H) as (i & Hi). destruct (IH _ _ Hi) as (c' & H1 & H2). exists c'. split; [exact H1|].
      rewrite H2, map_app, <- app_assoc. reflexivity.
  Qed.
  Lemma pop_last_rep s cells : omd_rep s cells ->
    match o_pop_last s with
    | None => last_first (map snd cells) = None
    | Some (s', k, l) => exists c' v, last_first (map snd cells) = Some (k, v) /\ omd_rep s' c' /\
        map snd c' = other_keys (map snd cells) k /\ vals_of s' l = of_key (map snd cells) k /\ (exists t, of_key (map snd cells) k = v :: t)
    end.
  Proof.
    intros H. assert (H0 := H). destruct H as (Hc & Hd & Hk). unfold o_pop_last, last_first.
    destruct (rev (o_dict s)) as [|[k l] r] eqn:E.
    - assert (E0 : o_dict s = []) by (rewrite <- (rev_involutive (o_dict s)), E; auto). rewrite E0 in Hk. cbn in Hk.
      destruct (firsts (map snd cells)); [auto|discriminate].
    - assert (Ed : o_dict s = rev r ++ [(k, l)]) by (rewrite <- (rev_involutive (o_dict s)), E; auto).
      assert (Hnd : NoDup (map fst (o_dict s))) by (rewrite Hk; apply firsts_nodup).
      assert (Hkr : ~ In k (map fst (rev r))).
      { rewrite Ed, map_app in Hnd. cbn in Hnd. apply NoDup_remove_2 in Hnd. rewrite app_nil_r in Hnd. auto. }
      assert (Hr : rev r = ddel (o_dict s) k).
      { rewrite Ed. unfold ddel. rewrite filter_app. cbn [filter]. rewrite eqs_refl. cbn. rewrite app_nil_r.
        symmetry. clear -Hkr. induction (rev r) as [|[k0 l0] q IH]; cbn; auto. cbn in Hkr.
        destruct (eqs k k0) eqn:F; [apply eqs_eq in F; subst; tauto|]. cbn. rewrite IH; auto. }
      assert (Hg : dget (o_dict s) k = Some l).
      { rewrite Ed. clear -Hkr. induction (rev r) as [|[k0 l0] q IH]; cbn; [rewrite eqs_refl; auto|]. cbn in Hkr.
        destruct (eqs k k0) eqn:F; [apply eqs_eq in F; subst; tauto|]. apply IH. tauto. }
      rewrite Hr. destruct (take_out _ _ _ _ H0 Hg) as (G1 & G2 & G3).
      assert (Hrf : map fst (rev (firsts (map snd cells))) = k :: map fst r) by (rewrite map_rev, <- Hk, <- map_rev, E; auto).
      destruct (rev (firsts (map snd cells))) as [|[k1 v1] q] eqn:Ef; [discriminate|]. cbn in Hrf. inversion Hrf; subst k1.
      exists (filter (nhk k) cells), v1. split; auto. split; auto. split; [apply other_cells|]. split; auto.
      apply firsts_value. apply in_rev. rewrite Ef. left. auto.
  Qed.

  Lemma getlist_rep s cells k : omd_rep s cells -> o_getlist s k = of_key (map snd cells) k.
  Proof.
    intros (Hc & Hd & _). unfold o_getlist. rewrite Hd, <- cells_of_key. rewrite <- (vals_cells s).
    - destruct (map fst (filter (hk k) cells)); auto.
    - intros x Hx. apply filter_In in Hx as [Hx _]. eapply chain_content; eauto.
  Qed.
  Lemma getitem_rep s cells k : omd_rep s cells -> o_getitem s k = match of_key (map snd cells) k with x :: _ => Ok x | [] => Raise KeyError end.
  Proof.
    intros H. assert (G := getlist_rep _ _ k H). unfold o_getlist in G. unfold o_getitem, first_val.
    destruct (dget (o_dict s) k) eqn:E.
    - rewrite G. destruct (of_key (map snd cells) k) eqn:F; auto. rewrite <- (dget_cells _ _ _ H) in F. congruence.
    - rewrite <- G. auto.
  Qed.
  Lemma contains_rep s cells k : omd_rep s cells -> o_contains s k = match of_key (map snd cells) k with [] => false | _ => true end.
  Proof.
    intros H. unfold o_contains, dhas. assert (G := dget_cells _ _ k H).
    destruct (dget (o_dict s) k), (of_key (map snd cells) k); auto; [destruct G as [_ G]|destruct G as [G _]]; discriminate G; auto.
  Qed.

  Lemma walk_rep h c : forall p fuel, linked h (p ++ c) -> (length c <= fuel)%nat -> walk fuel h (hdid c) = Some (map snd c).
  Proof.
    induction c as [|[i [k v]] c IH]; intros p fuel H Hf; cbn [hdid fst walk].
    - destruct fuel; auto.
    - destruct fuel as [|fuel]; [cbn in Hf; lia|]. cbn [walk]. rewrite (H p i k v c eq_refl). cbn [b_next b_key b_val].
      rewrite (IH (p ++ [(i, (k, v))])); [reflexivity| |cbn in Hf; lia]. rewrite <- app_assoc. exact H.
  Qed.
  Lemma items_multi_rep s cells : omd_rep s cells -> o_items_multi s = Some (map snd cells).
  Proof.
    intros ((Hn & Hl & Hf & Hla) & _). unfold o_items_multi. rewrite Hf. apply (walk_rep _ _ []); [exact Hl|].
    rewrite <- (map_length fst cells). rewrite <- (seq_length (length (o_heap s)) 0). apply NoDup_incl_length; auto.
    intros j Hj. apply in_seq. apply (linked_lt _ _ _ Hl) in Hj. lia.
  Qed.
  Lemma unseen_spec (l : pairs V) : forall seen, unseen seen l = filter (fun kv => negb (existsb (eqs (fst kv)) seen)) (firsts l).
  Proof.
    induction l as [|[k v] l IH]; intros seen; auto. cbn [unseen firsts]. cbn [filter fst]. destruct (existsb (eqs k) seen) eqn:E; cbn [negb].
    - rewrite IH. unfold other_keys. rewrite filter_both. apply filter_same. intros [k' v']. cbn [fst]. unfold has_key. cbn [fst].
      destruct (sdec k' k) as [->|]; cbn; auto. rewrite E. auto.
    - f_equal. rewrite IH. unfold other_keys. rewrite filter_both. apply filter_same. intros [k' v']. cbn [fst existsb].
      rewrite negb_orb. f_equal. unfold has_key. cbn [fst]. destruct (sdec k' k) as [->|Hn]; [rewrite eqs_refl; auto|].
      destruct (eqs k' k) eqn:F; auto. apply eqs_eq in F. contradiction.
  Qed.
  Lemma unseen_firsts (l : pairs V) : unseen [] l = firsts l.
  Proof. rewrite unseen_spec. cbn. induction (firsts l); cbn; congruence. Qed.
  Lemma fold_dset_nodup {W} (l : list (str * W)) : forall acc : dict W, NoDup (map fst acc ++ map fst l) ->
    fold_left (fun x kv => dset x (fst kv) (snd kv)) l acc = acc ++ l.
  Proof.
    induction l as [|[k v] l IH]; intros acc H; cbn [fold_left fst snd]; [rewrite app_nil_r; auto|].
    cbn [map fst] in H. assert (Hk : dget acc k = None).
    { apply dget_none. apply NoDup_remove_2 in H. intros X. apply H, in_or_app. auto. }
    rewrite dset_notin by auto. rewrite IH.
    - rewrite <- app_assoc. auto.
    - rewrite map_app, <- app_assoc. exact H.
  Qed.
  Lemma reads_rep s cells : omd_rep s cells -> ordered_reads s (map snd cells).
  Proof.
    intros H. assert (Hm := items_multi_rep _ _ H).
    assert (Hi : o_items s = Some (firsts (map snd cells))) by (unfold o_items; rewrite Hm; cbn; rewrite unseen_firsts; auto).
    assert (Hg : forall l : pairs V, map (fun kv => (fst kv, o_getlist s (fst kv))) l = map (fun kv => (fst kv, of_key (map snd cells) (fst kv))) l).
    { intros l. apply map_ext. intros kv. rewrite (getlist_rep _ _ _ H). auto. }
    unfold ordered_reads. split; auto. split; auto. unfold o_lists, o_keys, o_values, o_to_dict, o_to_dict_lists, o_lists. rewrite Hi. cbn [option_map].
    rewrite Hg. split; auto. split; auto. split; auto. split; [intros; eapply getlist_rep; eauto|]. split; [intros; eapply getitem_rep; eauto|].
    split; [unfold o_len; rewrite <- (map_length fst); destruct H as (_ & _ & ->); apply map_length|]. split.
    - intros k. rewrite (contains_rep _ _ _ H). destruct (of_key (map snd cells) k) eqn:E.
      + apply of_key_in in E. split; [discriminate|tauto].
      + split; auto. intros _. destruct (in_dec sdec k (map fst (map snd cells))); auto. apply of_key_in in n. congruence.
    - split.
      + f_equal. apply (fold_dset_nodup (firsts (map snd cells)) []). apply firsts_nodup.
      + f_equal. apply (fold_dset_nodup (map (fun kv => (fst kv, of_key (map snd cells) (fst kv))) (firsts (map snd cells))) []).
        cbn. rewrite map_map. cbn. apply firsts_nodup.
  Qed.

  Lemma step_rep s cells o : omd_rep s cells -> not_clear o ->
    exists c', omd_rep (fst (o_step s o)) c' /\ (map snd c', snd (o_step s o)) = seq_step (map snd cells) o.
  Proof.
    intros H Ho. destruct o as [s0 v|s0 l|s0 v|s0 v|s0 l|s0|s0 o| |s0| |s0|]; cbn [o_step seq_step not_clear] in *; try contradiction.
    - destruct (add_rep _ _ s0 v H) as (i & Hi). exists (cells ++ [(i, (s0, v))]). split; [exact Hi|]. rewrite map_app. auto.
    - destruct (poplist_rep _ _ s0 H) as (c1 & H1 & H2 & _). destruct (adds_rep (map (fun v => (s0, v)) l) _ _ H1) as (c2 & H3 & H4).
      exists c2. split; [exact H3|]. cbn [snd]. rewrite H4, H2. auto.
    - destruct (poplist_rep _ _ s0 H) as (c1 & H1 & H2 & _). destruct (add_rep _ _ s0 v H1) as (i & Hi).
      exists (c1 ++ [(i, (s0, v))]). split; [exact Hi|]. rewrite map_app, H2. auto.
    - rewrite (contains_rep _ _ _ H). destruct (of_key (map snd cells) s0) eqn:E.
      + destruct (poplist_rep _ _ s0 H) as (c1 & H1 & H2 & _). destruct (add_rep _ _ s0 v H1) as (i & Hi).
        exists (c1 ++ [(i, (s0, v))]). split; [exact Hi|]. rewrite map_app, H2. rewrite other_notin by (apply of_key_in; auto). auto.
      + exists cells. cbn [fst snd]. split; auto. rewrite (getitem_rep _ _ _ H), E. auto.
    - exists cells. auto.
    - destruct (adds_rep (pairs_of s0) _ _ H) as (c1 & H1 & H2). exists c1. split; auto. cbn [snd]. rewrite H2. auto.
    - destruct (dget (o_dict s) s0) eqn:E.
      + destruct (take_out _ _ _ _ H E) as (G1 & G2 & G3). exists (filter (nhk s0) cells). cbn [fst snd]. split; auto.
        unfold first_val. rewrite G2, other_cells. destruct (of_key (map snd cells) s0); [congruence|]. reflexivity.
      + exists cells. cbn [fst snd]. split; auto. rewrite (dget_cells _ _ _ H) in E. rewrite E. destruct o; auto.
    - assert (G := pop_last_rep _ _ H). destruct (o_pop_last s) as [[[s' k] l]|].
      + destruct G as (c' & v & G1 & G2 & G3 & G4 & t & G5). exists c'. cbn [fst snd]. split; auto. rewrite G1. unfold first_val. rewrite G4, G5, G3. reflexivity.
      + rewrite G. exists cells. auto.
    - destruct (poplist_rep _ _ s0 H) as (c1 & H1 & H2 & H3). destruct (o_poplist s s0) as [s' l]. exists c1. cbn [fst snd] in *. split; auto. rewrite H2, H3. auto.
    - assert (G := pop_last_rep _ _ H). destruct (o_pop_last s) as [[[s' k] l]|].
      + destruct G as (c' & v & G1 & G2 & G3 & G4 & t & G5). exists c'. cbn [fst snd]. split; auto. rewrite G1, G4, G3. reflexivity.
      + rewrite G. exists cells. auto.
    - destruct (dget (o_dict s) s0) eqn:E.
      + destruct (take_out _ _ _ _ H E) as (G1 & G2 & G3). exists (filter (nhk s0) cells). cbn [fst snd]. split; auto.
        unfold first_val. rewrite G2, other_cells. destruct (of_key (map snd cells) s0); [congruence|]. reflexivity.
      + exists cells. cbn [fst snd]. split; auto. rewrite (dget_cells _ _ _ H) in E. rewrite E. auto.
  Qed.
  Lemma run_rep ops : forall s cells, omd_rep s cells -> Forall not_clear ops ->
    exists c', omd_rep (fst (o_run s ops)) c' /\ (map snd c', snd (o_run s ops)) = seq_run (map snd cells) ops.
  Proof.
    induction ops as [|o ops IH]; intros s cells H Ho; cbn [o_run seq_run].
    - exists cells. auto.
    - inversion Ho; subst. destruct (step_rep _ _ o H H2) as (c1 & G1 & G2). rewrite <- G2.
      destruct (o_step s o) as [s1 r1]. cbn [fst snd] in *. destruct (IH _ _ G1 H3) as (c2 & K1 & K2). rewrite <- K2.
      destruct (o_run s1 ops) as [s2 rs]. cbn [fst snd] in *. exists c2. auto.
  Qed.
  Lemma update_self_rep fuel : forall s a x b, omd_rep s (a ++ x :: b) -> o_update_self fuel s (Some (fst x)) = None.
  Proof.
    induction fuel as [|fuel IH]; intros s a [i [k v]] b H; cbn [o_update_self fst]; auto.
    assert (Hl : linked (o_heap s) (a ++ (i, (k, v)) :: b)) by apply H. rewrite (Hl a i k v b eq_refl). cbn [b_key b_val].
    destruct (add_rep _ _ k v H) as (j & Hj). rewrite <- app_assoc in Hj. cbn [app] in Hj.
    assert (Hl' : linked (o_heap (o_add s k v)) (a ++ (i, (k, v)) :: b ++ [(j, (k, v))])) by apply Hj.
    rewrite (Hl' a i k v _ eq_refl). cbn [b_next].
    destruct b as [|y b]; cbn [app hdid].
    - apply (IH _ (a ++ [(i, (k, v))]) (j, (k, v)) []). rewrite <- app_assoc. exact Hj.
    - apply (IH _ (a ++ [(i, (k, v))]) y (b ++ [(j, (k, v))])). rewrite <- app_assoc. exact Hj.
  Qed.
  Lemma init_rep : omd_rep (@o_empty V) [].
  Proof.
    repeat split; auto; cbn; try constructor. intros a i k v b E. destruct a; discriminate.
  Qed.
  Lemma ordered_refines (m : source V) ops : Forall not_clear ops ->
    let '(o, rets) := o_run (o_init m) ops in
    let '(sq, rets') := seq_run (pairs_of m) ops in
    ordered_reads o sq /\ rets = rets'.
  Proof.
    intros Ho. destruct (adds_rep (pairs_of m) _ _ init_rep) as (c0 & H0 & E0). cbn in E0.
    destruct (run_rep ops _ _ H0 Ho) as (c1 & H1 & E1). unfold o_init. rewrite E0 in E1. rewrite <- E1.
    destruct (o_run (o_adds o_empty (pairs_of m)) ops) as [o rets]. cbn [fst snd] in *. split; auto. apply reads_rep. auto.
  Qed.
  Lemma ordered_update_self (m : source V) ops : Forall not_clear ops -> fst (seq_run (pairs_of m) ops) <> [] ->
    forall fuel, o_update_self fuel (fst (o_run (o_init m) ops)) (o_first (fst (o_run (o_init m) ops))) = None.
  Proof.
    intros Ho Hne fuel. destruct (adds_rep (pairs_of m) _ _ init_rep) as (c0 & H0 & E0). cbn in E0.
    destruct (run_rep ops _ _ H0 Ho) as (c1 & H1 & E1). fold (o_init m) in *. rewrite E0 in E1.
    destruct c1 as [|x c1]; [rewrite <- E1 in Hne; destruct Hne; auto|].
    assert (Hf : o_first (fst (o_run (o_init m) ops)) = Some (fst x)) by apply H1.
    rewrite Hf. apply (update_self_rep _ _ [] x c1). exact H1.
  Qed.
End OMDProof.
