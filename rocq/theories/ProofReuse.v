(** Lemmas about a builder that is used more than once. *)
From Coq Require Import Arith List NArith ZArith Bool Lia ZifyBool ZifyN ZifyNat Permutation.
From Verif Require Import PyStr PyStrFacts ModelUrls SpecUrls ModelMultiDict ModelCombined ModelRequest SpecRequest ProofRequest ModelTest ModelReuse SpecReuse.
From Verif Require ProofCurrent ProofBuilder.
Import ListNotations.
Open Scope N_scope.
Ltac inv H := inversion H; subst; clear H.

(** ** Changing one object *)
Lemma change_same l n f o : nth_error l n = Some o -> nth_error (change l n f) n = Some (f o).
Proof. revert n. induction l as [|x l IH]; intros [|n] H; inv H; cbn [change nth_error]; auto. Qed.
Lemma change_other l n f m : m <> n -> nth_error (change l n f) m = nth_error l m.
Proof. revert n m. induction l as [|x l IH]; intros [|n] [|m] H; cbn [change nth_error]; auto; congruence. Qed.
Lemma change_none l n f m : nth_error l m = None -> nth_error (change l n f) m = None.
Proof. revert n m. induction l as [|x l IH]; intros [|n] [|m] H; cbn [change nth_error] in *; auto; discriminate. Qed.

(** ** close *)
Lemma close_loop l os calls : (forall k v, In (k, v) l -> v <> []) ->
  exists called os', close_values l os calls = (Ok tt, (os', calls ++ called)) /\ first_of_each l called /\
    forall n o, nth_error os n = Some o -> exists o', nth_error os' n = Some o' /\
      o_data o' = o_data o /\ o_pos o' = o_pos o /\ o_name o' = o_name o /\ o_ctype o' = o_ctype o /\ o_fails o' = o_fails o /\
      (o_open o' = true <-> o_open o = true /\ (In n called -> o_fails o = true)).
Proof.
  revert os calls. induction l as [|[k [|n rest]] l IH]; intros os calls H.
  - exists [], os. rewrite app_nil_r. repeat split; [constructor|]. intros n o E. exists o. repeat split; auto; cbn [In]; tauto.
  - destruct (H k []); cbn; auto.
  - destruct (IH (change os n shut) (calls ++ [n])) as (called & os' & E & F & O); [intros; eapply H; right; eauto|].
    exists (n :: called), os'. split; [cbn [close_values]; rewrite E, <- app_assoc; reflexivity|]. split; [constructor; [exists rest; auto|auto]|].
    intros m o Em. destruct (Nat.eq_dec m n) as [->|N].
    + pose proof (change_same os n shut o Em) as Em'. destruct (O n _ Em') as (o' & E' & A1 & A2 & A3 & A4 & A5 & A6).
      exists o'. cbn [shut o_data o_pos o_name o_ctype o_fails o_open] in *. repeat split; auto.
      * apply A6 in H0 as [X _]. apply andb_true_iff in X. tauto.
      * intros _. apply A6 in H0 as [X _]. apply andb_true_iff in X. tauto.
      * intros [X1 X2]. apply A6. rewrite X1, X2 by (left; auto). auto.
    + rewrite <- (change_other os n shut m N) in Em. destruct (O m _ Em) as (o' & E' & A1 & A2 & A3 & A4 & A5 & A6).
      exists o'. repeat split; auto.
      * apply A6 in H0. tauto.
      * intros [X|X]; [congruence|]. apply A6 in H0 as [_ Y]. auto.
      * intros [X1 X2]. apply A6. split; auto. intros X. apply X2. right; auto.
Qed.
Lemma close_spec y r y' : close y = (r, y') -> y_closed y = false -> (forall k v, In (k, v) (files_of y) -> v <> []) ->
  r = Ok tt /\ y_closed y' = true /\
  exists called, y_closings y' = y_closings y ++ called /\
    (y_input y = None -> first_of_each (files_of y) called) /\ (y_input y <> None -> called = []) /\
    forall n o, nth_error (y_objects y) n = Some o -> exists o', nth_error (y_objects y') n = Some o' /\
      o_data o' = o_data o /\ o_pos o' = o_pos o /\
      (o_open o' = true <-> o_open o = true /\ (In n called -> o_fails o = true)).
Proof.
  intros E C H. unfold close in E. rewrite C in E. change (or_empty (y_files y)) with (files_of y) in E. destruct (y_input y) as [i|].
  - cbn [close_values] in E. inv E. cbn. repeat split; auto. exists []. rewrite app_nil_r. repeat split; auto; [discriminate|].
    intros n o En. exists o. repeat split; auto; cbn [In]; tauto.
  - destruct (close_loop (files_of y) (y_objects y) (y_closings y) H) as (called & os' & E1 & F & O). rewrite E1 in E. inv E. cbn.
    repeat split; auto. exists called. repeat split; auto; [congruence|].
    intros n o En. destruct (O n o En) as (o' & X1 & X2 & X3 & _ & _ & _ & X4). exists o'. auto.
Qed.
Lemma stays_closed guess ip_ok nfkc_ok l y : y_closed y = true ->
  y_closed (happen_all guess ip_ok nfkc_ok l y) = true /\ y_closings (happen_all guess ip_ok nfkc_ok l y) = y_closings y.
Proof.
  unfold happen_all. revert y. induction l as [|e l IH]; intros y C; [auto|]. cbn [fold_left].
  assert (X : y_closed (happen guess ip_ok nfkc_ok e y) = true /\ y_closings (happen guess ip_ok nfkc_ok e y) = y_closings y).
  { destruct e; cbn [happen]; auto.
    - unfold set_base_url. destruct (split_base_url ip_ok nfkc_ok value) as [[[? ?] ?]|]; auto.
    - destruct (y_input y); auto.
    - unfold ask. destruct (y_input y) as [i|]; [destruct (nth_error (y_objects y) i) as [o|]; [destruct (o_open o)|]; auto|].
      destruct (y_content_type y) as [t|]; [|auto]. destruct (eqs t (lit "multipart/form-data")).
      + destruct (write_objects _ _ _ _ _). auto.
      + destruct (eqs t (lit "application/x-www-form-urlencoded")); auto.
    - unfold close. rewrite C. auto. }
  destruct X as [X1 X2]. destruct (IH _ X1) as [Y1 Y2]. split; [exact Y1|]. rewrite Y2. auto.
Qed.

(** ** The values of form and files *)
Section vmap.
  Context {A B : Type} (g : A -> B).
  Definition on_values (kl : str * list A) : str * list B := (fst kl, map g (snd kl)).
  Lemma dget_map (d : dict (list A)) k : dget (map on_values d) k = option_map (map g) (dget d k).
  Proof. induction d as [|[k' v] d IH]; cbn; auto. destruct (eqs k k'); auto. Qed.
  Lemma dset_map (d : dict (list A)) k v : dset (map on_values d) k (map g v) = map on_values (dset d k v).
  Proof. induction d as [|[k' v'] d IH]; cbn; auto. destruct (eqs k k'); cbn; [auto|]. rewrite IH. auto. Qed.
  Lemma extend_map (d : dict (list A)) kl : extend_key (map on_values d) (on_values kl) = map on_values (extend_key d kl).
  Proof.
    unfold extend_key. destruct kl as [k l]. cbn [on_values fst snd]. rewrite dget_map. destruct (dget d k) as [v|]; cbn [option_map].
    - rewrite <- map_app. apply dset_map.
    - apply dset_map.
  Qed.
  Lemma extends_map (l : list (str * list A)) d : fold_left extend_key (map on_values l) (map on_values d) = map on_values (fold_left extend_key l d).
  Proof. revert d. induction l as [|x l IH]; intros d; cbn [map fold_left]; auto. rewrite extend_map. apply IH. Qed.
  Lemma c_lists_map (ds : list (dict (list A))) : c_lists (map (map on_values) ds) = map on_values (c_lists ds).
  Proof.
    unfold c_lists. change (@nil (str * list B)) with (map on_values []). generalize (@nil (str * list A)). induction ds as [|d ds IH]; intros rv; cbn [map fold_left]; auto.
    unfold m_lists. rewrite extends_map. apply IH.
  Qed.
End vmap.
Definition flat {A} (l : list (str * list A)) : list (str * A) := flat_map (fun kl => map (fun v => (fst kl, v)) (snd kl)) l.
Lemma flat_values {A B} (g : A -> B) l : flat (map (on_values g) l) = map (fun kv => (fst kv, g (snd kv))) (flat l).
Proof.
  unfold flat. induction l as [|[k v] l IH]; cbn [map flat_map]; auto. rewrite map_app, IH. f_equal. cbn. rewrite !map_map. auto.
Qed.
Lemma dset_perm {A} (d : dict (list A)) k v w : dget d k = Some v -> Permutation (flat_map snd (dset d k (v ++ w))) (flat_map snd d ++ w).
Proof.
  induction d as [|[k' v'] d IH]; cbn; [discriminate|]. destruct (eqs k k') eqn:E; cbn.
  - intros H. inv H. rewrite <- !app_assoc. apply Permutation_app_head. apply Permutation_app_comm.
  - intros H. rewrite <- app_assoc. apply Permutation_app_head. auto.
Qed.
Lemma extend_perm {A} (d : dict (list A)) kl : Permutation (flat_map snd (extend_key d kl)) (flat_map snd d ++ snd kl).
Proof.
  unfold extend_key. destruct (dget d (fst kl)) as [v|] eqn:E; [apply dset_perm; auto|].
  rewrite dset_notin by auto. rewrite flat_map_app. cbn. rewrite app_nil_r. auto.
Qed.
Lemma extends_perm {A} (l : list (str * list A)) d : Permutation (flat_map snd (fold_left extend_key l d)) (flat_map snd d ++ flat_map snd l).
Proof.
  revert d. induction l as [|x l IH]; intros d; cbn [fold_left flat_map]; [rewrite app_nil_r; auto|].
  rewrite IH, extend_perm, app_assoc. auto.
Qed.
Lemma c_lists_perm {A} (ds : list (dict (list A))) : Permutation (flat_map snd (c_lists ds)) (flat_map (flat_map snd) ds).
Proof.
  unfold c_lists. change (flat_map (flat_map snd) ds) with (flat_map snd (@nil (str * list A)) ++ flat_map (flat_map snd) ds).
  generalize (@nil (str * list A)). induction ds as [|d ds IH]; intros rv; cbn [fold_left flat_map]; [rewrite app_nil_r; auto|].
  rewrite IH. unfold m_lists. rewrite extends_perm, app_assoc. auto.
Qed.
Lemma flat_snd {A} (l : list (str * list A)) : map snd (flat l) = flat_map snd l.
Proof. unfold flat. induction l as [|[k v] l IH]; cbn [flat_map map]; auto. rewrite map_app, map_map, IH, map_id. auto. Qed.

(** ** The body *)
Definition numbers (l : list (fval + nat)) : list nat := flat_map (fun v => match v with inl _ => [] | inr n => [n] end) l.
Lemma numbers_app a b : numbers (a ++ b) = numbers a ++ numbers b.
Proof. apply flat_map_app. Qed.
Lemma numbers_perm a b : Permutation a b -> Permutation (numbers a) (numbers b).
Proof.
  induction 1; cbn; auto.
  - apply Permutation_app_head; auto.
  - rewrite !app_assoc. apply Permutation_app_tail. apply Permutation_app_comm.
  - etransitivity; eauto.
Qed.
Lemma numbers_lists y : Permutation (numbers (map snd (flat (y_lists y)))) (all_files y).
Proof.
  rewrite flat_snd. etransitivity; [apply numbers_perm, c_lists_perm|].
  change (or_empty (y_files y)) with (files_of y). cbn [flat_map]. rewrite app_nil_r, numbers_app.
  assert (A : numbers (flat_map snd (map (fun kl : str * list fval => (fst kl, map (@inl fval nat) (snd kl))) (or_empty (y_form y)))) = []).
  { induction (or_empty (y_form y)) as [|[k l] d IH]; auto. cbn [map flat_map snd fst]. rewrite numbers_app, IH, app_nil_r. induction l; auto. }
  assert (B : forall d : mdict nat, numbers (flat_map snd (map (fun kl : str * list nat => (fst kl, map (@inr fval nat) (snd kl))) d)) = flat_map snd d).
  { induction d as [|[k l] d IH]; [reflexivity|]. cbn [map flat_map snd fst]. rewrite numbers_app, IH. f_equal. clear IH. induction l as [|n l IH2]; [reflexivity|].
    change (n :: numbers (map inr l) = n :: l). rewrite IH2. reflexivity. }
  rewrite A, B. reflexivity.
Qed.
Definition to_value (g : nat -> file) (v : fval + nat) : value := match v with inl f => fval_value f | inr n => VFile (g n) end.
Lemma values_lists g y : flat (values_with g y) = map (fun kv => (fst kv, to_value g (snd kv))) (flat (y_lists y)).
Proof.
  rewrite <- flat_values. f_equal. unfold y_lists. rewrite <- c_lists_map. unfold values_with. cbn [map]. f_equal. f_equal; [|f_equal].
  - rewrite map_map. apply map_ext. intros [k l]. unfold on_values. cbn [fst snd]. rewrite map_map. auto.
  - change (or_empty (y_files y)) with (files_of y). rewrite map_map. apply map_ext. intros [k l]. unfold on_values. cbn [fst snd]. rewrite map_map. auto.
Qed.
Section body.
  Variables (guess : str -> option str) (boundary : str).
  Notation wvalue := (write_value guess true (1024 * 500) boundary).
  Notation wvalues := (write_values guess true (1024 * 500) boundary).
  Definition left_in (os : list object) (n : nat) : file :=
    match nth_error os n with Some o => mk_file (o_name o) (o_ctype o) [rest_of o] | None => mk_file None None [] end.
  Lemma write_objects_spec l os st : NoDup (numbers (map snd l)) ->
    (forall n, In n (numbers (map snd l)) -> exists o, nth_error os n = Some o /\ o_open o = true) ->
    exists os', write_objects guess boundary l os st = (wvalues (map (fun kv => (fst kv, to_value (left_in os) (snd kv))) l) st, os') /\
      (forall st', wvalues (map (fun kv => (fst kv, to_value (left_in os) (snd kv))) l) st = Ok st' ->
         forall n, nth_error os' n = if in_dec Nat.eq_dec n (numbers (map snd l)) then option_map at_end (nth_error os n) else nth_error os n).
  Proof.
    revert os st. induction l as [|[k [v|n]] l IH]; intros os st D O.
    - exists os. cbn. split; auto.
    - cbn [map snd numbers flat_map app] in D, O. cbn [write_objects map fst snd to_value]. cbn [write_values].
      destruct (wvalue k (fval_value v) st) as [st1|e]; cbn [bind]; [|exists os; split; [auto|discriminate]].
      destruct (IH os st1 D O) as (os' & E & F). exists os'. split; auto.
    - cbn [map snd numbers flat_map app] in D, O. fold (numbers (map snd l)) in D, O. inv D.
      destruct (O n) as (o & En & Op); [left; auto|].
      cbn [write_objects map fst snd to_value]. cbn [write_values]. rewrite En.
      assert (Lo : left_in os n = mk_file (o_name o) (o_ctype o) [rest_of o]) by (unfold left_in; rewrite En; auto). rewrite Lo.
      destruct (wvalue k (VFile (mk_file (o_name o) (o_ctype o) [rest_of o])) st) as [st1|e]; cbn [bind]; [|exists os; split; [auto|discriminate]].
      rewrite Op.
      assert (O' : forall m, In m (numbers (map snd l)) -> nth_error (change os n at_end) m = nth_error os m).
      { intros m Hm. apply change_other. intros ->. auto. }
      destruct (IH (change os n at_end) st1) as (os' & E & F); auto.
      { intros m Hm. rewrite O' by auto. apply O. right; auto. }
      assert (Ev : map (fun kv : str * (fval + nat) => (fst kv, to_value (left_in (change os n at_end)) (snd kv))) l
                 = map (fun kv => (fst kv, to_value (left_in os) (snd kv))) l).
      { apply map_ext_in. intros [k' [v'|m]] Hi; [auto|]. cbn [fst snd to_value]. unfold left_in. rewrite O'; auto.
        apply in_flat_map. exists (inr m). split; [apply (in_map snd) in Hi; auto|left; auto]. }
      rewrite Ev in E, F. exists os'. split; auto. intros st' W m. rewrite (F st' W m). cbn [numbers flat_map].
      change (flat_map _ (map snd l)) with (numbers (map snd l)).
      destruct (in_dec Nat.eq_dec m (numbers (map snd l))) as [I|I]; destruct (in_dec Nat.eq_dec m ([n] ++ numbers (map snd l))) as [J|J].
      + rewrite O' by auto. auto.
      + destruct J. right; auto.
      + destruct J as [<-|J]; [|tauto]. rewrite (change_same _ _ _ _ En), En. auto.
      + apply change_other. intros ->. apply J. left; auto.
  Qed.
  Lemma lists_set y : y_input y = None -> let y2 := y_set_files (y_set_form y (Some (or_empty (y_form y)))) (Some (or_empty (y_files y))) in
    y_lists y2 = y_lists y /\ y_objects y2 = y_objects y /\ files_of y2 = files_of y /\ y_ctype y2 = y_ctype y /\ y_input y2 = None /\ or_empty (y_form y2) = or_empty (y_form y).
  Proof. intros E. unfold y_lists, files_of. cbn. destruct (y_files y), (y_form y); auto 8. Qed.
  Lemma sends_type y : sends_files y -> y_content_type y = Some (lit "multipart/form-data").
  Proof.
    intros [I [E|[E F]]]; unfold y_content_type; rewrite E; [auto|]. rewrite I. unfold files_of in F. destruct (y_files y) as [[|x l]|]; [congruence| |congruence]. auto.
  Qed.
  Lemma values_ext g g' y : (forall n, In n (all_files y) -> g n = g' n) -> values_with g y = values_with g' y.
  Proof.
    intros H. unfold values_with. f_equal. f_equal. f_equal. apply map_ext_in. intros [k l] Hi. cbn [fst snd]. f_equal. apply map_ext_in. intros n Hn. f_equal.
    apply H. apply in_flat_map. exists (k, l). auto.
  Qed.
  Lemma ask_files y : sends_files y -> readable y ->
    exists y1, ask guess boundary y = (do b <- stream_encode_multipart guess true (1024 * 500) boundary (values_with (left_of y) y); Ok (fst b, Z.of_N (snd b)), y1) /\
      (forall b, stream_encode_multipart guess true (1024 * 500) boundary (values_with (left_of y) y) = Ok b ->
         files_of y1 = files_of y /\ or_empty (y_form y1) = or_empty (y_form y) /\ sends_files y1 /\
         forall n, nth_error (y_objects y1) n = if in_dec Nat.eq_dec n (all_files y) then option_map at_end (nth_error (y_objects y) n) else nth_error (y_objects y) n).
  Proof.
    intros S [D O]. pose proof S as [I S2]. unfold ask. rewrite I, (sends_type y S), eqs_refl.
    destruct (lists_set y I) as (L1 & L2 & L3 & L4 & L5 & L6).
    set (y2 := y_set_files _ _) in *. rewrite L1, L2. change (flat_map _ (y_lists y)) with (flat (y_lists y)).
    destruct (write_objects_spec (flat (y_lists y)) (y_objects y) ms_empty) as (os' & E & F).
    - eapply Permutation_NoDup; [symmetry; apply numbers_lists|auto].
    - intros n Hn. apply O. eapply Permutation_in; [apply numbers_lists|auto].
    - rewrite <- (values_lists (left_in (y_objects y)) y) in E, F. rewrite E.
      exists (with_objects y2 os'). unfold stream_encode_multipart. change (flat_map _ (values_with (left_of y) y)) with (flat (values_with (left_of y) y)).
      change (left_in (y_objects y)) with (left_of y) in *. split.
      + f_equal. destruct (write_values _ _ _ _ _ ms_empty) as [st|e]; cbn [bind]; auto. destruct (write _ _ _ st) as [st2|e]; cbn [bind]; auto. cbn [fst snd].
        rewrite <- nat_N_Z. auto.
      + intros b Hb. destruct (write_values _ _ _ _ _ ms_empty) as [st|e] eqn:W; cbn [bind] in Hb; [|discriminate].
        specialize (F st eq_refl). split; [exact L3|]. split; [exact L6|]. split; [split; [exact L5|]|].
        * change (y_ctype (with_objects y2 os')) with (y_ctype y2). change (files_of (with_objects y2 os')) with (files_of y2). rewrite L3, L4. auto.
        * intros n. change (y_objects (with_objects y2 os')) with os'. rewrite F.
          destruct (in_dec Nat.eq_dec n (numbers _)) as [J|J]; destruct (in_dec Nat.eq_dec n (all_files y)) as [K|K]; auto.
          -- destruct K. eapply Permutation_in; [apply numbers_lists|auto].
          -- destruct J. eapply Permutation_in; [symmetry; apply numbers_lists|auto].
  Qed.
  Lemma encode_empty_chunk lists (g g' : nat -> file) y : (forall n, In n (all_files y) -> f_filename (g n) = f_filename (g' n) /\ f_ctype (g n) = f_ctype (g' n) /\ f_chunks (g n) = [[]] /\ f_chunks (g' n) = []) ->
    lists = values_with g y -> stream_encode_multipart guess true (1024 * 500) boundary lists = stream_encode_multipart guess true (1024 * 500) boundary (values_with g' y).
  Proof.
    intros H ->. unfold stream_encode_multipart. change (flat_map _ (values_with g y)) with (flat (values_with g y)). change (flat_map _ (values_with g' y)) with (flat (values_with g' y)).
    rewrite !values_lists.
    assert (X : forall l st, (forall n, In n (numbers (map snd l)) -> In n (all_files y)) ->
              wvalues (map (fun kv => (fst kv, to_value g (snd kv))) l) st = wvalues (map (fun kv => (fst kv, to_value g' (snd kv))) l) st).
    { induction l as [|[k [v|n]] l IH]; intros st Hl; [auto| |].
      - cbn [map fst snd to_value write_values]. destruct (wvalue k (fval_value v) st); cbn [bind]; auto.
      - cbn [map fst snd to_value write_values]. assert (Hn : In n (all_files y)) by (apply Hl; left; auto). destruct (H n Hn) as (H1 & H2 & H3 & H4).
        assert (Ev : wvalue k (VFile (g n)) st = wvalue k (VFile (g' n)) st).
        { unfold write_value. rewrite H1, H2, H3, H4. reflexivity. }
        rewrite Ev. destruct (wvalue k (VFile (g' n)) st); cbn [bind]; auto. apply IH. intros m Hm. apply Hl. right; auto. }
    rewrite X; auto. intros n Hn. eapply Permutation_in; [apply numbers_lists|auto].
  Qed.
  Lemma ask_files_again y body len y1 : sends_files y -> readable y -> ask guess boundary y = (Ok (body, len), y1) ->
    stream_encode_multipart guess true (1024 * 500) boundary (values_with (left_of y) y) = Ok (body, Z.to_N len) /\ len = Z.of_nat (length body) /\
    fst (ask guess boundary y1) = (do b <- stream_encode_multipart guess true (1024 * 500) boundary (values_with (nothing_of y) y); Ok (fst b, Z.of_N (snd b))).
  Proof.
    intros S R E. destruct (ask_files y S R) as (y1' & E1 & F). rewrite E1 in E.
    assert (y1' = y1) by congruence. subst y1'.
    destruct (stream_encode_multipart guess true (1024 * 500) boundary (values_with (left_of y) y)) as [[b n]|e] eqn:Es; cbn [bind fst snd] in E; [|discriminate].
    inv E. split; [rewrite N2Z.id; auto|]. split.
    { unfold stream_encode_multipart in Es. destruct (write_values _ _ _ _ _ ms_empty) as [st|e]; cbn [bind] in Es; [|discriminate]. destruct (write _ _ _ st) as [st2|e]; cbn [bind] in Es; inv Es. apply nat_N_Z. }
    destruct (F _ eq_refl) as (F1 & F2 & S1 & F3).
    assert (A : all_files y1 = all_files y) by (unfold all_files; rewrite F1; auto).
    destruct R as [D O].
    assert (R1 : readable y1).
    { split; rewrite A; auto. intros m Hm. rewrite F3. destruct (in_dec Nat.eq_dec m (all_files y)); [|tauto]. destruct (O m Hm) as (o & -> & Ho). eexists. split; [reflexivity|auto]. }
    destruct (ask_files y1 S1 R1) as (y2 & E2 & _). rewrite E2. cbn [fst].
    assert (V : values_with (left_of y1) y1 = values_with (left_of y1) y) by (unfold values_with; rewrite F1, F2; auto).
    rewrite (encode_empty_chunk _ (left_of y1) (nothing_of y) y); auto.
    intros m Hm. unfold left_of, nothing_of. rewrite F3. destruct (in_dec Nat.eq_dec m (all_files y)); [|tauto]. destruct (O m Hm) as (o & -> & Ho). cbn [option_map at_end moved o_name o_ctype o_data o_pos f_filename f_ctype f_chunks].
    repeat split; auto. f_equal. apply skipn_all2. lia.
  Qed.
  Lemma ask_again y r y1 : sends_no_files y -> ask guess boundary y = (r, y1) -> ask guess boundary y1 = (r, y1).
  Proof.
    intros S E. unfold ask in E. destruct (y_input y) as [i|] eqn:I.
    - assert (y1 = y) by (destruct (nth_error (y_objects y) i) as [o|]; [destruct (o_open o)|]; inv E; auto). subst y1.
      unfold ask. rewrite I. exact E.
    - destruct (y_content_type y) as [t|] eqn:T.
      2:{ inv E. unfold ask. rewrite I, T. auto. }
      destruct (eqs t (lit "multipart/form-data")) eqn:M.
      + assert (Fn : files_of y = []).
        { destruct S as [S|[S|(t' & S1 & S2)]]; [congruence|auto|]. unfold y_content_type in T. rewrite S1 in T. inv T. apply eqs_eq in M. congruence. }
        destruct (lists_set y I) as (L1 & L2 & L3 & L4 & L5 & L6). set (y2 := y_set_files _ _) in *. rewrite L1, L2 in E.
        destruct (write_objects_spec (flat (y_lists y)) (y_objects y) ms_empty) as (os' & E1 & _).
        { eapply Permutation_NoDup; [symmetry; apply numbers_lists|unfold all_files; rewrite Fn; constructor]. }
        { intros n Hn. exfalso. eapply Permutation_in in Hn; [|apply numbers_lists]. unfold all_files in Hn. rewrite Fn in Hn. destruct Hn. }
        change (flat_map _ (y_lists y)) with (flat (y_lists y)) in E.
        assert (Os : os' = y_objects y).
        { assert (G : forall l os st r os', numbers (map snd l) = [] -> write_objects guess boundary l os st = (r, os') -> os' = os).
          { clear. induction l as [|[k [v|n]] l IH]; cbn [write_objects map snd numbers flat_map app]; intros os st r os' N W; [congruence| |discriminate].
            destruct (wvalue k (fval_value v) st); [|congruence]. eapply IH; eauto. }
          eapply G; [|exact E1]. pose proof (numbers_lists y) as P. unfold all_files in P. rewrite Fn in P. apply Permutation_sym, Permutation_nil in P. exact P. }
        rewrite E1 in E. inv E.
        assert (Ty : y_content_type y2 = Some t).
        { unfold y_content_type in *. rewrite L4, L5. rewrite I in T. destruct (y_ctype y); [auto|]. unfold y2. cbn. change (or_empty (y_files y)) with (files_of y). rewrite Fn.
          unfold files_of in Fn. destruct (y_files y) as [[|x l]|]; [|discriminate|]; destruct (y_form y) as [[|z f]|]; cbn; auto; discriminate. }
        assert (Y : with_objects y2 (y_objects y) = y2) by (destruct y; reflexivity). rewrite Y.
        unfold ask. rewrite L5, Ty, M.
        assert (Z2 : y_set_files (y_set_form y2 (Some (or_empty (y_form y2)))) (Some (or_empty (y_files y2))) = y2) by (destruct y; reflexivity).
        rewrite Z2, L1, L2. change (flat_map _ (y_lists y)) with (flat (y_lists y)). rewrite E1, Y. reflexivity.
      + destruct (eqs t (lit "application/x-www-form-urlencoded")) eqn:U.
        * inv E. unfold ask. cbn [y_set_form y_input].
          assert (Ty : y_content_type (y_set_form y (Some (or_empty (y_form y)))) = Some t).
          { unfold y_content_type in *. cbn [y_set_form y_ctype y_input y_files y_form]. rewrite I in T. destruct (y_ctype y); [auto|]. destruct (y_files y) as [[|x l]|]; auto; destruct (y_form y) as [[|z f]|]; auto; discriminate. }
          rewrite Ty, M, U. reflexivity.
        * inv E. unfold ask. rewrite I, T, M, U. auto.
  Qed.
End body.

(** ** base_url *)
Section base.
  Variables (ip_ok nfkc_ok : str -> bool).
  Lemma no_final_app a b : b <> [] -> no_final_slash b -> no_final_slash (a ++ b).
  Proof. intros N H r E. destruct (exists_last N) as (l & x & ->). rewrite app_assoc in E. apply app_inj_tail in E as [_ ->]. apply (H l). auto. Qed.
  Lemma set_base_spec y scheme name host p n : scheme = lit "http" \/ scheme = lit "https" -> plain_host name host ->
    p ++ repeat 47 n = [] \/ (exists r, p ++ repeat 47 n = 47 :: r) -> no_final_slash p -> ~ In 63 p -> ~ In 35 p -> one_line p ->
    set_base_url ip_ok nfkc_ok y (Some (scheme ++ lit "://" ++ host ++ p ++ repeat 47 n)) = (Ok tt, with_base y scheme host p).
  Proof.
    intros Hs Hh Hp Nf N1 N2 L. unfold set_base_url, split_base_url. destruct Hp as [Hp|[r Hp]].
    - rewrite Hp, app_nil_r. rewrite (ProofBuilder.split_bare (fun _ => None) (fun s => Ok s) ip_ok nfkc_ok scheme name) by auto. cbn.
      apply app_eq_nil in Hp as [-> _]. auto.
    - rewrite Hp. pose proof (ProofCurrent.split_address (fun s => Ok s) ip_ok nfkc_ok scheme name host r [] Hs Hh) as E. unfold ProofCurrent.address in E. rewrite app_nil_r in E.
      assert (I : forall c, In c r -> In c p \/ c = 47).
      { intros c Hc. assert (Hi : In c (p ++ repeat 47 n)) by (rewrite Hp; right; auto). apply in_app_iff in Hi as [Hi|Hi]; auto. apply repeat_spec in Hi. auto. }
      rewrite E.
      + cbn [bind u_query u_fragment u_scheme u_netloc u_path]. rewrite <- Hp, rstrip_slashes; auto.
      + intros c Hc. apply I in Hc as [Hc| ->]; [|lia]. split; intros ->; auto.
      + intros [].
      + destruct L as (L1 & L2 & L3). repeat split; intros Hc; apply I in Hc as [Hc|Hc]; auto; lia.
      + repeat split; intros [].
  Qed.
  Lemma get_base_spec y name : y_scheme y = lit "http" \/ y_scheme y = lit "https" -> plain_host name (y_host y) ->
    y_root y = [] \/ (exists r, y_root y = 47 :: r) -> no_final_slash (y_root y) ->
    get_base_url y = y_scheme y ++ lit "://" ++ y_host y ++ y_root y ++ [47].
  Proof.
    intros Hs Hh Hp Nf. unfold get_base_url.
    assert (Hn : y_host y <> []) by (destruct Hh; [auto|destruct name; discriminate]).
    assert (E : urlunsplit (Split (y_scheme y) (y_host y) (y_root y) [] []) = y_scheme y ++ lit "://" ++ y_host y ++ y_root y).
    { unfold urlunsplit. cbn [u_scheme u_netloc u_path u_query u_fragment]. destruct (y_host y) as [|h hs]; [congruence|]. cbn [is_nil negb orb prefix_if].
      assert (X : (if negb (is_nil (y_root y)) && negb (starts [47] (y_root y)) then 47 :: y_root y else y_root y) = y_root y).
      { destruct Hp as [->|[r ->]]; auto. }
      rewrite X. replace (is_nil (y_scheme y)) with false by (destruct Hs as [->| ->]; auto). unfold prefix_if. cbn [is_nil]. rewrite !app_nil_r. change (lit "://") with [58; 47; 47]. cbn [app]. auto. }
    rewrite E. rewrite rstrip_by_id.
    - rewrite <- !app_assoc. auto.
    - intros c r Ec. rewrite !app_assoc in Ec. destruct (N.eqb_spec 47 c) as [<-|]; auto. exfalso.
      destruct (y_root y) as [|x q] eqn:Er.
      + rewrite app_nil_r, <- app_assoc in Ec. assert (Nh : no_final_slash (y_host y)).
        { intros s Es. assert (Hi : In 47 (y_host y)) by (rewrite Es; apply in_app_iff; right; left; auto).
          revert Hi. inv Hh.
          - intros Hi. destruct (H0 _ Hi) as [X|[X|[X|X]]]; lia.
          - rewrite !in_app_iff. intros [Hi|[Hi|Hi]]; [destruct (H1 _ Hi) as [X|[X|[X|X]]]; lia|cbn in Hi; lia|]. pose proof (dec_digits p) as Dd. rewrite forallb_forall in Dd. apply Dd in Hi. discriminate. }
        apply (no_final_app (y_scheme y ++ lit "://") (y_host y) Hn Nh r). rewrite <- app_assoc. auto.
      + assert (Hq : x :: q <> []) by discriminate. exact (no_final_app _ _ Hq Nf r Ec).
  Qed.
  Lemma base_refused y scheme name host p q : scheme = lit "http" \/ scheme = lit "https" -> plain_host name host ->
    ~ In 63 p -> ~ In 35 p -> ~ In 35 q -> one_line p -> one_line q -> q <> [] ->
    set_base_url ip_ok nfkc_ok y (Some (scheme ++ lit "://" ++ host ++ [47] ++ p ++ [63] ++ q)) = (Raise ValueError, y).
  Proof.
    intros Hs Hh N1 N2 N3 L1 L2 Hq. unfold set_base_url, split_base_url.
    pose proof (ProofCurrent.split_address (fun s => Ok s) ip_ok nfkc_ok scheme name host p q Hs Hh) as E. unfold ProofCurrent.address in E.
    replace (scheme ++ lit "://" ++ host ++ [47] ++ p ++ [63] ++ q) with (scheme ++ lit "://" ++ host ++ (47 :: p) ++ match q with [] => [] | _ :: _ => 63 :: q end).
    2:{ destruct q; [congruence|auto]. }
    rewrite E; auto.
    - cbn [bind u_query]. destruct q; [congruence|auto].
    - intros c Hc. split; intros ->; auto.
  Qed.
End base.
