(** * Proofs: arguments of converters *)
From Coq Require Import Arith List NArith ZArith Bool Lia ZifyBool ZifyN ZifyNat.
From Verif Require Import PyStr PyStrFacts Regex RegexFacts ModelRoute ModelConvArgs SpecRoute SpecConvArgs ProofRoute ProofStream.
Import ListNotations.
Open Scope N_scope.
Ltac inv H := inversion H; subst; clear H.

(** ** Lists *)
Definition head_not (p : N -> bool) (s : str) : Prop := forall c r, s = c :: r -> p c = false.
Lemma head_not_cons p c s : p c = false -> head_not p (c :: s).
Proof. intros H d r E. inv E. auto. Qed.
Lemma span_unique p u1 : forall u2 x y, forallb p u1 = true -> forallb p u2 = true ->
  head_not p x -> head_not p y -> u1 ++ x = u2 ++ y -> u1 = u2 /\ x = y.
Proof.
  induction u1 as [|c u1 IH]; intros [|d u2] x y H1 H2 Hx Hy E; cbn [app forallb] in *.
  - auto.
  - subst x. rewrite (Hx _ _ eq_refl) in H2. discriminate.
  - subst y. rewrite (Hy _ _ eq_refl) in H1. discriminate.
  - apply andb_prop in H1 as (_ & H1), H2 as (_ & H2). inv E.
    destruct (IH _ _ _ H1 H2 Hx Hy H3) as (-> & ->). auto.
Qed.
Lemma sp_head p sp c r : forallb is_space sp = true -> (forall d, is_space d = true -> p d = false) -> p c = false ->
  head_not p (sp ++ c :: r).
Proof.
  intros H Hp Hc. destruct sp as [|d sp]; cbn [app]; apply head_not_cons; auto.
  cbn [forallb] in H. apply andb_prop in H as (H & _). auto.
Qed.
Lemma sp_nil sp x y c r : forallb is_space sp = true -> is_space c = false -> sp ++ x :: y = c :: r ->
  sp = [] /\ x = c /\ y = r.
Proof.
  intros H Hc E. destruct sp as [|d sp]; cbn [app] in E; inv E; auto.
  cbn [forallb] in H. apply andb_prop in H as (H & _). congruence.
Qed.

(** ** What expressions consume *)
Lemma seq_inv a b s s' : matches (RSeq a b) s s' -> exists s1, matches a s s1 /\ matches b s1 s'.
Proof. intros M. inversion M; subst. eauto. Qed.
Lemma alt_inv a b s s' : matches (RAlt a b) s s' -> matches a s s' \/ matches b s s'.
Proof. intros M. inversion M; subst; auto. Qed.
Lemma eps_inv s s' : matches REps s s' -> s' = s.
Proof. intros M. inversion M; subst. auto. Qed.
Lemma set_inv p s s' : matches (RSet p) s s' -> exists c, p c = true /\ s_rest s = c :: s_rest s' /\ s_caps s' = s_caps s.
Proof. intros M. inversion M as [|p' s0 c rest E Hp| | | | | | | | |]; subst. exists c. rewrite E. auto. Qed.
Lemma star_form g p : forall s s', matches (RStar g (RSet p)) s s' ->
  exists u, forallb p u = true /\ s_rest s = u ++ s_rest s' /\ s_caps s' = s_caps s.
Proof.
  intros s s' M. remember (RStar g (RSet p)) as r eqn:E. induction M; inv E.
  - exists []. auto.
  - apply set_inv in M1 as (c & Hc & E1 & C1). destruct (IHM2 eq_refl) as (u & Hu & Er & Ec).
    exists (c :: u). cbn [forallb]. rewrite Hc, Hu, E1, Er. split; auto. split; [auto|congruence].
Qed.
Lemma plus_form g p s s' : matches (RPlus g (RSet p)) s s' ->
  exists u, u <> [] /\ forallb p u = true /\ s_rest s = u ++ s_rest s' /\ s_caps s' = s_caps s.
Proof.
  intros M. apply seq_inv in M as (s1 & M1 & M2). apply set_inv in M1 as (c & Hc & E1 & C1).
  apply star_form in M2 as (u & Hu & Er & Ec).
  exists (c :: u). cbn [forallb]. rewrite Hc, Hu, E1, Er. repeat split; auto; congruence.
Qed.
Lemma chr_form c s s' : matches (RChr c) s s' -> s_rest s = c :: s_rest s' /\ s_caps s' = s_caps s.
Proof.
  intros M. apply set_inv in M as (d & Hd & E & C). apply N.eqb_eq in Hd. subst. auto.
Qed.
Lemma str_form w : forall s s', matches (RStr w) s s' -> s_rest s = w ++ s_rest s' /\ s_caps s' = s_caps s.
Proof.
  induction w as [|c w IH]; intros s s' M; cbn [RStr] in M.
  - apply eps_inv in M. subst. auto.
  - apply seq_inv in M as (s1 & M1 & M2). apply chr_form in M1 as (E1 & C1). apply IH in M2 as (E2 & C2). rewrite E1, E2. split; [auto|congruence].
Qed.
Lemma group_form g a s s' : matches (RGroup g a) s s' -> exists s1, matches a s s1 /\
  s_rest s' = s_rest s1 /\ s_caps s' = (g, consumed s s1) :: s_caps s1.
Proof. intros M. inversion M; subst. eauto. Qed.

Lemma star_run g p u : forall prev rest caps, forallb p u = true ->
  exists prev', matches (RStar g (RSet p)) (St prev (u ++ rest) caps) (St prev' rest caps).
Proof.
  induction u as [|c u IH]; intros prev rest caps H.
  - exists prev. constructor.
  - cbn [forallb] in H. apply andb_prop in H as (Hc & H). destruct (IH (Some c) rest caps H) as (prev' & M).
    exists prev'. eapply MStarS; [apply MSet with (rest := u ++ rest); [reflexivity|exact Hc]| |exact M].
    cbn. lia.
Qed.
Lemma chr_run c prev rest caps : matches (RChr c) (St prev (c :: rest) caps) (St (Some c) rest caps).
Proof. apply (MSet (N.eqb c) (St prev (c :: rest) caps) c rest); [reflexivity|apply N.eqb_refl]. Qed.
Lemma plus_run g p u prev rest caps : u <> [] -> forallb p u = true ->
  exists prev', matches (RPlus g (RSet p)) (St prev (u ++ rest) caps) (St prev' rest caps).
Proof.
  destruct u as [|c u]; [congruence|]. intros _ H. cbn [forallb] in H. apply andb_prop in H as (Hc & H).
  destruct (star_run g p u (Some c) rest caps H) as (prev' & M). exists prev'.
  eapply MSeq; [|exact M]. apply (MSet p (St prev ((c :: u) ++ rest) caps) c (u ++ rest)); [reflexivity|auto].
Qed.

Lemma decimal_space c : is_decimal c = true -> is_space c = false.
Proof.
  intros H. apply is_decimal_spec in H as (v & z & Hz & -> & Hv).
  assert (T : forallb (fun z => forallb (fun i => negb (is_space (z + i))) [0;1;2;3;4;5;6;7;8;9]) decimal_zeros = true) by (vm_compute; reflexivity).
  rewrite forallb_forall in T. specialize (T z Hz). rewrite forallb_forall in T.
  specialize (T v). apply negb_true_iff, T. cbn [In]. lia.
Qed.

Lemma py_int_no c s : is_ascii_digit c = false -> (c =? 95) || (c =? 43) || (c =? 45) || is_space c = false -> In c s -> py_int s = None.
Proof.
  intros Hd Ho Hc. destruct (py_int s) as [z|] eqn:E; auto. exfalso.
  destruct (py_int_chars _ _ _ E Hc) as [H|[->|[->|[->|H]]]]; try discriminate; try congruence.
  rewrite H, !orb_true_r in Ho. discriminate.
Qed.

Section args.
  Variables (word : N -> bool) (is_float : str -> bool).
  Hypothesis word_space : forall c, 128 <= c -> word c = true -> is_space c = false.

  Lemma wordc_spec c : word_char word c -> wordc word c = true.
  Proof.
    unfold word_char, wordc, is_ascii_alnum, is_ascii_alpha, is_ascii_upper, is_ascii_lower, is_ascii_digit, between. intros H.
    destruct (N.ltb_spec c 128) as [L|L]; [lia|]. destruct H as [H|[H|[H|[H|(_ & H)]]]]; try lia.
  Qed.
  Lemma wordc_space c : wordc word c = true -> is_space c = false.
  Proof.
    unfold wordc. destruct (N.ltb_spec c 128) as [L|L]; intros H.
    - unfold is_ascii_alnum, is_ascii_alpha, is_ascii_upper, is_ascii_lower, is_ascii_digit, between in H. unfold is_space, between. lia.
    - apply orb_prop in H as [H|H]; auto using decimal_space.
  Qed.
  Lemma space_wordc c : is_space c = true -> wordc word c = false.
  Proof. intros H. destruct (wordc word c) eqn:E; auto. apply wordc_space in E. congruence. Qed.
  Lemma decimal_wordc c : is_decimal c = true -> wordc word c = true.
  Proof.
    intros H. unfold wordc. destruct (N.ltb_spec c 128) as [L|L]; [|rewrite H; auto].
    apply is_decimal_spec in H as (v & z & Hz & -> & Hv).
    assert (T : forallb (fun z => (z =? 48) || (128 <=? z)) decimal_zeros = true) by (vm_compute; reflexivity).
    rewrite forallb_forall in T. specialize (T z Hz).
    unfold is_ascii_alnum, is_ascii_alpha, is_ascii_upper, is_ascii_lower, is_ascii_digit, between. lia.
  Qed.
  Lemma decimals_word u : forallb is_decimal u = true -> forallb (wordc word) u = true.
  Proof. rewrite !forallb_forall. intros H x Hx. apply decimal_wordc, H, Hx. Qed.
  Lemma space_decimal c : is_space c = true -> is_decimal c = false.
  Proof. intros H. destruct (is_decimal c) eqn:E; auto. apply decimal_space in E. congruence. Qed.

  (** ** The forms of a value *)
  Inductive vform : str -> option str -> Prop :=
  | FWord v : v <> [] -> forallb (wordc word) v = true -> vform v None
  | FDig a x b : a <> [] -> forallb is_decimal a = true -> forallb is_decimal b = true -> vform (a ++ x :: b) None
  | FStr pre q s : pre = [] \/ (exists c, pre = [c] /\ wordc word c = true) ->
      q = 34 \/ q = 39 -> ~ In q s -> vform (pre ++ q :: s ++ [q]) (Some (q :: s ++ [q])).

  Lemma notin_forallb q s : forallb (fun c => negb (c =? q)) s = true <-> ~ In q s.
  Proof.
    rewrite forallb_forall. split.
    - intros H Hi. apply H in Hi. lia.
    - intros H x Hx. destruct (N.eqb_spec x q); auto. subst. tauto.
  Qed.
  Lemma dot_form s s' : matches RDot s s' -> exists x, s_rest s = x :: s_rest s' /\ s_caps s' = s_caps s.
  Proof. intros M. apply set_inv in M as (c & _ & E & C). eauto. Qed.
  Lemma quoted_form q g s s' :
    matches (RSeq (RChr q) (RSeq (RStar g (RSet (fun c => negb (c =? q)))) (RChr q))) s s' ->
    exists t, ~ In q t /\ s_rest s = (q :: t ++ [q]) ++ s_rest s' /\ s_caps s' = s_caps s.
  Proof.
    intros M. apply seq_inv in M as (s1 & M1 & M). apply seq_inv in M as (s2 & M2 & M3).
    apply chr_form in M1 as (E1 & C1). apply star_form in M2 as (u & Hu & E2 & C2).
    apply chr_form in M3 as (E3 & C3). exists u. rewrite <- notin_forallb. split; auto. split; [|congruence].
    rewrite E1, E2, E3. cbn [app]. rewrite <- app_assoc. auto.
  Qed.
  Lemma stringval_form s s' : matches stringval_re s s' ->
    exists q t, (q = 34 \/ q = 39) /\ ~ In q t /\ s_rest s = (q :: t ++ [q]) ++ s_rest s' /\
      s_caps s' = (4%nat, q :: t ++ [q]) :: s_caps s.
  Proof.
    intros M. apply group_form in M as (s1 & M & Er & Ec). apply alt_inv in M as [M|M]; apply quoted_form in M as (t & Ht & E & C).
    - exists 34, t. rewrite Er, Ec, (consumed_app _ _ _ E), C. auto.
    - exists 39, t. rewrite Er, Ec, (consumed_app _ _ _ E), C. auto.
  Qed.
  Lemma value_form s s' : matches (value_re word) s s' -> exists v o, vform v o /\ s_rest s = v ++ s_rest s' /\
    s_caps s' = (3%nat, v) :: match o with Some t => (4%nat, t) :: s_caps s | None => s_caps s end.
  Proof.
    intros M. apply group_form in M as (s1 & M & Er & Ec). rewrite Er, Ec. clear Er Ec s'.
    assert (K : exists v o, vform v o /\ s_rest s = v ++ s_rest s1 /\
      s_caps s1 = match o with Some t => (4%nat, t) :: s_caps s | None => s_caps s end).
    2:{ destruct K as (v & o & F & E & C). exists v, o. rewrite (consumed_app _ _ _ E), C. auto. }
    apply alt_inv in M as [M|M]. { apply str_form in M as (E & C). exists (lit "True"), None. split; [|auto]. constructor; [discriminate|reflexivity]. }
    apply alt_inv in M as [M|M]. { apply str_form in M as (E & C). exists (lit "False"), None. split; [|auto]. constructor; [discriminate|reflexivity]. }
    apply alt_inv in M as [M|M]. { apply seq_inv in M as (t1 & M1 & M). apply seq_inv in M as (t2 & M2 & M3).
      apply plus_form in M1 as (a & Na & Ha & E1 & C1). apply dot_form in M2 as (x & E2 & C2).
      apply plus_form in M3 as (b & Nb & Hb & E3 & C3). exists (a ++ x :: b), None. split; [apply FDig; auto|]. split; [|congruence].
      rewrite E1, E2, E3, <- app_assoc. auto. }
    apply alt_inv in M as [M|M]. { apply seq_inv in M as (t1 & M1 & M2). apply plus_form in M1 as (a & Na & Ha & E1 & C1). apply dot_form in M2 as (x & E2 & C2).
      exists (a ++ [x]), None. split; [apply FDig; auto|]. split; [|congruence]. rewrite E1, E2, <- app_assoc. auto. }
    apply alt_inv in M as [M|M]. { apply plus_form in M as (a & Na & Ha & E1 & C1). exists a, None. split; auto. constructor; auto using decimals_word. }
    apply alt_inv in M as [M|M]. { apply plus_form in M as (a & Na & Ha & E1 & C1). exists a, None. split; auto. constructor; auto. }
    apply seq_inv in M as (s2 & M1 & M2). apply stringval_form in M2 as (q & t & Hq & Ht & E & C).
    assert (P : exists pre, (pre = [] \/ exists c, pre = [c] /\ wordc word c = true) /\ s_rest s = pre ++ s_rest s2 /\ s_caps s2 = s_caps s).
    { apply alt_inv in M1 as [M1|M1].
      - apply set_inv in M1 as (c & Hc & E1 & C1). exists [c]. split; [|auto]. right. exists c. split; auto.
        apply mem_In in Hc. cbn in Hc. repeat (destruct Hc as [Hc|Hc]; [subst; reflexivity|]). destruct Hc.
      - apply eps_inv in M1. subst. exists []. auto. }
    destruct P as (pre & P & E0 & C0). exists (pre ++ q :: t ++ [q]), (Some (q :: t ++ [q])).
    split; [apply FStr; auto|]. split; [|congruence]. rewrite E0, E, <- app_assoc. auto.
  Qed.

  Definition name_caps (n : option str) : list (nat * str) := match n with Some n => [(2%nat, n)] | None => [] end.
  Lemma args_form prev s s' : matches (args_re word) (St prev s []) s' -> exists n v o sp,
    vform v o /\ forallb is_space sp = true /\
    s_caps s' = (3%nat, v) :: match o with Some t => [(4%nat, t)] | None => [] end ++ name_caps n /\
    match n with
    | None => s = v ++ sp ++ 44 :: s_rest s'
    | Some n => n <> [] /\ forallb (wordc word) n = true /\ exists sp1 sp2, forallb is_space sp1 = true /\ forallb is_space sp2 = true /\
        s = n ++ sp1 ++ 61 :: sp2 ++ v ++ sp ++ 44 :: s_rest s'
    end.
  Proof.
    intros M. apply seq_inv in M as (t1 & M1 & M). apply seq_inv in M as (t2 & M2 & M). apply seq_inv in M as (t3 & M3 & M4).
    apply value_form in M2 as (v & o & F & E1 & C1).
    apply star_form in M3 as (sp & Hsp & E2 & C2). apply chr_form in M4 as (E3 & C3).
    apply alt_inv in M1 as [M|M].
    - apply seq_inv in M as (g1 & Mg & M). apply seq_inv in M as (g2 & M5 & M). apply seq_inv in M as (g3 & M6 & M7).
      apply group_form in Mg as (sg & Mg & Er & Ec).
      apply plus_form in Mg as (n & Nn & Hn & En & Cn).
      rewrite (consumed_app (St prev s []) sg n En) in Ec. rewrite Cn in Ec. cbn [s_caps s_rest] in *.
      apply star_form in M5 as (sp1 & Hsp1 & E4 & C4). apply chr_form in M6 as (E5 & C5).
      apply star_form in M7 as (sp2 & Hsp2 & E6 & C6).
      exists (Some n), v, o, sp. split; auto. split; auto. split.
      + rewrite C3, C2, C1, C6, C5, C4, Ec. destruct o; auto.
      + split; auto. split; auto. exists sp1, sp2. split; auto. split; auto.
        rewrite En, <- Er, E4, E5, E6, E1, E2, E3. auto.
    - apply eps_inv in M. subst t1. exists None, v, o, sp. split; auto. split; auto. split.
      + rewrite C3, C2, C1. cbn [s_caps]. destruct o; auto.
      + cbn [s_rest] in E1. rewrite E1, E2, E3. auto.
  Qed.

  (** ** The one way to read an argument *)
  Definition calm (rest : str) : Prop :=
    rest = [] \/ exists c r, rest = 32 :: c :: r /\ is_space c = false /\ c <> 44.
  (* the texts of values *)
  Inductive vtext : str -> option str -> Prop :=
  | TWord w : w <> [] -> forallb (wordc word) w = true -> vtext w None
  | TReal a b : a <> [] -> b <> [] -> forallb is_decimal a = true -> forallb is_decimal b = true -> vtext (a ++ 46 :: b) None
  | TQuoted q s : q = 34 \/ q = 39 -> ~ In q s -> vtext (q :: s ++ [q]) (Some (q :: s ++ [q])).

  Lemma w44 : wordc word 44 = false. Proof. reflexivity. Qed.
  Lemma w46 : wordc word 46 = false. Proof. reflexivity. Qed.
  Lemma w61 : wordc word 61 = false. Proof. reflexivity. Qed.
  Lemma wq q : q = 34 \/ q = 39 -> wordc word q = false. Proof. intros [->| ->]; reflexivity. Qed.
  Lemma sp44 sp r : forallb is_space sp = true -> head_not (wordc word) (sp ++ 44 :: r).
  Proof. intros H. apply sp_head; auto using space_wordc. Qed.
  Lemma quote_unique q (s t x y : str) : ~ In q s -> ~ In q t -> s ++ q :: x = t ++ q :: y -> s = t /\ x = y.
  Proof.
    rewrite <- !notin_forallb. intros Hs Ht E.
    assert (N : forall z, head_not (fun c => negb (c =? q)) (q :: z)) by (intros z; apply head_not_cons; rewrite N.eqb_refl; auto).
    destruct (span_unique _ _ _ _ _ Hs Ht (N x) (N y) E) as (-> & E').
    inv E'. auto.
  Qed.

  Lemma value_unique v o vt o' sp r rest : vform v o -> vtext vt o' -> forallb is_space sp = true -> calm rest ->
    v ++ sp ++ 44 :: r = vt ++ 44 :: rest -> v = vt /\ o = o' /\ sp = [] /\ r = rest.
  Proof.
    intros F T Hsp Hc E.
    assert (SP : sp ++ 44 :: r = 44 :: rest -> sp = [] /\ r = rest).
    { intros E1. destruct (sp_nil sp 44 r 44 rest Hsp eq_refl E1) as (? & _ & ?). auto. }
    (* a value of word characters *)
    assert (W : forall v', v' <> [] -> forallb (wordc word) v' = true -> v' ++ sp ++ 44 :: r = vt ++ 44 :: rest ->
                v' = vt /\ None = o' /\ sp = [] /\ r = rest).
    { intros v' Nv Hv E'. destruct T as [w Nw Hw|a b Na Nb Ha Hb|q s Hq Hs].
      - destruct (span_unique _ _ _ _ _ Hv Hw (sp44 sp r Hsp) (head_not_cons _ 44 rest w44) E') as (-> & E1).
        destruct (SP E1) as (-> & ->). auto.
      - rewrite <- app_assoc in E'.
        destruct (span_unique _ _ _ _ _ Hv (decimals_word _ Ha) (sp44 sp r Hsp) (head_not_cons _ 46 (b ++ 44 :: rest) w46) E') as (-> & E1).
        destruct (sp_nil sp 44 r 46 _ Hsp eq_refl E1) as (_ & C & _). discriminate.
      - destruct v' as [|d v']; [congruence|]. cbn [app forallb] in *. inv E'. apply andb_prop in Hv as (Hv & _).
        rewrite (wq _ Hq) in Hv. discriminate. }
    destruct F as [v Nv Hv|a x b Na Ha Hb|pre q s Hpre Hq Hs].
    - apply W; auto.
    - destruct (wordc word x) eqn:Ex.
      { apply W; auto. { destruct a; discriminate. }
        rewrite forallb_app. cbn [forallb]. rewrite Ex, (decimals_word _ Ha), (decimals_word _ Hb). auto. }
      rewrite <- app_assoc in E. cbn [app] in E.
      destruct T as [w Nw Hw|a' b' Na' Nb' Ha' Hb'|q s Hq Hs].
      + destruct (span_unique _ _ _ _ _ (decimals_word _ Ha) Hw (head_not_cons _ x _ Ex) (head_not_cons _ 44 rest w44) E) as (<- & E1).
        exfalso. injection E1 as _ E2. destruct Hc as [Hc|(c & r' & Hr & Hsc & Nc)].
        * rewrite Hc in E2. destruct b; [destruct sp; discriminate|discriminate].
        * rewrite Hr in E2. destruct b as [|d b]; cbn [app forallb] in *.
          -- destruct sp as [|d sp]; cbn [app forallb] in *; [discriminate|]. injection E2 as _ E3. apply andb_prop in Hsp as (_ & Hsp).
             destruct (sp_nil sp 44 r c r' Hsp Hsc E3) as (_ & C & _). congruence.
          -- injection E2 as -> _. discriminate.
      + rewrite <- app_assoc in E. cbn [app] in E.
        destruct (span_unique _ _ _ _ _ (decimals_word _ Ha) (decimals_word _ Ha') (head_not_cons _ x _ Ex) (head_not_cons _ 46 _ w46) E) as (-> & E1).
        injection E1 as -> E1. destruct (span_unique _ _ _ _ _ (decimals_word _ Hb) (decimals_word _ Hb') (sp44 sp r Hsp) (head_not_cons _ 44 rest w44) E1) as (-> & E2).
        destruct (SP E2) as (-> & ->). auto.
      + destruct a as [|d a]; [congruence|]. cbn [app forallb] in *. inv E. apply andb_prop in Ha as (Ha & _).
        apply decimal_wordc in Ha. rewrite (wq _ Hq) in Ha. discriminate.
    - destruct T as [w Nw Hw|a' b' Na' Nb' Ha' Hb'|q' s' Hq' Hs'].
      + exfalso. destruct Hpre as [->|(c & -> & Hcw)]; cbn [app] in E.
        * destruct w as [|d w]; [congruence|]. cbn [app forallb] in *. inv E. rewrite (wq _ Hq) in Hw. discriminate.
        * destruct w as [|d w]; [congruence|]. cbn [app forallb] in *. inv E. apply andb_prop in Hw as (_ & Hw).
          destruct w as [|e w]; cbn [app forallb] in *; inv H1; [destruct Hq; discriminate|]. rewrite (wq _ Hq) in Hw. discriminate.
      + exfalso. destruct a' as [|d a']; [congruence|]. cbn [app forallb] in *. apply andb_prop in Ha' as (Hd & Ha').
        destruct Hpre as [->|(c & -> & Hcw)]; cbn [app] in E; inv E.
        * apply decimal_wordc in Hd. rewrite (wq _ Hq) in Hd. discriminate.
        * destruct a' as [|e a']; cbn [app forallb] in *; inv H1; [destruct Hq; discriminate|].
          apply andb_prop in Ha' as (He & _). apply decimal_wordc in He. rewrite (wq _ Hq) in He. discriminate.
      + destruct Hpre as [->|(c & -> & Hcw)]; cbn [app] in E; inv E.
        * rewrite <- !app_assoc in H1. cbn [app] in H1. destruct (quote_unique _ _ _ _ _ Hs Hs' H1) as (-> & E1).
          destruct (SP E1) as (-> & ->). auto.
        * rewrite (wq _ Hq') in Hcw. discriminate.
  Qed.

  Lemma vtext_head vt o : vtext vt o -> exists c r, vt = c :: r /\ is_space c = false /\ c <> 44.
  Proof.
    intros [w Nw Hw|a b Na Nb Ha Hb|q s Hq Hs].
    - destruct w as [|c w]; [congruence|]. exists c, w. cbn [forallb] in Hw. apply andb_prop in Hw as (Hw & _).
      split; auto. split; [apply wordc_space; auto|]. intros ->. discriminate.
    - destruct a as [|c a]; [congruence|]. exists c, (a ++ 46 :: b). cbn [forallb] in Ha. apply andb_prop in Ha as (Ha & _).
      split; auto. split; [apply decimal_space; auto|]. intros ->. discriminate.
    - exists q, (s ++ [q]). split; auto. destruct Hq as [->| ->]; split; try reflexivity; discriminate.
  Qed.
  Lemma vform_head v o : vform v o -> exists c r, v = c :: r /\ is_space c = false.
  Proof.
    intros [w Nw Hw|a x b Na Ha Hb|pre q s Hpre Hq Hs].
    - destruct w as [|c w]; [congruence|]. exists c, w. cbn [forallb] in Hw. apply andb_prop in Hw as (Hw & _).
      split; auto using wordc_space.
    - destruct a as [|c a]; [congruence|]. exists c, (a ++ x :: b). cbn [forallb] in Ha. apply andb_prop in Ha as (Ha & _).
      split; auto using decimal_space.
    - destruct Hpre as [->|(c & -> & Hc)].
      + exists q, (s ++ [q]). split; auto. destruct Hq as [->| ->]; reflexivity.
      + exists c, (q :: s ++ [q]). split; auto using wordc_space.
  Qed.

  Lemma value_run vt o : vtext vt o -> forall prev rest caps, exists s',
    matches (value_re word) (St prev (vt ++ rest) caps) s' /\ s_rest s' = rest.
  Proof.
    intros T prev rest caps.
    assert (K : exists s', matches (match value_re word with RGroup _ a => a | r => r end) (St prev (vt ++ rest) caps) s' /\ s_rest s' = rest).
    2:{ destruct K as (s' & M & E). eexists. split; [apply MGroup; exact M|]. exact E. }
    cbn [value_re]. destruct T as [w Nw Hw|a b Na Nb Ha Hb|q s Hq Hs].
    - destruct (plus_run true (wordc word) w prev rest caps Nw Hw) as (p & M). exists (St p rest caps). split; [|reflexivity].
      do 5 apply MAltR. apply MAltL. exact M.
    - destruct (plus_run true is_decimal a prev (46 :: b ++ rest) caps Na Ha) as (p & M).
      destruct (plus_run true is_decimal b (Some 46) rest caps Nb Hb) as (p' & M').
      exists (St p' rest caps). split; [|reflexivity]. do 2 apply MAltR. apply MAltL.
      rewrite <- app_assoc. cbn [app]. eapply MSeq; [exact M|]. eapply MSeq; [|exact M'].
      apply (MSet (fun c => negb (c =? 10)) (St p (46 :: b ++ rest) caps) 46 (b ++ rest)); reflexivity.
    - apply notin_forallb in Hs.
      destruct Hq as [->| ->];
      [destruct (star_run false _ s (Some 34) (34 :: rest) caps Hs) as (p & M)|destruct (star_run true _ s (Some 39) (39 :: rest) caps Hs) as (p & M)];
      eexists; (split; [do 6 apply MAltR; eapply MSeq; [apply MAltR; apply MEps|];
        apply MGroup; [apply MAltL + apply MAltR]; cbn [app]; rewrite <- app_assoc; cbn [app];
        eapply MSeq; [apply chr_run|]; eapply MSeq; [exact M|apply chr_run]|reflexivity]).
  Qed.

  (* names *)
  Definition name_ok (n : str) : Prop :=
    n <> [] /\ forallb (wordc word) n = true /\ match n with c :: _ => is_decimal c = false | [] => True end.
  Lemma vform_name_eq v o n r x : vform v o -> name_ok n -> (forall q, q = 34 \/ q = 39 -> x <> q) -> wordc word x = false ->
    is_space x = false -> x <> 44 -> forall sp r', forallb is_space sp = true -> v ++ sp ++ 44 :: r' = n ++ x :: r -> False.
  Proof.
    intros F (Nn & Hn & Hd) Hxq Hx Hxs Nx sp r' Hsp E. destruct F as [v Nv Hv|a y b Na Ha Hb|pre q s Hpre Hq Hs].
    - destruct (span_unique _ _ _ _ _ Hv Hn (sp44 sp r' Hsp) (head_not_cons _ x r Hx) E) as (-> & E1).
      destruct (sp_nil sp 44 r' x r Hsp Hxs E1) as (_ & C & _). congruence.
    - destruct a as [|d a]; [congruence|]. destruct n as [|c n]; [congruence|]. cbn [app forallb] in *. inv E.
      apply andb_prop in Ha as (Ha & _). congruence.
    - destruct n as [|c n]; [congruence|]. cbn [app forallb] in *. apply andb_prop in Hn as (Hc & Hn).
      destruct Hpre as [->|(d & -> & Hdw)]; cbn [app] in E; inv E.
      + rewrite (wq _ Hq) in Hc. discriminate.
      + destruct n as [|e n]; cbn [app forallb] in *; inv H1; [apply (Hxq _ Hq); auto|]. rewrite (wq _ Hq) in Hn. discriminate.
  Qed.

  Definition arg_text (n : option str) (vt : str) : str := match n with Some n => n ++ 61 :: vt | None => vt end.
  Definition opt_name_ok (n : option str) : Prop := match n with Some n => name_ok n | None => True end.
  Lemma arg_match n vt o prev rest : opt_name_ok n -> vtext vt o -> calm rest ->
    exists p, match_at (args_re word) prev (arg_text n vt ++ 44 :: rest) =
      Some (St p rest ((3%nat, vt) :: match o with Some t => [(4%nat, t)] | None => [] end ++ name_caps n)).
  Proof.
    intros Hn T Hc. unfold match_at.
    assert (C : exists s', matches (args_re word) (St prev (arg_text n vt ++ 44 :: rest) []) s').
    { destruct n as [n|]; cbn [arg_text].
      - destruct Hn as (Nn & Hn & Hd). destruct (plus_run true (wordc word) n prev (61 :: vt ++ 44 :: rest) [] Nn Hn) as (p1 & M1).
        rewrite <- app_assoc. cbn [app]. destruct (value_run vt o T (Some 61) (44 :: rest) [(2%nat, n)]) as ([p2 r2 c2] & M2 & E2).
        cbn [s_rest] in E2. subst r2.
        eexists. eapply MSeq; [apply MAltL; eapply MSeq; [apply MGroup; exact M1|]; eapply MSeq; [apply MStarE|]; cbn [s_rest s_prev s_caps];
          eapply MSeq; [apply chr_run|apply MStarE]|].
        eapply MSeq; [|eapply MSeq; [apply MStarE|apply chr_run]].
        replace (consumed _ _) with n; [exact M2|]. symmetry. apply consumed_app. reflexivity.
      - destruct (value_run vt o T prev (44 :: rest) []) as ([p2 r2 c2] & M2 & E2). cbn [s_rest] in E2. subst r2.
        eexists. eapply MSeq; [apply MAltR, MEps|]. eapply MSeq; [exact M2|]. eapply MSeq; [apply MStarE|apply chr_run]. }
    destruct C as (s' & M). destruct (run (args_re word) (St prev (arg_text n vt ++ 44 :: rest) []) Some) as [x|] eqn:E.
    2:{ exfalso. eapply run_complete with (k := @Some st); [exact M|discriminate|exact E]. }
    apply run_sound in E as (x' & Mx & Ex). inv Ex. clear M s'.
    apply args_form in Mx as (n' & v & o' & sp & F & Hsp & Ec & Et).
    destruct x as [p r c]. cbn [s_rest s_caps] in *. subst c.
    destruct (vtext_head _ _ T) as (hc & hr & Ehd & Hhs & Hh44).
    destruct n' as [n'|].
    - destruct Et as (Nn' & Hn' & sp1 & sp2 & Hsp1 & Hsp2 & Et).
      assert (H61 : forall z, head_not (wordc word) (sp1 ++ 61 :: z)) by (intros z; apply sp_head; auto using space_wordc).
      destruct n as [n|]; cbn [arg_text] in Et.
      + destruct Hn as (Nn & Hn & Hd). rewrite <- app_assoc in Et. cbn [app] in Et.
        destruct (span_unique _ _ _ _ _ Hn Hn' (head_not_cons _ 61 _ w61) (H61 _) Et) as (<- & E1). symmetry in E1.
        destruct (sp_nil _ _ _ 61 _ Hsp1 eq_refl E1) as (-> & _ & E2).
        assert (sp2 = []) as ->.
        { destruct sp2 as [|d sp2]; auto. rewrite Ehd in E2. cbn [app forallb] in *. injection E2 as -> _. apply andb_prop in Hsp2 as (Hd2 & _). congruence. }
        cbn [app] in E2. destruct (value_unique _ _ _ _ _ _ _ F T Hsp Hc E2) as (-> & -> & -> & ->). eauto.
      + exfalso. destruct T as [w Nw Hw|a b Na Nb Ha Hb|q s Hq Hs].
        * destruct (span_unique _ _ _ _ _ Hw Hn' (head_not_cons _ 44 rest w44) (H61 _) Et) as (_ & E1). symmetry in E1.
          destruct (sp_nil _ _ _ 44 _ Hsp1 eq_refl E1) as (_ & C & _). discriminate.
        * rewrite <- app_assoc in Et. cbn [app] in Et.
          destruct (span_unique _ _ _ _ _ (decimals_word _ Ha) Hn' (head_not_cons _ 46 _ w46) (H61 _) Et) as (_ & E1). symmetry in E1.
          destruct (sp_nil _ _ _ 46 _ Hsp1 eq_refl E1) as (_ & C & _). discriminate.
        * destruct n' as [|d n']; [congruence|]. cbn [app forallb] in *. injection Et as -> _. rewrite (wq _ Hq) in Hn'. discriminate.
    - destruct n as [n|]; cbn [arg_text] in Et.
      + exfalso. rewrite <- app_assoc in Et. cbn [app] in Et. symmetry in Et.
        refine (vform_name_eq _ _ _ _ 61 F Hn _ eq_refl eq_refl _ _ _ Hsp Et); [intros q [->| ->]; discriminate|discriminate].
      + symmetry in Et. destruct (value_unique _ _ _ _ _ _ _ F T Hsp Hc Et) as (-> & -> & -> & ->). eauto.
  Qed.

  Lemma arg_text_head n vt o : opt_name_ok n -> vtext vt o -> exists c r, arg_text n vt = c :: r /\ is_space c = false /\ c <> 44.
  Proof.
    intros Hn T. destruct n as [n|]; cbn [arg_text]; [|apply (vtext_head _ _ T)].
    destruct Hn as (Nn & Hn & _). destruct n as [|c n]; [congruence|]. cbn [forallb app] in *. apply andb_prop in Hn as (Hc & _).
    exists c, (n ++ 61 :: vt). split; auto. split; auto using wordc_space. intros ->. discriminate.
  Qed.
  (* no argument begins at a space *)
  Lemma no_match_space prev s : match_at (args_re word) prev (32 :: s) = None.
  Proof.
    unfold match_at. destruct (run (args_re word) (St prev (32 :: s) []) Some) as [x|] eqn:E; [exfalso|reflexivity]. apply run_sound in E as (x' & M & _).
    apply args_form in M as (n & v & o & sp & F & Hsp & _ & Et). destruct n as [n|].
    - destruct Et as (Nn & Hn & sp1 & sp2 & _ & _ & Et). destruct n as [|c n]; [congruence|]. cbn [app forallb] in *.
      injection Et as <- _. discriminate.
    - destruct (vform_head _ _ F) as (c & r & -> & Hc). cbn [app] in Et. injection Et as <- _. discriminate.
  Qed.

  (** ** Values *)
  Lemma vtext_of t v : denotes word is_float t v -> exists o, vtext t o /\
    pythonize is_float (match o with Some q => q | None => t end) = v.
  Proof.
    intros D. destruct D as [| | |n|a b Hf|q s Hq Hs Hf|w (Nw & Hw) Hu Hi Hf N1 N2 N3].
    - exists None. split; [constructor; [discriminate|reflexivity]|reflexivity].
    - exists None. split; [constructor; [discriminate|reflexivity]|reflexivity].
    - exists None. split; [constructor; [discriminate|reflexivity]|reflexivity].
    - exists None. split.
      + constructor; [apply dec_nonnil|]. apply decimals_word, (decimal_int_ascii _ (dec_digits n)).
      + unfold pythonize. rewrite py_int_dec.
        assert (X : forall w, py_int w = None -> eqs (dec n) w = false).
        { intros w Hw. destruct (eqs (dec n) w) eqn:E; auto. apply eqs_eq in E. rewrite <- E, py_int_dec in Hw. discriminate. }
        rewrite !X by reflexivity. auto.
    - exists None. split.
      + constructor; try apply dec_nonnil; apply (decimal_int_ascii _ (dec_digits _)).
      + unfold pythonize. assert (Hi : py_int (dec a ++ 46 :: dec b) = None) by (apply (py_int_no 46); [reflexivity..|apply in_or_app; right; left; auto]).
        rewrite Hi, Hf.
        assert (X : forall w, ~ In 46 w -> eqs (dec a ++ 46 :: dec b) w = false).
        { intros w Hw. destruct (eqs _ w) eqn:E; auto. apply eqs_eq in E. subst w. exfalso. apply Hw, in_or_app. right. left. auto. }
        rewrite !X; auto; cbn; intuition discriminate.
    - exists (Some (q :: s ++ [q])). split; [constructor; auto|]. unfold pythonize.
      assert (Hi : py_int (q :: s ++ [q]) = None) by (apply (py_int_no q); [destruct Hq as [->| ->]; reflexivity..|left; auto]).
      rewrite Hi, Hf. assert (X : forall w, ~ In q w -> eqs (q :: s ++ [q]) w = false).
      { intros w Hw. destruct (eqs _ w) eqn:E; auto. apply eqs_eq in E. subst w. exfalso. apply Hw. left. auto. }
      rewrite !X; [|destruct Hq as [->| ->]; cbn; intuition discriminate..].
      replace (last (q :: s ++ [q]) q) with q by (rewrite app_comm_cons, last_last; auto).
      rewrite N.eqb_refl. unfold quote_char. rewrite removelast_last. destruct Hq as [->| ->]; reflexivity.
    - exists None. split.
      + constructor; auto. rewrite forallb_forall. rewrite Forall_forall in Hw. intros c Hc. apply wordc_spec. auto.
      + unfold pythonize. rewrite Hi, Hf.
        assert (X : forall x, w <> x -> eqs w x = false).
        { intros x Hx. destruct (eqs w x) eqn:E; auto. apply eqs_eq in E. contradiction. }
        rewrite !X by auto. destruct w as [|c w]; [congruence|].
        replace (quote_char c) with false; [rewrite andb_false_r; auto|].
        inv Hw. unfold quote_char, word_char in *. lia.
  Qed.

  (** ** The loop *)
  Lemma args_loop_spec l : Forall (good_arg word is_float) l -> forall fuel args kwargs s,
    (length s <= fuel)%nat ->
    match l with [] => s = [] | _ => s = write_args l ++ [44] \/ s = 32 :: write_args l ++ [44] end ->
    args_loop word is_float fuel s args kwargs =
    (args ++ positional l,
     fold_left (fun d a => match a_name a with Some n => dset d n (a_value a) | None => d end) l kwargs).
  Proof.
    induction l as [|a l IH]; intros Hl fuel args kwargs s Hf Hs.
    { subst s. cbn [positional fold_left]. rewrite app_nil_r. destruct fuel; auto. }
    inversion Hl as [|? ? (Hd & Hn) Hl']; subst.
    destruct (vtext_of _ _ Hd) as (o & T & Hp).
    assert (Hno : opt_name_ok (a_name a)).
    { destruct (a_name a) as [n|]; cbn; auto. destruct Hn as ((Nn & Hw) & H0). split; auto. split.
      - rewrite forallb_forall. rewrite Forall_forall in Hw. intros c Hc. apply wordc_spec. auto.
      - destruct n; auto. }
    set (rest := match l with [] => [] | _ => 32 :: write_args l ++ [44] end).
    assert (Et : write_args (a :: l) ++ [44] = arg_text (a_name a) (a_text a) ++ 44 :: rest).
    { subst rest. cbn [write_args]. unfold write_arg, arg_text. destruct l as [|b l]; [auto|]. rewrite <- !app_assoc. auto. }
    assert (Hr : calm rest).
    { subst rest. destruct l as [|b l]; [left; auto|]. right. inversion Hl' as [|? ? (Hd2 & Hn2) _]; subst.
      destruct (vtext_of _ _ Hd2) as (o2 & T2 & _).
      assert (Hno2 : opt_name_ok (a_name b)).
      { destruct (a_name b) as [n|]; cbn; auto. destruct Hn2 as ((Nn & Hw) & H0). split; auto. split.
        - rewrite forallb_forall. rewrite Forall_forall in Hw. intros c Hc. apply wordc_spec. auto.
        - destruct n; auto. }
      destruct (arg_text_head _ _ _ Hno2 T2) as (c & r & E & Hc & N44).
      assert (exists r', write_args (b :: l) ++ [44] = c :: r') as (r' & ->).
      { cbn [write_args]. change (write_arg b) with (arg_text (a_name b) (a_text b)). rewrite E. destruct l; cbn [app]; eauto. }
      eauto. }
    assert (Hm : forall prev, exists p, search_at (args_re word) prev (arg_text (a_name a) (a_text a) ++ 44 :: rest) =
      Some ([], St p rest ((3%nat, a_text a) :: match o with Some t => [(4%nat, t)] | None => [] end ++ name_caps (a_name a)))).
    { intros prev. destruct (arg_match _ _ _ prev rest Hno T Hr) as (p & Hm). exists p.
      destruct (arg_text (a_name a) (a_text a) ++ 44 :: rest); cbn [search_at]; rewrite Hm; auto. }
    assert (exists pre p, search_at (args_re word) None s =
      Some (pre, St p rest ((3%nat, a_text a) :: match o with Some t => [(4%nat, t)] | None => [] end ++ name_caps (a_name a)))) as (pre & p & Es).
    { rewrite Et in Hs. destruct Hs as [-> | ->].
      - destruct (Hm None) as (p & E). eauto.
      - destruct (Hm (Some 32)) as (p & E). exists [32], p. cbn [search_at]. rewrite no_match_space, E. auto. }
    assert (Hlen : (S (length rest) <= length s)%nat).
    { rewrite Et in Hs. destruct Hs as [-> | ->]; cbn [length]; rewrite app_length; cbn [length]; lia. }
    destruct fuel as [|fuel]; [lia|]. cbn [args_loop]. rewrite Es. cbn [s_caps s_rest].
    assert (Hv : pythonize is_float
        match cap ((3%nat, a_text a) :: match o with Some t => [(4%nat, t)] | None => [] end ++ name_caps (a_name a)) 4 with
        | Some t => t
        | None => group_or_nil (St p rest ((3%nat, a_text a) :: match o with Some t => [(4%nat, t)] | None => [] end ++ name_caps (a_name a))) 3
        end = a_value a).
    { rewrite <- Hp. unfold group_or_nil. destruct o; [reflexivity|]. destruct (a_name a); reflexivity. }
    rewrite Hv.
    assert (Hrest : match l with [] => rest = [] | _ => rest = write_args l ++ [44] \/ rest = 32 :: write_args l ++ [44] end).
    { subst rest. destruct l; auto. }
    cbn [positional fold_left].
    destruct (a_name a) as [n|] eqn:En; cbn [name_caps].
    - replace (cap _ 2) with (Some n) by (destruct o; reflexivity). destruct Hno as (Nn & _).
      destruct n as [|c n]; [congruence|]. rewrite (IH Hl' fuel _ _ rest); auto. lia.
    - replace (cap _ 2) with (@None str) by (destruct o; reflexivity).
      rewrite (IH Hl' fuel _ _ rest); auto; [|lia]. rewrite <- app_assoc. auto.
  Qed.

  Lemma fold_named l : forall d n,
    dget (fold_left (fun d a => match a_name a with Some n => dset d n (a_value a) | None => d end) l d) n =
    match named l n with Some v => Some v | None => dget d n end.
  Proof.
    induction l as [|a l IH]; intros d n; cbn [fold_left named]; auto. rewrite IH.
    destruct (named l n); auto. destruct (a_name a) as [n'|]; auto.
    destruct (eqs n n') eqn:E.
    - apply eqs_eq in E. subst. apply dget_dset_eq.
    - apply dget_dset_neq. intros ->. rewrite eqs_refl in E. discriminate.
  Qed.

  Theorem read_args l : l <> [] -> Forall (good_arg word is_float) l ->
    fst (parse_converter_args word is_float (write_args l)) = positional l /\
    forall n, dget (snd (parse_converter_args word is_float (write_args l))) n = named l n.
  Proof.
    intros Nl Hl. unfold parse_converter_args. rewrite (args_loop_spec l Hl); [|auto|destruct l; [congruence|auto]].
    cbn [fst snd app]. split; auto. intros n. rewrite fold_named. destruct (named l n); auto.
  Qed.
End args.

(** ** Converters made from arguments *)
Lemma dget_all_none {V} (d : dict V) : (forall n, dget d n = None) -> d = [].
Proof. destruct d as [|(k, v) d]; auto. intros H. specialize (H k). cbn in H. rewrite eqs_refl in H. discriminate. Qed.
Lemma named_in l n v : named l n = Some v -> exists a, In a l /\ a_name a = Some n /\ a_value a = v.
Proof.
  induction l as [|a l IH]; cbn [named]; [discriminate|]. destruct (named l n) as [w|].
  - intros H. inv H. destruct (IH eq_refl) as (b & ? & ?). exists b. split; [right|]; auto.
  - destruct (a_name a) as [n'|] eqn:E; [|discriminate]. destruct (eqs n n') eqn:En; [|discriminate]. intros H. inv H.
    apply eqs_eq in En. subst. exists a. split; [left|]; auto.
Qed.
Lemma positional_named names l : named_numbers names l -> positional l = [].
Proof.
  induction 1 as [|a l ((n & Hn & _) & _) H IH]; cbn [positional]; auto. rewrite Hn. auto.
Qed.
Lemma named_cases names l n : named_numbers names l ->
  (named l n = None \/ exists k : N, named l n = Some (CInt (Z.of_N k))) /\ (~ In n names -> named l n = None).
Proof.
  intros H. destruct (named l n) as [v|] eqn:E.
  - apply named_in in E as (a & Ha & Hn & Hv). unfold named_numbers in H. rewrite Forall_forall in H. destruct (H a Ha) as ((n' & Hn' & Hi) & k & Hk).
    split; [right; exists k; congruence|]. intros X. exfalso. congruence.
  - auto.
Qed.
Lemma positional_bounds names l : named_bounds names l -> positional l = [].
Proof.
  induction 1 as [|a l ((n & Hn & _) & _) H IH]; cbn [positional]; auto. rewrite Hn. auto.
Qed.
Lemma bound_cases names l n : named_bounds names l ->
  (named l n = None \/ (exists k : N, named l n = Some (CInt (Z.of_N k))) \/
   (exists b, named l n = Some (CBool b)) \/ named l n = Some CNone) /\ (~ In n names -> named l n = None).
Proof.
  intros H. destruct (named l n) as [v|] eqn:E.
  - apply named_in in E as (a & Ha & Hn & Hv). unfold named_bounds in H. rewrite Forall_forall in H.
    destruct (H a Ha) as ((n' & Hn' & Hi) & K). split; [|intros X; exfalso; congruence].
    right. destruct K as [(k & Hk)|[(b & Hb)|K]]; [left; exists k|right; left; exists b|right; right]; congruence.
  - auto.
Qed.
Lemma bind_three n1 n2 n3 kw : n1 <> n2 -> n1 <> n3 -> n2 <> n3 ->
  (forall n, ~ In n [n1; n2; n3] -> dget kw n = None) ->
  bind_args [n1; n2; n3] [] kw = Ok [dget kw n1; dget kw n2; dget kw n3].
Proof.
  intros N12 N13 N23 H. cbn [bind_args].
  rewrite (dget_all_none (ddel (ddel (ddel kw n1) n2) n3)).
  - cbn [bind]. rewrite !dget_ddel_neq by auto. auto.
  - intros n. destruct (eqs n n3) eqn:E3. { apply eqs_eq in E3. subst. apply dget_ddel_eq. }
    rewrite dget_ddel_neq by (intros ->; rewrite eqs_refl in E3; discriminate).
    destruct (eqs n n2) eqn:E2. { apply eqs_eq in E2. subst. apply dget_ddel_eq. }
    rewrite dget_ddel_neq by (intros ->; rewrite eqs_refl in E2; discriminate).
    destruct (eqs n n1) eqn:E1. { apply eqs_eq in E1. subst. apply dget_ddel_eq. }
    rewrite dget_ddel_neq by (intros ->; rewrite eqs_refl in E1; discriminate).
    apply H. apply eqs_neq in E1, E2, E3. cbn. intuition congruence.
Qed.

Section made.
  Variables (word : N -> bool) (is_float : str -> bool) (mk_float : list cval -> dict cval -> res converter).
  Hypothesis word_space : forall c, 128 <= c -> word c = true -> is_space c = false.

  Lemma parsed l : l <> [] -> Forall (good_arg word is_float) l -> exists kw,
    parse_converter_args word is_float (write_args l) = (positional l, kw) /\ forall n, dget kw n = named l n.
  Proof.
    intros Nl Hl. destruct (read_args word is_float word_space l Nl Hl) as (E1 & E2).
    destruct (parse_converter_args word is_float (write_args l)) as [a kw]. cbn [fst snd] in *. subst. eauto.
  Qed.

  Lemma int_made l : l <> [] -> Forall (good_arg word is_float) l ->
    named_numbers [lit "fixed_digits"; lit "min"; lit "max"] l ->
    exists c, default_converter word is_float mk_float (lit "int") (Some (write_args l)) = Ok c /\
    forall t v, accepts c t v <-> exists z, v = VInt z /\ numeral t z /\
      within (number_of l (lit "min")) (number_of l (lit "max")) z /\
      (forall k, number_of l (lit "fixed_digits") = Some k -> k <> 0%Z -> Z.of_nat (length t) = k).
  Proof.
    intros Nl Hl Hn. destruct (parsed l Nl Hl) as (kw & Hp & Hk). unfold default_converter. rewrite Hp.
    change (eqs (lit "int") (lit "default") || eqs (lit "int") (lit "string")) with false.
    change (eqs (lit "int") (lit "any")) with false. change (eqs (lit "int") (lit "path")) with false.
    change (eqs (lit "int") (lit "int")) with true. cbn iota. unfold mk_int. rewrite (positional_named _ _ Hn).
    rewrite bind_three; [|discriminate..|intros n Hi; rewrite Hk; apply (proj2 (named_cases _ _ n Hn) Hi)].
    rewrite !Hk. cbn [bind].
    assert (X : forall n, ModelConvArgs.number (named l n) = Ok (number_of l n)).
    { intros n. unfold number_of. destruct (proj1 (named_cases _ _ n Hn)) as [->|(k & ->)]; reflexivity. }
    rewrite !X. cbn [bind].
    assert (P : forall k, number_of l (lit "fixed_digits") = Some k -> (0 <= k)%Z).
    { intros k. unfold number_of. destruct (proj1 (named_cases _ _ (lit "fixed_digits") Hn)) as [->|(k1 & ->)]; [discriminate|]. intros E. inv E. lia. }
    destruct (number_of l (lit "fixed_digits")) as [f|].
    - specialize (P f eq_refl). replace (f <? 0)%Z with false by lia. eexists. split; [reflexivity|]. intros t v.
      rewrite int_accepts. split; intros (z & Hv & Hz & Hw & Hf); exists z; (split; [auto|]; split; [auto|]; split; [auto|]).
      + intros k E Hk0. inv E. lia.
      + intros H0. specialize (Hf f eq_refl). lia.
    - eexists. split; [reflexivity|]. intros t v.
      rewrite int_accepts. split; intros (z & Hv & Hz & Hw & Hf); exists z; (split; [auto|]; split; [auto|]; split; [auto|]).
      + discriminate.
      + congruence.
  Qed.

  Lemma int_made_bounds l : l <> [] -> Forall (good_arg word is_float) l ->
    named_bounds [lit "fixed_digits"; lit "min"; lit "max"] l ->
    exists c, default_converter word is_float mk_float (lit "int") (Some (write_args l)) = Ok c /\
    forall t v, accepts c t v <-> exists z, v = VInt z /\ numeral t z /\
      within (bound_of l (lit "min")) (bound_of l (lit "max")) z /\
      (forall k, bound_of l (lit "fixed_digits") = Some k -> k <> 0%Z -> Z.of_nat (length t) = k).
  Proof.
    intros Nl Hl Hn. destruct (parsed l Nl Hl) as (kw & Hp & Hk). unfold default_converter. rewrite Hp.
    change (eqs (lit "int") (lit "default") || eqs (lit "int") (lit "string")) with false.
    change (eqs (lit "int") (lit "any")) with false. change (eqs (lit "int") (lit "path")) with false.
    change (eqs (lit "int") (lit "int")) with true. cbn iota. unfold mk_int. rewrite (positional_bounds _ _ Hn).
    rewrite bind_three; [|discriminate..|intros n Hi; rewrite Hk; apply (proj2 (bound_cases _ _ n Hn) Hi)].
    rewrite !Hk. cbn [bind].
    assert (X : forall n, ModelConvArgs.number (named l n) = Ok (bound_of l n)).
    { intros n. unfold bound_of. destruct (proj1 (bound_cases _ _ n Hn)) as [->|[(k & ->)|[([] & ->)| ->]]]; reflexivity. }
    rewrite !X. cbn [bind].
    assert (P : forall k, bound_of l (lit "fixed_digits") = Some k -> (0 <= k)%Z).
    { intros k. unfold bound_of. destruct (proj1 (bound_cases _ _ (lit "fixed_digits") Hn)) as [->|[(k1 & ->)|[([] & ->)| ->]]]; intros E; inv E; lia. }
    destruct (bound_of l (lit "fixed_digits")) as [f|].
    - specialize (P f eq_refl). replace (f <? 0)%Z with false by lia. eexists. split; [reflexivity|]. intros t v.
      rewrite int_accepts. split; intros (z & Hv & Hz & Hw & Hf); exists z; (split; [auto|]; split; [auto|]; split; [auto|]).
      + intros k E Hk0. inv E. lia.
      + intros H0. specialize (Hf f eq_refl). lia.
    - eexists. split; [reflexivity|]. intros t v.
      rewrite int_accepts. split; intros (z & Hv & Hz & Hw & Hf); exists z; (split; [auto|]; split; [auto|]; split; [auto|]).
      + discriminate.
      + congruence.
  Qed.

  Lemma string_accepts mn mx t v : (forall m, mx = Some m -> (mn <= m)%nat) -> accepts (conv_string mn mx) t v <->
    v = VStr t /\ ~ In 47 t /\ (mn <= length t)%nat /\ forall m, mx = Some m -> (length t <= m)%nat.
  Proof.
    intros Hm. unfold accepts. cbn [conv_string c_regex c_to_python]. rewrite lang_string by auto. unfold base_to_python.
    split; [intros (H & E); inv E; auto|intros (-> & H); auto].
  Qed.
  Lemma string_made l : l <> [] -> Forall (good_arg word is_float) l ->
    named_numbers [lit "minlength"; lit "maxlength"; lit "length"] l ->
    let least := match number_of l (lit "length"), number_of l (lit "minlength") with
                 | Some n, _ => n | None, Some n => n | None, None => 1%Z end in
    let most := match number_of l (lit "length") with Some n => Some n | None => number_of l (lit "maxlength") end in
    let made := default_converter word is_float mk_float (lit "string") (Some (write_args l)) in
    match most with
    | Some m => if (m <? least)%Z then made = Raise ReError
                else exists c, made = Ok c /\ forall t v, accepts c t v <->
                  v = VStr t /\ ~ In 47 t /\ (least <= Z.of_nat (length t) <= m)%Z
    | None => exists c, made = Ok c /\ forall t v, accepts c t v <->
                v = VStr t /\ ~ In 47 t /\ (least <= Z.of_nat (length t))%Z
    end.
  Proof.
    intros Nl Hl Hn least most made. destruct (parsed l Nl Hl) as (kw & Hp & Hk).
    assert (Em : made = mk_string [] kw).
    { subst made. unfold default_converter. rewrite Hp, (positional_named _ _ Hn). reflexivity. }
    rewrite Em. unfold mk_string.
    rewrite bind_three; [|discriminate..|intros n Hi; rewrite Hk; apply (proj2 (named_cases _ _ n Hn) Hi)].
    rewrite !Hk. cbn [bind]. subst least most. unfold number_of. clear made Em.
    destruct (proj1 (named_cases _ _ (lit "length") Hn)) as [->|(k1 & ->)].
    - destruct (proj1 (named_cases _ _ (lit "minlength") Hn)) as [->|(k2 & ->)], (proj1 (named_cases _ _ (lit "maxlength") Hn)) as [->|(k3 & ->)];
        cbn [int_of_cval bind].
      + eexists. split; [reflexivity|]. intros t v. cbn [option_map]. rewrite string_accepts by discriminate.
        split; intros (H1 & H2 & H3); repeat (split; auto); try lia; try discriminate.
      + replace ((1 <? 0)%Z || (Z.of_N k3 <? 0)%Z) with false by lia. destruct (Z.ltb_spec (Z.of_N k3) 1); [auto|].
        eexists. split; [reflexivity|]. intros t v. cbn [option_map]. rewrite string_accepts by (intros m E; inv E; lia).
        split; intros (H1 & H2 & H3 & H4); [specialize (H4 _ eq_refl)|]; repeat (split; auto); try lia. intros m E. inv E. lia.
      + replace ((Z.of_N k2 <? 0)%Z || false) with false by lia.
        eexists. split; [reflexivity|]. intros t v. cbn [option_map]. rewrite string_accepts by discriminate.
        split; intros (H1 & H2 & H3); repeat (split; auto); try lia; try discriminate.
      + replace ((Z.of_N k2 <? 0)%Z || (Z.of_N k3 <? 0)%Z) with false by lia. destruct (Z.ltb_spec (Z.of_N k3) (Z.of_N k2)); [auto|].
        eexists. split; [reflexivity|]. intros t v. cbn [option_map]. rewrite string_accepts by (intros m E; inv E; lia).
        split; intros (H1 & H2 & H3 & H4); [specialize (H4 _ eq_refl)|]; repeat (split; auto); try lia. intros m E. inv E. lia.
    - cbn [int_of_cval bind]. rewrite Z.ltb_irrefl. replace (Z.of_N k1 <? 0)%Z with false by lia.
      eexists. split; [reflexivity|]. intros t v. rewrite string_accepts by (intros m E; inv E; lia).
      split; intros (H1 & H2 & H3 & H4); [specialize (H4 _ eq_refl)|]; repeat (split; auto); try lia. intros m E. inv E. lia.
  Qed.

  Lemma any_made l items : l <> [] -> Forall (good_arg word is_float) l -> plain_strings l items ->
    exists c, default_converter word is_float mk_float (lit "any") (Some (write_args l)) = Ok c /\
    forall t v, accepts c t v <-> v = VStr t /\ In t items.
  Proof.
    intros Nl Hl (Hn & Hv). destruct (parsed l Nl Hl) as (kw & Hp & Hk).
    assert (K : forall n, named l n = None).
    { intros n. clear -Hn. induction l as [|a l IH]; auto. cbn [map] in Hn. injection Hn as E1 E2. cbn [named]. rewrite (IH E2), E1. auto. }
    assert (kw = []) as -> by (apply dget_all_none; intros n; rewrite Hk; auto).
    assert (Q : positional l = map CStr items).
    { rewrite <- Hv. clear -Hn. induction l as [|a l IH]; auto. cbn [map] in Hn. injection Hn as E1 E2. cbn [positional map]. rewrite (IH E2), E1. auto. }
    assert (R : forall i, strings (map CStr i) = Ok i).
    { induction i as [|x i IH]; auto. cbn [map strings]. rewrite IH. auto. }
    assert (Ni : items <> []). { intros ->. destruct l; [congruence|discriminate]. }
    exists (conv_any items). split.
    - unfold default_converter. rewrite Hp, Q. change (mk_any (map CStr items) [] = Ok (conv_any items)). unfold mk_any. rewrite R. auto.
    - intros t v. unfold accepts. cbn [conv_any c_regex c_to_python]. rewrite lang_any. unfold base_to_python.
      split; [intros ([H|(H & _)] & E); [inv E; auto|contradiction]|intros (-> & H); auto].
  Qed.
End made.

(** ** Arguments by place, and arguments that do not fit *)
Fixpoint argument (names : list str) (pos : list cval) (f : str -> option cval) (n : str) : option cval :=
  match names, pos with
  | m :: names', v :: pos' => if eqs n m then Some v else argument names' pos' f n
  | _, _ => f n
  end.
Lemma argument_nil names f n : argument names [] f n = f n.
Proof. destruct names; auto. Qed.
Lemma argument_out names : forall pos f n, ~ In n names -> argument names pos f n = f n.
Proof.
  induction names as [|m names IH]; intros [|v pos] f n H; auto. cbn [argument].
  replace (eqs n m) with false; [apply IH; intros X; apply H; right; auto|].
  symmetry. apply eqs_neq. intros ->. apply H. left; auto.
Qed.
Lemma argument_ext names : forall pos f g n, (forall n, f n = g n) -> argument names pos f n = argument names pos g n.
Proof. induction names as [|m names IH]; intros [|v pos] f g n H; cbn [argument]; auto. destruct (eqs n m); auto. Qed.

Lemma bind_fits names : forall args kw, NoDup names -> (length args <= length names)%nat ->
  (forall n, ~ In n names -> dget kw n = None) ->
  (forall i n, nth_error names i = Some n -> (i < length args)%nat -> dget kw n = None) ->
  bind_args names args kw = Ok (map (argument names args (dget kw)) names).
Proof.
  induction names as [|n names IH]; intros args kw Hd Hl Hu Hc.
  - destruct args; [|cbn [length] in Hl; lia]. cbn [bind_args]. rewrite (dget_all_none kw) by (intros n; apply Hu; auto). auto.
  - inversion Hd as [|? ? Hn Hd']; subst. destruct args as [|a args]; cbn [bind_args].
    + rewrite (IH [] (ddel kw n)); auto; cbn [length]; [|lia| |intros; lia].
      * cbn [bind map]. f_equal. f_equal. apply map_ext_in. intros m Hm. rewrite argument_nil. cbn [argument].
        apply dget_ddel_neq. intros ->; auto.
      * intros m Hm. destruct (eqs m n) eqn:E; [apply eqs_eq in E; subst; apply dget_ddel_eq|].
        rewrite dget_ddel_neq by (intros ->; rewrite eqs_refl in E; discriminate).
        apply Hu. intros [X|X]; auto. subst. rewrite eqs_refl in E. discriminate.
    + assert (N : dget kw n = None) by (apply (Hc 0%nat n); [auto|cbn [length]; lia]).
      unfold dhas. rewrite N. rewrite (IH args kw); auto.
      * cbn [bind map argument]. rewrite eqs_refl. f_equal. f_equal. apply map_ext_in. intros m Hm.
        replace (eqs m n) with false; auto. symmetry. apply eqs_neq. intros ->; auto.
      * cbn [length] in Hl. lia.
      * intros m Hm. destruct (eqs m n) eqn:E; [apply eqs_eq in E; subst; auto|]. apply Hu. intros [X|X]; auto.
        subst. rewrite eqs_refl in E. discriminate.
      * intros i m Hi Hlt. apply (Hc (S i) m); auto. cbn [length]. lia.
Qed.
Lemma bind_only names : forall args kw r, bind_args names args kw = r ->
  match r with
  | Ok _ => (length args <= length names)%nat /\ (forall n, ~ In n names -> dget kw n = None) /\
      (forall i n, nth_error names i = Some n -> (i < length args)%nat -> dget kw n = None)
  | Raise e => e = TypeError
  end.
Proof.
  induction names as [|n names IH]; intros args kw r H; cbn [bind_args] in H.
  - destruct args; [|subst; auto]. destruct kw; subst; auto.
  - destruct args as [|a args].
    + specialize (IH [] (ddel kw n) _ eq_refl). destruct (bind_args names [] (ddel kw n)) as [l|e]; cbn [bind] in H; subst; auto.
      destruct IH as (_ & H2 & _). split; [cbn [length]; lia|]. split; [|cbn [length]; intros; lia].
      intros m Hm. specialize (H2 m). rewrite dget_ddel_neq in H2; [apply H2; intros X; apply Hm; right; auto|].
      intros ->. apply Hm. left; auto.
    + unfold dhas in H. destruct (dget kw n) as [v|] eqn:E; [subst; auto|].
      specialize (IH args kw _ eq_refl). destruct (bind_args names args kw) as [l|e]; cbn [bind] in H; subst; auto.
      destruct IH as (H1 & H2 & H3). split; [cbn [length]; lia|]. split.
      * intros m Hm. apply H2. intros X. apply Hm. right; auto.
      * intros [|i] m Hm Hi; [cbn [nth_error] in Hm; congruence|]. apply (H3 i); auto. cbn [length] in Hi. lia.
Qed.

Lemma named_some l a n : In a l -> a_name a = Some n -> named l n <> None.
Proof.
  induction l as [|b l IH]; [intros []|]. intros [->|Hi] Hn; cbn [named].
  - rewrite Hn, eqs_refl. destruct (named l n); discriminate.
  - specialize (IH Hi Hn). destruct (named l n); [discriminate|congruence].
Qed.
Lemma named_none l n : (forall a, In a l -> a_name a <> Some n) -> named l n = None.
Proof.
  intros H. destruct (named l n) as [v|] eqn:E; auto. exfalso. apply named_in in E as (a & Ha & Hn & _). apply (H a); auto.
Qed.
Lemma fits_spec names l : fits names l <->
  (length (positional l) <= length names)%nat /\ (forall n, ~ In n names -> named l n = None) /\
  (forall i n, nth_error names i = Some n -> (i < length (positional l))%nat -> named l n = None).
Proof.
  unfold fits. split; intros (H1 & H2 & H3); (split; [auto|]; split; [|auto]).
  - intros n Hn. apply named_none. intros a Ha E. apply Hn. eapply H2; eauto.
  - intros a n Ha E. destruct (in_dec (list_eq_dec N.eq_dec) n names) as [X|X]; auto. exfalso.
    apply (named_some l a n); auto.
Qed.
Lemma argument_named names pos a l n m : a_name a = Some m ->
  argument names pos (named (a :: l)) n =
  match argument names pos (named l) n with Some v => Some v | None => if eqs n m then Some (a_value a) else None end.
Proof.
  intros Ha. revert pos; induction names as [|x names IH]; intros [|v pos]; cbn [argument]; try (cbn [named]; rewrite Ha; auto; fail).
  destruct (eqs n x); auto.
Qed.
Lemma named_them l : forall names, NoDup names -> fits names l -> forall n,
  named (name_them names l) n = argument names (positional l) (named l) n.
Proof.
  induction l as [|a l IH]; intros names Hd Hf n.
  - cbn [name_them positional named]. rewrite argument_nil. auto.
  - rewrite fits_spec in Hf. destruct Hf as (H1 & H2 & H3). cbn [name_them positional] in *. destruct (a_name a) as [m|] eqn:Ea.
    + rewrite argument_named with (m := m) by auto. cbn [named]. rewrite Ea. rewrite IH; auto.
      apply fits_spec. split; auto. split.
      * intros x Hx. specialize (H2 x Hx). cbn [named] in H2. destruct (named l x); auto.
      * intros i x Hx Hi. specialize (H3 i x Hx Hi). cbn [named] in H3. destruct (named l x); auto.
    + destruct names as [|m names]; [cbn [length] in H1; lia|]. inversion Hd as [|? ? Hn Hd']; subst.
      assert (E : forall x, named (a :: l) x = named l x) by (intros x; cbn [named]; rewrite Ea; destruct (named l x); auto).
      assert (Nm : named l m = None).
      { rewrite <- E. apply (H3 0%nat m); auto. cbn [length]. lia. }
      assert (F : fits names l).
      { apply fits_spec. split; [cbn [length] in H1; lia|]. split.
        - intros x Hx. destruct (eqs x m) eqn:Ex; [apply eqs_eq in Ex; subst; auto|]. rewrite <- E. apply H2.
          intros [X|X]; auto. subst. rewrite eqs_refl in Ex. discriminate.
        - intros i x Hx Hi. rewrite <- E. apply (H3 (S i)); auto. cbn [length]. lia. }
      cbn [argument]. rewrite (argument_ext names _ (named (a :: l)) (named l)) by auto.
      cbn [named a_name a_value]. rewrite (IH names Hd' F n).
      destruct (eqs n m) eqn:En.
      * apply eqs_eq in En. subst n. rewrite argument_out, Nm by auto. auto.
      * destruct (argument names (positional l) (named l) n); auto.
Qed.
Lemma positional_them l : forall names, (length (positional l) <= length names)%nat -> positional (name_them names l) = [].
Proof.
  induction l as [|a l IH]; intros names H; auto. cbn [name_them positional] in *. destruct (a_name a) as [m|] eqn:Ea.
  - cbn [positional]. rewrite Ea. auto.
  - destruct names as [|m names]; [cbn [length] in H; lia|]. cbn [positional a_name]. apply IH. cbn [length] in H. lia.
Qed.

Definition int_params : list str := [lit "fixed_digits"; lit "min"; lit "max"].
Definition string_params : list str := [lit "minlength"; lit "maxlength"; lit "length"].
Lemma int_params_nodup : NoDup int_params.
Proof. repeat constructor; cbn; intuition discriminate. Qed.
Lemma string_params_nodup : NoDup string_params.
Proof. repeat constructor; cbn; intuition discriminate. Qed.

Section fitting.
  Variables (word : N -> bool) (is_float : str -> bool) (mk_float : list cval -> dict cval -> res converter).
  Hypothesis word_space : forall c, 128 <= c -> word c = true -> is_space c = false.
  Notation made := (default_converter word is_float mk_float).

  Lemma them_good l : forall names, (forall n, In n names -> arg_name word n) ->
    Forall (good_arg word is_float) l -> Forall (good_arg word is_float) (name_them names l).
  Proof using Type.
    induction l as [|a l IH]; intros names Hn H; [constructor|]. inversion H as [|? ? Ha Hl]; subst. cbn [name_them].
    destruct (a_name a) as [m|] eqn:Ea; [constructor; auto|]. destruct names as [|n names]; [constructor; auto|].
    constructor; [|apply IH; auto; intros x Hx; apply Hn; right; auto]. split; cbn [a_text a_value a_name]; [apply Ha|].
    apply Hn. left; auto.
  Qed.
  Lemma letters_name n : n <> [] -> forallb (fun c => between 97 122 c || (c =? 95)) n = true -> arg_name word n.
  Proof using Type.
    clear word_space is_float mk_float. intros N0 H. rewrite forallb_forall in H. split.
    - split; auto. apply Forall_forall. intros c Hc. apply H in Hc. unfold between in Hc. unfold word_char.
      destruct ((97 <=? c) && (c <=? 122)) eqn:E; [right; right; left; lia|right; right; right; left; cbn in Hc; lia].
    - destruct n as [|c n]; [congruence|]. specialize (H c (or_introl eq_refl)). unfold between in H.
      assert (X : 95 <= c <= 122) by lia. clear -X. unfold is_decimal.
      destruct c as [|p]; [lia|]. 
      assert (D : forall z, 95 <= z <= 122 -> is_decimal z = false).
      { intros z Hz. assert (Hz' : In z (map N.of_nat (seq 95 28))).
        { apply in_map_iff. exists (N.to_nat z). split; [lia|]. apply in_seq. lia. }
        revert z Hz' Hz. apply (proj1 (Forall_forall (fun z => 95 <= z <= 122 -> is_decimal z = false) (map N.of_nat (seq 95 28)))).
        repeat (apply Forall_cons; [intros _; vm_compute; reflexivity|]). apply Forall_nil. }
      apply (D (N.pos p) X).
  Qed.

  Lemma bound_alike names l kw kw' : NoDup names -> fits names l ->
    (forall n, dget kw n = named l n) -> (forall n, dget kw' n = named (name_them names l) n) ->
    bind_args names (positional l) kw = bind_args names (positional (name_them names l)) kw'.
  Proof using Type.
    clear. intros Hd Hf Hk Hk'. pose proof (named_them l names Hd Hf) as HN. rewrite positional_them by apply Hf.
    apply fits_spec in Hf as (H1 & H2 & H3).
    rewrite bind_fits; auto; [|intros n Hn; rewrite Hk; auto|intros i n Hi Hl; rewrite Hk; eauto].
    rewrite bind_fits; auto; [|cbn [length]; lia| |cbn [length]; intros; lia].
    - f_equal. apply map_ext. intros n. rewrite argument_nil, Hk', HN. apply argument_ext. auto.
    - intros n Hn. rewrite Hk', HN, argument_out; auto.
  Qed.
  Lemma by_place name names l : (name = lit "int" /\ names = int_params) \/ ((name = lit "string" \/ name = lit "default") /\ names = string_params) ->
    l <> [] -> Forall (good_arg word is_float) l -> fits names l ->
    made name (Some (write_args l)) = made name (Some (write_args (name_them names l))).
  Proof.
    intros Hnm Nl Hl Hf.
    assert (Nd : NoDup names) by (destruct Hnm as [[_ ->]|[_ ->]]; [apply int_params_nodup|apply string_params_nodup]).
    assert (An : forall n, In n names -> arg_name word n).
    { destruct Hnm as [[_ ->]|[_ ->]]; intros n [<-|[<-|[<-|[]]]]; apply letters_name; try discriminate; reflexivity. }
    destruct (parsed word is_float word_space l Nl Hl) as (kw & Hp & Hk).
    assert (Nl' : name_them names l <> []).
    { destruct l as [|a l]; [congruence|]. cbn [name_them]. destruct (a_name a), names; discriminate. }
    destruct (parsed word is_float word_space (name_them names l) Nl' (them_good l names An Hl)) as (kw' & Hp' & Hk').
    pose proof (bound_alike names l kw kw' Nd Hf Hk Hk') as E. unfold default_converter. rewrite Hp, Hp'.
    destruct Hnm as [[-> ->]|[[->| ->] ->]].
    - change (mk_int (positional l) kw = mk_int (positional (name_them int_params l)) kw'). unfold mk_int.
      change [lit "fixed_digits"; lit "min"; lit "max"] with int_params. rewrite E. auto.
    - change (mk_string (positional l) kw = mk_string (positional (name_them string_params l)) kw'). unfold mk_string.
      change [lit "minlength"; lit "maxlength"; lit "length"] with string_params. rewrite E. auto.
    - change (mk_string (positional l) kw = mk_string (positional (name_them string_params l)) kw'). unfold mk_string.
      change [lit "minlength"; lit "maxlength"; lit "length"] with string_params. rewrite E. auto.
  Qed.

  Lemma bind_refused names l kw : (forall n, dget kw n = named l n) -> ~ fits names l -> bind_args names (positional l) kw = Raise TypeError.
  Proof using Type.
    clear. intros Hk Hf. pose proof (bind_only names (positional l) kw _ eq_refl) as H.
    destruct (bind_args names (positional l) kw) as [r|e]; [|subst; auto]. exfalso. apply Hf. apply fits_spec.
    destruct H as (H1 & H2 & H3). split; auto. split; [intros n Hn; rewrite <- Hk; auto|intros i n Hi Hlt; rewrite <- Hk; eauto].
  Qed.
  Lemma refused name names l :
    In (name, names) [(lit "default", string_params); (lit "string", string_params); (lit "int", int_params); (lit "path", []); (lit "uuid", [])] ->
    l <> [] -> Forall (good_arg word is_float) l -> ~ fits names l -> made name (Some (write_args l)) = Raise TypeError.
  Proof.
    intros Hi Nl Hl Hf. destruct (parsed word is_float word_space l Nl Hl) as (kw & Hp & Hk).
    pose proof (bind_refused names l kw Hk Hf) as E. unfold default_converter. rewrite Hp.
    destruct Hi as [X|[X|[X|[X|[X|[]]]]]]; inversion X; subst; clear X.
    - change (mk_string (positional l) kw = Raise TypeError). unfold mk_string.
      change [lit "minlength"; lit "maxlength"; lit "length"] with string_params. rewrite E. auto.
    - change (mk_string (positional l) kw = Raise TypeError). unfold mk_string.
      change [lit "minlength"; lit "maxlength"; lit "length"] with string_params. rewrite E. auto.
    - change (mk_int (positional l) kw = Raise TypeError). unfold mk_int.
      change [lit "fixed_digits"; lit "min"; lit "max"] with int_params. rewrite E. auto.
    - change (mk_plain conv_path (positional l) kw = Raise TypeError). unfold mk_plain. rewrite E. auto.
    - change (mk_plain conv_uuid (positional l) kw = Raise TypeError). unfold mk_plain. rewrite E. auto.
  Qed.
  Lemma strings_refused l v : In v l -> (forall s, v <> CStr s) -> strings l = Raise TypeError.
  Proof using Type.
    intros Hi Hv. induction l as [|x l IH]; [destruct Hi|]. cbn [strings]. destruct x; auto.
    destruct Hi as [<-|Hi]; [exfalso; eapply Hv; eauto|]. rewrite IH; auto.
  Qed.
  Lemma positional_in l a : In a l -> a_name a = None -> In (a_value a) (positional l).
  Proof using Type.
    induction l as [|b l IH]; [intros []|]. intros [->|Hi] Hn; cbn [positional].
    - rewrite Hn. left; auto.
    - destruct (a_name b); [|right]; auto.
  Qed.
  Lemma any_refused l a : l <> [] -> Forall (good_arg word is_float) l -> In a l ->
    a_name a <> None \/ (forall s, a_value a <> CStr s) -> made (lit "any") (Some (write_args l)) = Raise TypeError.
  Proof.
    intros Nl Hl Ha Hb. destruct (parsed word is_float word_space l Nl Hl) as (kw & Hp & Hk).
    unfold default_converter. rewrite Hp. change (mk_any (positional l) kw = Raise TypeError). unfold mk_any.
    destruct (a_name a) as [n|] eqn:En.
    - destruct kw as [|x kw]; auto. exfalso. apply (named_some l a n); auto. rewrite <- Hk. auto.
    - destruct kw as [|x kw]; auto. rewrite (strings_refused (positional l) (a_value a)); auto.
      + apply positional_in; auto.
      + destruct Hb as [Hb|Hb]; [congruence|auto].
  Qed.
  Lemma unknown_converter name args :
    ~ In name [lit "default"; lit "string"; lit "any"; lit "path"; lit "int"; lit "float"; lit "uuid"] ->
    made name args = Raise LookupError.
  Proof using Type.
    intros H. unfold default_converter. destruct (match args with Some s => _ | None => _ end) as [a kw].
    assert (E : forall x, In x [lit "default"; lit "string"; lit "any"; lit "path"; lit "int"; lit "float"; lit "uuid"] -> eqs name x = false).
    { intros x Hx. apply eqs_neq. intros ->. auto. }
    rewrite !E by (cbn; tauto). auto.
  Qed.
End fitting.
