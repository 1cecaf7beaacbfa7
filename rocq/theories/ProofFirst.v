(** Which way of reading a path the matcher finds first. *)
From Coq Require Import Arith List NArith ZArith Bool Lia ZifyBool ZifyN ZifyNat.
From Verif Require Import PyStr PyStrFacts Regex RegexFacts ModelRoute SpecRoute ProofRoute SpecFirst.
Import ListNotations.
Open Scope N_scope.
Ltac inv H := inversion H; subst; clear H.

Definition after (s : st) (u rest : str) : st := St (last_or (s_prev s) u) rest (s_caps s).
(** The text that [r] takes is the one it likes best of those that let the rest succeed. *)
Definition first_by (r : re) (like : str -> str -> Prop) : Prop :=
  forall (X : Type) (s : st) (k : st -> option X) x, run r s k = Some x ->
  exists u rest, lang r u /\ s_rest s = u ++ rest /\ k (after s u rest) = Some x /\
    forall u' rest', lang r u' -> s_rest s = u' ++ rest' -> u' <> u -> k (after s u' rest') <> None -> like u u'.

Lemma after_after s u rest v rest' : after (after s u rest) v rest' = after s (u ++ v) rest'.
Proof. unfold after. cbn [s_prev s_caps]. rewrite last_or_app. auto. Qed.
Lemma after_nil s : after s [] (s_rest s) = s.
Proof. unfold after. cbn. apply st_eta. Qed.
Lemma run_lang {X} r u rest s (k : st -> option X) : lang r u -> s_rest s = u ++ rest -> k (after s u rest) <> None -> run r s k <> None.
Proof.
  intros L E H. eapply run_complete; [|exact H]. destruct s as [p t c]. cbn [s_rest] in E. subst t. unfold after. cbn [s_prev s_caps].
  apply lang_matches. auto.
Qed.
Lemma run_lang_inv {X} r s (k : st -> option X) x : plain r -> run r s k = Some x ->
  exists u rest, lang r u /\ s_rest s = u ++ rest /\ k (after s u rest) = Some x.
Proof.
  intros P H. apply run_sound in H as (s' & M & H). apply plain_matches in M as (u & rest & L & E & ->); auto. eauto.
Qed.

Definition one_prefix (r : re) : Prop := forall u u' rest rest', lang r u -> lang r u' -> u ++ rest = u' ++ rest' -> u = u'.
Lemma first_unique r like : plain r -> one_prefix r -> first_by r like.
Proof.
  intros P O X s k x H. apply run_lang_inv in H as (u & rest & L & E & H); auto. exists u, rest.
  split; [auto|]. split; [auto|]. split; [auto|]. intros u' rest' L' E' Hn _. exfalso. apply Hn. apply (O u' u rest' rest); auto. congruence.
Qed.
Lemma app_len_inj {A} (a b c d : list A) : length a = length c -> a ++ b = c ++ d -> a = c /\ b = d.
Proof.
  revert c. induction a as [|x a IH]; intros [|y c] Hl E; cbn in *; try discriminate; auto.
  inv E. destruct (IH c) as [-> ->]; auto.
Qed.
Lemma one_length r n : (forall u, lang r u -> length u = n) -> one_prefix r.
Proof. intros H u u' rest rest' L L' E. apply (app_len_inj u rest u' rest'); auto. rewrite (H u), (H u'); auto. Qed.
Lemma one_str w : one_prefix (RStr w).
Proof. apply one_length with (n := length w). intros u L. apply lang_str in L. subst. auto. Qed.

Lemma first_seq a b like : plain a ->
  (forall x x' y y' rest rest', lang a x -> lang a x' -> lang b y -> lang b y' -> x ++ y ++ rest = x' ++ y' ++ rest' -> x = x') ->
  first_by b like -> (forall x y y', like y y' -> like (x ++ y) (x ++ y')) -> first_by (RSeq a b) like.
Proof.
  intros P O F C X s k x H. cbn [run] in H. apply run_lang_inv in H as (u & r1 & L1 & E1 & H); auto.
  apply F in H as (v & rest & L2 & E2 & H & B). cbn [after s_rest] in E2. subst r1. exists (u ++ v), rest.
  split; [constructor; auto|]. split; [rewrite <- app_assoc; auto|]. rewrite after_after in H. split; [auto|].
  intros w rest' Lw E Hn Hk. apply lang_seq_inv in Lw as (u' & v' & L1' & L2' & ->).
  assert (u' = u).
  { apply (O u' u v' v rest' rest); auto. rewrite <- E1, E, <- app_assoc. auto. }
  subst u'. apply C. apply (B v' rest'); auto.
  - cbn [after s_rest]. rewrite E1, <- app_assoc in E. apply app_inv_head in E. auto.
  - congruence.
  - rewrite after_after. auto.
Qed.

Lemma lang_set_star g p u : lang (RStar g (RSet p)) u <-> forallb p u = true.
Proof. apply lang_star_set. Qed.
Definition longer (u u' : str) : Prop := (length u' < length u)%nat.
Definition shorter (u u' : str) : Prop := (length u < length u')%nat.

Lemma first_star_g p : first_by (RStar true (RSet p)) longer.
Proof.
  intros X s k x H. change (star_g (run (RSet p)) (length (s_rest s)) s k = Some x) in H. revert H. generalize (le_n (length (s_rest s))).
  generalize (length (s_rest s)) at 2 3 as f. intros f; revert s.
  induction f as [|f IH]; intros s Hf H; cbn [star_g] in H.
  - exists [], (s_rest s). split; [constructor|]. split; [auto|]. rewrite after_nil. split; [auto|].
    intros u' rest' _ E Hn _. exfalso. destruct u'; [auto|]. rewrite E in Hf. cbn in Hf. lia.
  - destruct (run (RSet p) s _) as [y|] eqn:E.
    + inv H. cbn [run] in E. destruct (s_rest s) as [|c rest] eqn:Es; [discriminate|]. destruct (p c) eqn:Ep; [|discriminate].
      cbn [s_rest length] in E. destruct (Nat.ltb_spec (length rest) (S (length rest))); [|lia].
      apply IH in E as (u & r2 & L & E & H1 & B); [|cbn [s_rest]; rewrite ?Es in Hf; cbn in Hf; lia].
      cbn [s_rest] in E. subst rest. exists (c :: u), r2. split.
      { apply lang_set_star in L. apply lang_set_star. cbn. rewrite Ep. auto. }
      split; [auto|]. split.
      { rewrite <- H1. unfold after. cbn [s_prev s_caps]. rewrite <- last_or_cons. auto. }
      intros u' rest' L' E' Hn Hk. destruct u' as [|c' u']; [unfold longer; cbn; lia|]. inv E'.
      apply lang_set_star in L'. cbn in L'. rewrite Ep in L'. cbn in L'.
      assert (longer u u'). { apply (B u' rest'); [apply lang_set_star; auto|auto|congruence|].
        unfold after in *. cbn [s_prev s_caps] in *. rewrite <- last_or_cons in Hk. auto. }
      unfold longer in *. cbn. lia.
    + exists [], (s_rest s). split; [constructor|]. split; [auto|]. rewrite after_nil. split; [auto|].
      intros u' rest' L' E' Hn Hk. exfalso. destruct u' as [|c u']; [auto|].
      apply lang_set_star in L'. cbn in L'. apply andb_prop in L' as [Lc L']. cbn [run] in E. rewrite E' in E. cbn [app] in E.
      rewrite Lc in E. cbn [s_rest length] in E. destruct (Nat.ltb_spec (length (u' ++ rest')) (S (length (u' ++ rest')))); [|lia].
      assert (Hf' : (length (u' ++ rest') <= f)%nat) by (rewrite E' in Hf; cbn in Hf; lia).
      change (star_g (run (RSet p)) f (St (Some c) (u' ++ rest') (s_caps s)) k = None) in E.
      rewrite (star_g_fuel (RSet p) f (length (u' ++ rest'))) in E by (cbn; lia).
      assert (Hr : run (RStar true (RSet p)) (St (Some c) (u' ++ rest') (s_caps s)) k <> None).
      { apply (run_lang _ u' rest'); [apply lang_set_star; auto|auto|].
        unfold after in *. cbn [s_prev s_caps] in *. rewrite <- last_or_cons in Hk. auto. }
      apply Hr. exact E.
Qed.

Lemma first_star_l p : first_by (RStar false (RSet p)) shorter.
Proof.
  intros X s k x H. change (star_l (run (RSet p)) (length (s_rest s)) s k = Some x) in H. revert H. generalize (le_n (length (s_rest s))).
  generalize (length (s_rest s)) at 2 3 as f. intros f; revert s.
  induction f as [|f IH]; intros s Hf H; cbn [star_l] in H.
  - exists [], (s_rest s). split; [constructor|]. split; [auto|]. rewrite after_nil. split; [auto|].
    intros u' rest' _ E Hn _. exfalso. destruct u'; [auto|]. rewrite E in Hf. cbn in Hf. lia.
  - destruct (k s) as [y|] eqn:Ek.
    + inv H. exists [], (s_rest s). split; [constructor|]. split; [auto|]. rewrite after_nil. split; [auto|].
      intros u' rest' _ E' Hn _. destruct u'; [congruence|]. unfold shorter. cbn. lia.
    + cbn [run] in H. destruct (s_rest s) as [|c rest] eqn:Es; [discriminate|]. destruct (p c) eqn:Ep; [|discriminate].
      cbn [s_rest length] in H. destruct (Nat.ltb_spec (length rest) (S (length rest))); [|lia].
      apply IH in H as (u & r2 & L & E & H1 & B); [|cbn [s_rest]; rewrite ?Es in Hf; cbn in Hf; lia].
      cbn [s_rest] in E. subst rest. exists (c :: u), r2. split.
      { apply lang_set_star in L. apply lang_set_star. cbn. rewrite Ep. auto. }
      split; [auto|]. split.
      { rewrite <- H1. unfold after. cbn [s_prev s_caps]. rewrite <- last_or_cons. auto. }
      intros u' rest' L' E' Hn Hk. destruct u' as [|c' u'].
      { exfalso. cbn [app] in E'. rewrite <- E', <- Es, after_nil in Hk. congruence. }
      inv E'. apply lang_set_star in L'. cbn in L'. rewrite Ep in L'. cbn in L'.
      assert (shorter u u'). { apply (B u' rest'); [apply lang_set_star; auto|auto|congruence|].
        unfold after in *. cbn [s_prev s_caps] in *. rewrite <- last_or_cons in Hk. auto. }
      unfold shorter in *. cbn. lia.
Qed.

Lemma first_upto n p : first_by (RUpTo n (RSet p)) longer.
Proof.
  induction n as [|n IH]; cbn [RUpTo].
  - apply first_unique; [exact I|]. apply one_length with (n := 0%nat). intros u L. apply lang_eps_inv in L. subst. auto.
  - assert (F : first_by (RSeq (RSet p) (RUpTo n (RSet p))) longer).
    { apply first_seq; auto; [exact I| |].
      - intros x x' y y' rest rest' Lx Lx' _ _ E. apply lang_set_inv in Lx as (c & _ & ->). apply lang_set_inv in Lx' as (d & _ & ->).
        inv E. auto.
      - unfold longer. intros x y y'. rewrite !app_length. lia. }
    intros X s k x H. unfold ROpt in H. change (match run (RSeq (RSet p) (RUpTo n (RSet p))) s k with Some y => Some y | None => k s end = Some x) in H.
    destruct (run (RSeq (RSet p) (RUpTo n (RSet p))) s k) as [y|] eqn:E.
    + inv H. apply F in E as (u & rest & L & Es & Hk & B). exists u, rest. split; [apply la_left; auto|]. split; [auto|]. split; [auto|].
      intros u' rest' L' E' Hn Hk'. apply lang_alt_inv in L' as [L'|L']; [eapply B; eauto|].
      apply lang_eps_inv in L'. subst u'. apply lang_seq_inv in L as (a & b & La & _ & ->). apply lang_set_inv in La as (c & _ & ->).
      unfold longer. cbn. lia.
    + exists [], (s_rest s). split; [apply la_right; constructor|]. split; [auto|]. rewrite after_nil. split; [auto|].
      intros u' rest' L' E' Hn Hk'. exfalso. apply lang_alt_inv in L' as [L'|L']; [|apply lang_eps_inv in L'; auto].
      apply (run_lang _ u' rest' s k L' E'); auto.
Qed.

Lemma first_string mn mx : first_by (c_regex (conv_string mn mx)) longer.
Proof.
  cbn [conv_string c_regex]. unfold string_re. apply first_seq.
  - apply plain_rep.
  - intros x x' y y' rest rest' Lx Lx' _ _ E. apply lang_rep_set in Lx as [Lx _]. apply lang_rep_set in Lx' as [Lx' _].
    apply app_len_inj in E as [-> _]; auto. congruence.
  - destruct mx; [apply first_upto|apply first_star_g].
  - unfold longer. intros x y y'. rewrite !app_length. lia.
Qed.
Lemma first_plus p : first_by (RPlus true (RSet p)) longer.
Proof.
  unfold RPlus. apply first_seq; [exact I| |apply first_star_g|].
  - intros x x' y y' rest rest' Lx Lx' _ _ E. apply lang_set_inv in Lx as (c & _ & ->). apply lang_set_inv in Lx' as (d & _ & ->).
    inv E. auto.
  - unfold longer. intros x y y'. rewrite !app_length. lia.
Qed.
Lemma first_path : first_by (c_regex conv_path) shorter.
Proof.
  cbn [conv_path c_regex]. apply first_seq; [exact I| |apply first_star_l|].
  - intros x x' y y' rest rest' Lx Lx' _ _ E. apply lang_set_inv in Lx as (c & _ & ->). apply lang_set_inv in Lx' as (d & _ & ->).
    inv E. auto.
  - unfold shorter. intros x y y'. rewrite !app_length. lia.
Qed.
Lemma first_float : first_by float_re longer.
Proof.
  unfold float_re. apply first_seq.
  - cbn. auto.
  - intros x x' y y' rest rest' Lx Lx' Ly Ly' E.
    assert (D : forall z, lang (RPlus true (RSet is_decimal)) z -> ~ In 46 z).
    { intros z Lz Hi. apply lang_int in Lz as [_ Lz]. rewrite forallb_forall in Lz. apply Lz in Hi. vm_compute in Hi. discriminate. }
    assert (C : forall z, lang (RSeq (RChr 46) (RPlus true (RSet is_decimal))) z -> exists w, z = 46 :: w).
    { intros z Lz. apply lang_seq_inv in Lz as (a & b & La & _ & ->). apply lang_set_inv in La as (c & Hc & ->).
      apply N.eqb_eq in Hc. subst c. cbn. eauto. }
    apply C in Ly as [w ->]. apply C in Ly' as [w' ->]. cbn [app] in E. apply (app_sep_inj 46 x x' (w ++ rest) (w' ++ rest')); auto.
  - apply first_seq; [exact I| |apply first_plus|].
    + intros x x' y y' rest rest' Lx Lx' _ _ E. apply lang_set_inv in Lx as (c & _ & ->). apply lang_set_inv in Lx' as (d & _ & ->).
      inv E. auto.
    + unfold longer. intros x y y'. rewrite !app_length. lia.
  - unfold longer. intros x y y'. rewrite !app_length. lia.
Qed.
Lemma first_uuid like : first_by (c_regex conv_uuid) like.
Proof.
  apply first_unique; [apply builtin_plain|]. apply one_length with (n := 36%nat). intros u L.
  apply lang_uuid in L as (a & b & c & d & e & -> & Ha & Hb & Hc & Hd & He & _). rewrite !app_length, Ha, Hb, Hc, Hd, He. auto.
Qed.
Lemma first_any items : first_by (c_regex (conv_any items)) (liked (Listed items)).
Proof.
  cbn [conv_any c_regex]. induction items as [|x items IH].
  - apply first_unique; [exact I|]. apply one_length with (n := 0%nat). intros u L. apply lang_eps_inv in L. subst. auto.
  - destruct items as [|y items].
    + apply first_unique; [apply plain_str|apply one_str].
    + change (any_re (x :: y :: items)) with (RAlt (RStr x) (any_re (y :: items))). intros X s k z H.
      change (match run (RStr x) s k with Some w => Some w | None => run (any_re (y :: items)) s k end = Some z) in H.
      destruct (run (RStr x) s k) as [w|] eqn:E.
      * inv H. apply run_lang_inv in E as (u & rest & L & Es & Hk); [|apply plain_str]. exists u, rest.
        split; [apply la_left; auto|]. split; [auto|]. split; [auto|]. apply lang_str in L. subst u.
        intros u' rest' _ _ Hn _. split; [auto|]. exists [], (y :: items). auto.
      * apply IH in H as (u & rest & L & Es & Hk & B). exists u, rest. split; [apply la_right; auto|]. split; [auto|]. split; [auto|].
        intros u' rest' L' E' Hn Hk'. assert (Hx : u' <> x).
        { intros ->. apply (run_lang (RStr x) x rest' s k); auto. apply lang_str. auto. }
        apply lang_alt_inv in L' as [L'|L']; [apply lang_str in L'; contradiction|].
        destruct (B u' rest' L' E' Hn Hk') as (Hd & a & b & Ei & Ha). split; [auto|]. exists (x :: a), b. rewrite Ei. split; [auto|].
        intros [Hi|Hi]; auto.
Qed.
Lemma built_in_first c h : built_in c h -> first_by (c_regex c) (liked h).
Proof.
  intros B. inv B.
  - apply first_string. - apply first_any. - apply first_path. - apply first_plus. - apply first_float. - apply first_uuid.
Qed.
Lemma built_in_plain c h : built_in c h -> plain (c_regex c).
Proof. pose proof builtin_plain as (A & B & C & D & E & F). intros H. inv H; auto. Qed.

(** ** The pieces of a route *)
Lemma run_pieces {X} l k ts u rest i s (kk : st -> option X) : plain_pieces l -> fills l ts u -> s_rest s = u ++ rest ->
  run k (St (last_or (s_prev s) u) rest (rev (number i ts) ++ s_caps s)) kk <> None -> run (pieces_re i l k) s kk <> None.
Proof.
  intros P F E H. destruct (run k _ kk) as [x|] eqn:Ek; [|congruence]. apply run_sound in Ek as (s' & M & Hk).
  apply (run_complete _ _ s'); [|congruence]. destruct s as [p t c]. cbn [s_rest s_prev s_caps] in *. apply pieces_matches; auto.
  exists ts, u, rest. auto.
Qed.
Lemma habits_plain l hs : Forall2 (fun v h => built_in (snd v) h) (piece_vars l) hs -> plain_pieces l.
Proof.
  intros B n c Hi. assert (Hv : In (n, c) (piece_vars l)). { unfold piece_vars. apply in_flat_map. exists (PVar n c). cbn. auto. }
  clear Hi. induction B as [|v h vs hs Bh B IH]; [destruct Hv|]. destruct Hv as [->|Hv]; auto. eapply built_in_plain; eauto.
Qed.
Lemma pieces_first {X} l k : forall hs, Forall2 (fun v h => built_in (snd v) h) (piece_vars l) hs -> forall i s (kk : st -> option X) x,
  run (pieces_re i l k) s kk = Some x ->
  exists ts u rest, fills l ts u /\ s_rest s = u ++ rest /\
    run k (St (last_or (s_prev s) u) rest (rev (number i ts) ++ s_caps s)) kk = Some x /\
    forall ts' u' rest', fills l ts' u' -> s_rest s = u' ++ rest' -> ts' <> ts ->
      run k (St (last_or (s_prev s) u') rest' (rev (number i ts') ++ s_caps s)) kk <> None ->
      better hs ts ts'.
Proof.
  induction l as [|[w|n c] l IH]; intros hs B i s kk x H; cbn [pieces_re] in H.
  - exists [], [], (s_rest s). split; [constructor|]. split; [auto|]. split; [cbn; rewrite st_eta; auto|].
    intros ts' u' rest' F _ Hn _. inv F. congruence.
  - cbn [piece_vars flat_map app] in B. fold (piece_vars l) in B.
    cbn [run] in H. apply run_lang_inv in H as (w' & rest & L & E & H); [|apply plain_str]. apply lang_str in L. subst w'.
    apply (IH hs) in H as (ts & u & rest' & F & Er & H & Bt); auto. cbn [after s_rest s_prev s_caps] in *. subst rest.
    exists ts, (w ++ u), rest'. split; [constructor; auto|]. split; [rewrite <- app_assoc; auto|]. rewrite last_or_app in H. split; [auto|].
    intros ts' u' r' F' E' Hn Hk. apply fills_static in F' as (u2 & F' & ->). apply (Bt ts' u2 r'); auto.
    + rewrite E, <- app_assoc in E'. apply app_inv_head in E'. auto.
    + rewrite last_or_app. auto.
  - cbn [piece_vars flat_map app] in B. fold (piece_vars l) in B. inversion B as [|v h vs hs' Bh B' E1 E2]; subst. cbn [snd] in Bh. clear B.
    assert (Pl : plain_pieces l) by (eapply habits_plain; eauto).
    cbn [run] in H. apply (built_in_first c h Bh) in H as (t & rest & L & E & H & Bt). unfold after in H, Bt. cbn [s_rest s_prev s_caps] in H, Bt.
    rewrite (consumed_app s (after s t rest) t E : consumed s (St _ rest _) = t) in H.
    apply (IH hs') in H as (ts & u & rest' & F & Er & H & Bs); auto. cbn [s_rest s_prev s_caps] in *. subst rest.
    exists (t :: ts), (t ++ u), rest'. split; [constructor; auto|]. split; [rewrite <- app_assoc; auto|].
    rewrite last_or_app in H. split; [cbn [number rev]; rewrite <- app_assoc; auto|].
    intros ts' u' r' F' E' Hn Hk. apply fills_var in F' as (t' & ts2 & u2 & L' & F' & -> & ->).
    rewrite <- app_assoc in E'. cbn [number rev] in Hk. rewrite <- app_assoc in Hk. cbn [app] in Hk.
    destruct (list_eq_dec N.eq_dec t' t) as [->|Ht].
    + apply be_later. apply (Bs ts2 u2 r'); auto.
      * rewrite E in E'. apply app_inv_head in E'. auto.
      * congruence.
      * rewrite last_or_app. auto.
    + apply be_here. apply (Bt t' (u2 ++ r')); auto.
      rewrite (consumed_app s (after s t' (u2 ++ r')) t' E' : consumed s (St _ (u2 ++ r') _) = t').
      apply (run_pieces l k ts2 u2 r'); auto. cbn [s_prev s_caps]. rewrite last_or_app. auto.
Qed.

(** ** The whole route *)
Lemma body_habits r hs : habits r hs -> Forall2 (fun v h => built_in (snd v) h) (piece_vars (body r)) hs.
Proof. unfold habits. rewrite body_vars. auto. Qed.
Lemma habits_plain_route r hs : habits r hs -> plain_route r.
Proof.
  intros B. assert (H : plain_pieces (body r)) by (eapply habits_plain, body_habits; eauto).
  split; intros n c Hi; apply (H n c); unfold body; apply in_or_app; [left; auto|right; right; auto].
Qed.
Lemma re_match_first r hs path m : habits r hs -> re_match (route_regex r) path = Some m ->
  exists ts slash, chosen r hs path ts slash /\ length ts = length (route_vars r) /\ s_caps m = route_caps r ts slash.
Proof.
  intros B H. pose proof (habits_plain_route r hs B) as P. unfold re_match, match_at in H. rewrite route_regex_eq in H.
  pose proof H as H0. apply (pieces_first _ _ hs) in H as (ts & u & rest & F & E & H & Bt); [|apply body_habits; auto].
  cbn [s_rest s_prev s_caps] in *.
  apply run_sound in H as (m' & M & Em). assert (m' = m) as -> by congruence.
  assert (Hm : matches (route_regex r) (St None path []) m).
  { rewrite route_regex_eq. apply pieces_matches; [apply body_plain; auto|]. exists ts, u, rest. auto. }
  assert (Hex : exists slash, up_to_newline (instance r ts slash) path /\ s_caps m = route_caps r ts slash).
  { clear Bt H0 Em. rewrite app_nil_r in M. subst path.
    apply suffix_matches in M as [(Hs & He & ->)|(Hs & Hp & slash & rest' & Hsl & -> & He & ->)].
    - apply at_end_cases in He. exists []. split; [|unfold route_caps; rewrite Hs; auto].
      apply up_to_nl. exists u, rest. split; [auto|]. split; [auto|].
      apply slashed_false in Hs as [H1 H2]. apply in_exact; auto. apply body_text. exists u. rewrite app_nil_r. auto.
    - apply at_end_cases in He. exists slash. split; [|unfold route_caps; rewrite Hs; auto].
      apply up_to_nl. exists (u ++ slash), rest'. split; [auto|]. rewrite <- app_assoc. split; [auto|]. apply in_slash; auto.
      + apply slashed_true; auto.
      + intros t Ht v ->. apply body_text in Ht as (u' & F' & E'). rewrite app_nil_r in E'. subst u'.
        rewrite (fills_fun _ _ _ _ F F') in Hp. apply Hp. apply last_or_none. eauto.
      + apply body_text. exists u. auto. }
  destruct Hex as (slash & I & Hc). exists ts, slash. split; [|split; [|auto]].
  2:{ rewrite (fills_count _ _ _ F). unfold var_count. rewrite body_vars. auto. }
  split; [auto|]. intros ts' slash' I' Hn.
  apply up_to_nl in I' as (p & nl & Hnl & -> & I'). apply at_end_cases in Hnl.
  inversion I' as [q Hl Hst T E1|slash2 q Hls Hsl Hf T E1]; subst; apply body_text in T as (u' & F' & ->).
  - apply (Bt ts' u' nl F'); auto; [rewrite app_nil_r; auto|].
    assert (Hs : slashed r = false) by (apply slashed_false; auto). rewrite app_nil_r.
    eapply run_complete; [apply suffix_matches; left; split; [exact Hs|]; split; [exact Hnl|reflexivity]|discriminate].
  - apply (Bt ts' u' (slash' ++ nl) F'); auto; [rewrite <- app_assoc; auto|].
    assert (Hs : slashed r = true) by (apply slashed_true; auto). rewrite app_nil_r.
    eapply run_complete; [apply suffix_matches; right; split; [exact Hs|]; split|discriminate].
    + intros Eq. apply last_or_none in Eq as (v & ->). apply (Hf (v ++ [47])) with (u := v); auto.
      apply body_text. exists (v ++ [47]). rewrite app_nil_r. auto.
    + exists slash', nl. split; [auto|]. split; [auto|]. split; [auto|reflexivity].
Qed.

Lemma liked_asym h t t' : liked h t t' -> ~ liked h t' t.
Proof.
  destruct h as [| |items]; cbn; try lia. intros (Hd & a & b & -> & Ha) (_ & a' & b' & E & Hb).
  revert a' E Hb. induction a as [|y a IH]; intros [|z a'] E Hb; cbn in *; inv E; auto.
  eapply IH; eauto.
Qed.
Lemma better_asym hs ts ts' : better hs ts ts' -> ~ better hs ts' ts.
Proof.
  induction 1 as [h hs t t' ts ts' L|h hs t ts ts' B IH]; intros B'; inv B'.
  - eapply liked_asym; eauto.
  - eapply liked_asym; eauto.
  - eapply liked_asym; eauto.
  - auto.
Qed.
Lemma slash_unique r ts slash slash' path : up_to_newline (instance r ts slash) path -> up_to_newline (instance r ts slash') path -> slash = slash'.
Proof.
  intros I I'. apply up_to_nl in I as (p & nl & Hnl & -> & I). apply up_to_nl in I' as (p' & nl' & Hnl' & E & I').
  assert (G : forall sl q, instance r ts sl q -> (sl = [] \/ sl = [47]) /\ exists u, fills (body r) ts u /\ q = u ++ sl).
  { intros sl q J. split; [eapply instance_slash; eauto|]. inv J; apply body_text; auto. }
  apply G in I as (Hs & u & F & ->). apply G in I' as (Hs' & u' & F' & ->). rewrite (fills_fun _ _ _ _ F F') in E.
  rewrite <- !app_assoc in E. apply app_inv_head in E.
  destruct Hs as [->| ->], Hs' as [->| ->], Hnl as [->| ->], Hnl' as [->| ->]; cbn in E; auto; discriminate.
Qed.
Lemma chosen_unique r hs path ts slash ts' slash' : chosen r hs path ts slash -> chosen r hs path ts' slash' -> ts = ts' /\ slash = slash'.
Proof.
  intros [I B] [I' B']. destruct (list_eq_dec (list_eq_dec N.eq_dec) ts ts') as [->|Hn].
  - split; [auto|]. eapply slash_unique; eauto.
  - exfalso. apply (better_asym hs ts ts'); eauto.
Qed.
Lemma chosen_exists r hs path ts slash : habits r hs -> up_to_newline (instance r ts slash) path ->
  exists ts' slash', chosen r hs path ts' slash'.
Proof.
  intros H I. destruct (re_match_complete r path ts slash (habits_plain_route _ _ H) I) as (m & Hm).
  destruct (re_match_first r hs path m H Hm) as (ts' & slash' & C & _). eauto.
Qed.
Lemma chosen_outcome rd r hs path ts slash : habits r hs -> r_build_only r = false -> NoDup (map fst (r_defaults r)) ->
  chosen r hs path ts slash ->
  (r_strict r = true -> r_leaf r = false -> slash = [] -> route_match rd r path = Ok MSlash) /\
  ((r_strict r = true -> r_leaf r = false -> slash = [47]) ->
     (forall vals, reads (route_vars r) ts vals ->
        exists d, route_match rd r path = Ok (if r_alias r && rd then MAlias d else MValues d) /\
          forall k, dget d k = match dget (r_defaults r) k with Some v => Some v | None => dget vals k end) /\
     (refuses (route_vars r) ts -> route_match rd r path = Ok MNone)).
Proof.
  intros H Hb Nd C. pose proof (habits_plain_route _ _ H) as P. destruct C as [I B].
  destruct (re_match_complete r path ts slash P I) as (m & Hm).
  destruct (re_match_first r hs path m H Hm) as (ts' & slash' & C' & Hl & Hc).
  destruct (chosen_unique r hs path ts slash ts' slash' (conj I B) C') as [<- <-].
  assert (Hs : slash = [] \/ slash = [47]). { destruct I as [J|(p & _ & J)]; eapply instance_slash; eauto. }
  rewrite (route_match_eq rd r path m ts slash P Hm Hc Hs Hb).
  assert (Hj : forall j, (j < length ts)%nat -> cap (route_caps r ts slash) (1 + j) = nth_error ts j) by (intros j Hj; apply route_caps_var; auto).
  split.
  - intros E1 E2 ->. unfold needs_slash. rewrite E1, E2. auto.
  - intros Hn. assert (needs_slash r slash = false) as ->.
    { unfold needs_slash. destruct (r_strict r), (r_leaf r); auto. rewrite Hn; auto. }
    split.
    + intros vals R. apply (convert_groups_spec _ _ 1 ts _ Hj Hl) in R. rewrite R. cbn [bind].
      exists (update_all vals (r_defaults r)). split; [destruct (r_alias r && rd); auto|]. intros k. apply update_all_get. auto.
    + intros R. apply (convert_groups_none _ _ 1 ts Hj Hl) in R. rewrite R. auto.
Qed.
