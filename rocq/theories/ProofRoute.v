(** Lemmas about route templates and routes. *)
From Coq Require Import Arith List NArith ZArith Bool Lia ZifyBool ZifyN ZifyNat.
From Verif Require Import PyStr PyStrFacts Regex RegexFacts Utf8 ModelUrls SpecUrls Utf8 Utf8Facts ProofUrls ModelRoute SpecRoute.
Import ListNotations.
Open Scope N_scope.
Ltac inv H := inversion H; subst; clear H.

Lemma st_eta s : St (s_prev s) (s_rest s) (s_caps s) = s.
Proof. destruct s; auto. Qed.

(** ** What a match of an expression looks like *)
Lemma m_eps s s' : matches REps s s' <-> s' = s.
Proof. split; [intros M; inv M; auto|intros ->; constructor]. Qed.
Lemma m_seq a b s s' : matches (RSeq a b) s s' <-> exists s1, matches a s s1 /\ matches b s1 s'.
Proof. split; [intros M; inv M; eauto|intros (s1 & A & B); econstructor; eauto]. Qed.
Lemma m_alt a b s s' : matches (RAlt a b) s s' <-> matches a s s' \/ matches b s s'.
Proof. split; [intros M; inv M; eauto|intros [A|B]; [apply MAltL|apply MAltR]; auto]. Qed.
Lemma m_group g a s s' : matches (RGroup g a) s s' <->
  exists s1, matches a s s1 /\ s' = St (s_prev s1) (s_rest s1) ((g, consumed s s1) :: s_caps s1).
Proof. split; [intros M; inv M; eauto|intros (s1 & A & ->); constructor; auto]. Qed.
Lemma m_set p s s' : matches (RSet p) s s' <->
  exists c rest, s_rest s = c :: rest /\ p c = true /\ s' = St (Some c) rest (s_caps s).
Proof. split; [intros M; inv M; eauto|intros (c & rest & A & B & ->); apply MSet; auto]. Qed.
Lemma m_chr c s s' : matches (RChr c) s s' <-> exists rest, s_rest s = c :: rest /\ s' = St (Some c) rest (s_caps s).
Proof.
  unfold RChr. rewrite m_set. split.
  - intros (d & rest & A & B & ->). apply N.eqb_eq in B as ->. eauto.
  - intros (rest & A & ->). exists c, rest. rewrite N.eqb_refl. auto.
Qed.
Lemma m_star_set g p s s' : matches (RStar g (RSet p)) s s' ->
  exists u rest, forallb p u = true /\ s_rest s = u ++ rest /\ s' = St (last_or (s_prev s) u) rest (s_caps s).
Proof.
  intros M. remember (RStar g (RSet p)) as r eqn:E. induction M; try discriminate; inv E.
  - exists [], (s_rest s). cbn. rewrite st_eta. auto.
  - destruct (IHM2 eq_refl) as (u & rest & Hu & Er & ->). apply m_set in M1 as (c & r1 & E1 & Hc & ->).
    cbn [s_rest s_caps s_prev] in *. exists (c :: u), rest. cbn [forallb]. rewrite Hu, Hc. split; [auto|]. split.
    + rewrite E1, Er. auto.
    + rewrite last_or_cons with (prev := s_prev s). auto.
Qed.
Lemma m_ident s s' : matches ident_re s s' ->
  exists u rest, identifier u /\ s_rest s = u ++ rest /\ s' = St (last_or (s_prev s) u) rest (s_caps s).
Proof.
  intros M. apply m_seq in M as (s1 & M1 & M2). apply m_set in M1 as (c & r1 & E1 & Hc & ->).
  apply m_star_set in M2 as (u & rest & Hu & Er & ->). cbn [s_rest s_caps s_prev] in *.
  exists (c :: u), rest. split; [|split].
  - exists c, u. split; [auto|]. split.
    + unfold id_start, is_ascii_alpha, is_ascii_upper, is_ascii_lower, between in Hc. unfold letter. lia.
    + intros d Hd. rewrite forallb_forall in Hu. specialize (Hu d Hd).
      unfold id_char, is_ascii_alnum, is_ascii_alpha, is_ascii_upper, is_ascii_lower, is_ascii_digit, between in Hu. unfold letter. lia.
  - rewrite E1, Er. auto.
  - rewrite last_or_cons with (prev := s_prev s). auto.
Qed.

(** ** parse_route *)
Definition conv_name (m : st) : str := match cap (s_caps m) 2 with Some (c :: r) => c :: r | _ => lit "default" end.
Definition conv_args (m : st) : option str := match cap (s_caps m) 3 with Some (c :: r) => Some (c :: r) | _ => None end.

Ltac lnorm := change (lit "):") with [41; 58]; repeat (cbn [app]; rewrite <- app_assoc); cbn [app]; reflexivity.
Ltac simp := cbn [s_rest s_caps s_prev] in *; subst.
Lemma route_re_sound s m : re_match route_re s = Some m ->
  exists st0 t, s = st0 ++ t ++ s_rest m /\ ~ In 60 st0 /\ group_or_nil m 1 = st0 /\
    written (Dynamic (conv_name m) (conv_args m) (group_or_nil m 4)) t.
Proof.
  intros H. apply run_sound in H as (m' & M & E). assert (m' = m) as -> by congruence. clear E.
  unfold route_re in M. apply m_seq in M as (s1 & M1 & M).
  apply m_group in M1 as (s1' & M1 & ->). apply m_star_set in M1 as (u & r1 & Hu & E1 & ->). simp.
  rewrite consumed_self in M.
  apply m_seq in M as (s2 & M2 & M). apply m_chr in M2 as (r2 & E2 & ->). simp.
  apply m_seq in M as (s3 & M3 & M). apply m_seq in M as (s4 & M4 & M5).
  apply m_group in M4 as (s4' & M4 & ->). apply m_ident in M4 as (v & r4 & Iv & E4 & ->).
  apply m_chr in M5 as (r5 & E5 & ->). simp.
  assert (Hu' : ~ In 60 u).
  { intros Hi. rewrite forallb_forall in Hu. apply Hu in Hi. discriminate. }
  replace (consumed s3 (St (last_or (s_prev s3) v) (62 :: r5) (s_caps s3))) with v
    by (symmetry; apply consumed_app; auto).
  apply m_alt in M3 as [M3|M3].
  - apply m_seq in M3 as (s6 & M6 & M3). apply m_group in M6 as (s6' & M6 & ->).
    apply m_ident in M6 as (c & r6 & Ic & E6 & ->). simp. rewrite consumed_self in M3.
    apply m_seq in M3 as (s7 & M7 & M8). apply m_chr in M8 as (r8 & E8 & ->). simp.
    destruct Ic as (c0 & cr & -> & Hc0 & Hcr).
    assert (Ic : identifier (c0 :: cr)) by (exists c0, cr; auto).
    apply m_alt in M7 as [M7|M7].
    + apply m_seq in M7 as (s9 & M9 & M7). apply m_chr in M9 as (r9 & E9 & ->). simp.
      apply m_seq in M7 as (s10 & M10 & M11). apply m_chr in M11 as (r11 & E11 & ->). simp.
      apply m_group in M10 as (s12 & M10 & ->). apply m_star_set in M10 as (a & r12 & Ha & E12 & ->). simp.
      rewrite consumed_self in *.
      exists u, ([60] ++ (c0 :: cr) ++ [40] ++ a ++ lit "):" ++ v ++ [62]).
      split; [|split; [auto|split; [reflexivity|]]].
      * lnorm.
      * destruct a as [|a0 ar].
        -- apply (wr_noargs (c0 :: cr) v Ic Iv).
        -- apply (wr_args (c0 :: cr) (a0 :: ar) v Ic Iv); [discriminate|].
           intros Hi. rewrite forallb_forall in Ha. apply Ha in Hi. discriminate.
    + apply m_eps in M7 as ->. simp. exists u, ([60] ++ (c0 :: cr) ++ [58] ++ v ++ [62]).
      split; [|split; [auto|split; [reflexivity|]]].
      * lnorm.
      * apply (wr_conv (c0 :: cr) v Ic Iv).
  - apply m_eps in M3 as ->. simp. exists u, ([60] ++ v ++ [62]).
    split; [|split; [auto|split; [reflexivity|]]].
    + lnorm.
    + apply (wr_plain v Iv).
Qed.

Lemma parse_loop_sound fuel : forall used s ps, parse_loop fuel used s = Ok ps ->
  renders ps s /\ NoDup (raw_vars ps) /\ forall v, In v (raw_vars ps) -> ~ In v used.
Proof.
  induction fuel as [|f IH]; intros used s ps; destruct s as [|x s]; cbn [parse_loop];
    try (intros E; inv E; split; [exists []; split; [constructor|auto]|split; [constructor|cbn; tauto]]).
  - discriminate.
  - set (s0 := x :: s) in *. destruct (re_match route_re s0) as [m|] eqn:Em.
    + apply route_re_sound in Em as (st0 & t & Es & H60 & Hg & Hw).
      fold (conv_name m). fold (conv_args m).
      destruct (existsb (eqs (group_or_nil m 4)) used) eqn:Eu; [discriminate|].
      destruct (parse_loop f (group_or_nil m 4 :: used) (s_rest m)) as [rest|e] eqn:Er; [|discriminate].
      cbn [bind]. intros E. inv E. apply IH in Er as ((ts & F & Ec) & Nd & Hd).
      assert (Hnu : ~ In (group_or_nil m 4) used).
      { intros Hi. assert (existsb (eqs (group_or_nil m 4)) used = true); [|congruence].
        apply existsb_exists. exists (group_or_nil m 4). rewrite eqs_refl. auto. }
      split; [|split].
      * destruct (group_or_nil m 1) as [|g gs] eqn:Eg; cbn [static_piece app] in *.
        -- exists (t :: ts). split; [constructor; auto|]. cbn [concat]. rewrite <- Ec. auto.
        -- exists ((g :: gs) :: t :: ts). split.
           ++ constructor; [constructor; [discriminate|auto]|]. constructor; auto.
           ++ cbn [concat]. rewrite <- Ec. auto.
      * destruct (group_or_nil m 1); cbn; constructor; auto; intros Hi; apply Hd in Hi; apply Hi; left; auto.
      * intros v Hv. assert (Hv' : v = group_or_nil m 4 \/ In v (raw_vars rest)).
        { destruct (group_or_nil m 1); cbn in Hv; destruct Hv; auto. }
        destruct Hv' as [->|Hv']; auto. apply Hd in Hv'. intros Hi. apply Hv'. right. auto.
    + destruct (mem 62 s0 || mem 60 s0) eqn:Eb; [discriminate|]. intros E. inv E.
      split; [|split; [constructor|cbn; tauto]].
      exists [s0]. split; [|cbn; rewrite app_nil_r; auto].
      constructor; [|constructor]. constructor; [discriminate|].
      apply orb_false_iff in Eb as [_ Eb]. apply mem_not_In in Eb. auto.
Qed.
Lemma parse_sound t ps : parse_route t = Ok ps -> renders ps t /\ NoDup (raw_vars ps).
Proof. intros H. apply parse_loop_sound in H as (A & B & _). auto. Qed.

(** The loop ends, and the only error is ValueError. *)
Lemma route_re_progress s m : re_match route_re s = Some m -> (length (s_rest m) < length s)%nat.
Proof.
  intros H. apply route_re_sound in H as (st0 & t & -> & _ & _ & Hw).
  rewrite !app_length. assert (0 < length t)%nat; [|lia]. inv Hw; rewrite app_length; cbn [length]; lia.
Qed.
Lemma parse_loop_error fuel : forall used s e, (length s <= fuel)%nat ->
  parse_loop fuel used s = Raise e -> e = ValueError.
Proof.
  induction fuel as [|f IH]; intros used s e Hl; destruct s as [|x s]; cbn [parse_loop]; try discriminate.
  - cbn in Hl. lia.
  - destruct (re_match route_re (x :: s)) as [m|] eqn:Em.
    + apply route_re_progress in Em. cbn [length] in *.
      destruct (existsb _ used); [intros E; inv E; auto|].
      destruct (parse_loop f (group_or_nil m 4 :: used) (s_rest m)) as [r|e'] eqn:Er; cbn [bind]; intros E; inv E.
      eapply IH; [|eauto]. lia.
    + destruct (mem 62 (x :: s) || mem 60 (x :: s)); intros E; inv E. auto.
Qed.
Lemma parse_error t e : parse_route t = Raise e -> e = ValueError.
Proof. apply parse_loop_error. lia. Qed.

(** Every readable template is parsed. *)
Lemma letter_start c : letter c -> id_start c = true.
Proof. unfold letter, id_start, is_ascii_alpha, is_ascii_upper, is_ascii_lower, between. lia. Qed.
Lemma letter_char c : letter c \/ 48 <= c <= 57 -> id_char c = true.
Proof. unfold letter, id_char, is_ascii_alnum, is_ascii_alpha, is_ascii_upper, is_ascii_lower, is_ascii_digit, between. lia. Qed.
Lemma ident_chars u c : identifier u -> In c u -> id_char c = true.
Proof. intros (d & r & -> & Hd & Hr) [->|H]; apply letter_char; auto. Qed.
Lemma run_ident {R} u prev rest caps (k : st -> option R) x :
  identifier u -> (forall c r, rest = c :: r -> id_char c = false) ->
  k (St (last_or prev u) rest caps) = Some x ->
  run ident_re (St prev (u ++ rest) caps) k = Some x.
Proof.
  intros (c & r & -> & Hc & Hr) Hrest Hk. unfold ident_re. cbn [app]. rewrite run_seq, run_set_ok by (apply letter_start; auto).
  apply run_star_set_g; auto.
  - apply forallb_forall. intros d Hd. apply letter_char. auto.
  - rewrite last_or_cons with (prev := prev). auto.
Qed.
Lemma not_ident_prefix c r u x rest : identifier c -> c ++ r = u ++ x :: rest ->
  (forall d, In d u -> id_char d = true) -> id_char x = false -> exists w, u = c ++ w /\ r = w ++ x :: rest.
Proof.
  intros Hc. revert u. assert (H : forall d, In d c -> id_char d = true) by (intros d; apply ident_chars; auto). clear Hc.
  induction c as [|d c IH]; intros u E Hu Hx.
  - exists u. auto.
  - destruct u as [|e u].
    + cbn in E. assert (d = x) by congruence. subst. rewrite (H x) in Hx; [discriminate|left; auto].
    + cbn [app] in E. assert (d = e) by congruence. subst e. assert (E2 : c ++ r = u ++ x :: rest) by congruence.
      destruct (IH (fun a Ha => H a (or_intror Ha)) u E2 (fun a Ha => Hu a (or_intror Ha)) Hx) as (w & -> & ->). exists w. auto.
Qed.

Lemma route_re_none s : ~ In 60 s -> re_match route_re s = None.
Proof.
  intros H. destruct (re_match route_re s) as [m|] eqn:E; auto.
  apply route_re_sound in E as (st0 & t & -> & _ & _ & Hw). exfalso. apply H.
  apply in_or_app. right. apply in_or_app. left. inv Hw; left; auto.
Qed.

Lemma run_tail {R} v prev rest caps (k : st -> option R) x :
  identifier v ->
  k (St (Some 62) rest ((4%nat, v) :: caps)) = Some x ->
  run (RSeq (RGroup 4 ident_re) (RChr 62)) (St prev (v ++ 62 :: rest) caps) k = Some x.
Proof.
  intros Iv Hk. rewrite run_seq, run_group. apply run_ident; auto.
  - intros c r E. inv E. reflexivity.
  - cbn [s_prev s_rest s_caps]. rewrite consumed_self, run_chr. auto.
Qed.
Lemma run_group_ident {R} g u prev rest caps (k : st -> option R) x :
  identifier u -> (forall c r, rest = c :: r -> id_char c = false) ->
  k (St (last_or prev u) rest ((g, u) :: caps)) = Some x ->
  run (RGroup g ident_re) (St prev (u ++ rest) caps) k = Some x.
Proof.
  intros Iu Hr Hk. rewrite run_group. apply run_ident; auto. cbn [s_prev s_rest s_caps]. rewrite consumed_self. auto.
Qed.
(** what follows the static text *)
Definition dyn_re : re := RSeq (RChr 60) (RSeq (ROpt conv_prefix_re) (RSeq (RGroup 4 ident_re) (RChr 62))).
Lemma run_static {R} u prev t caps (k : st -> option R) x : ~ In 60 u ->
  run dyn_re (St (last_or prev u) (60 :: t) ((1%nat, u) :: caps)) k = Some x ->
  run route_re (St prev (u ++ 60 :: t) caps) k = Some x.
Proof.
  intros Hu Hk. unfold route_re. fold dyn_re. rewrite run_seq, run_group. apply run_star_set_g.
  - apply forallb_forall. intros c Hc. apply negb_true_iff. apply N.eqb_neq. intros ->. auto.
  - intros c r E. inv E. reflexivity.
  - cbn [s_prev s_rest s_caps]. rewrite consumed_self. auto.
Qed.
Lemma dyn_plain v prev rest caps : identifier v ->
  run dyn_re (St prev ((60 :: v ++ [62]) ++ rest) caps) Some = Some (St (Some 62) rest ((4%nat, v) :: caps)).
Proof.
  intros Iv. unfold dyn_re. cbn [app]. rewrite run_seq, run_chr, run_seq, run_opt_miss.
  - rewrite <- app_assoc. apply run_tail; auto.
  - match goal with |- run ?a ?s ?k = None => destruct (run a s k) as [x|] eqn:E; auto end.
    exfalso. apply run_sound in E as (s1 & M & _). unfold conv_prefix_re in M.
    apply m_seq in M as (s2 & M2 & M). apply m_group in M2 as (s2' & M2 & ->).
    apply m_ident in M2 as (c & r & Ic & E & ->). cbn [s_rest] in E.
    rewrite <- app_assoc in E. cbn [app] in E. symmetry in E. apply not_ident_prefix in E as (w & Ew & Er); auto.
    2: intros d; apply ident_chars; auto.
    apply m_seq in M as (s3 & M3 & M4). apply m_chr in M4 as (r4 & E4 & ->).
    apply m_alt in M3 as [M3|M3].
    + apply m_seq in M3 as (s5 & M5 & _). apply m_chr in M5 as (r5 & E5 & _). cbn [s_rest] in E5.
      rewrite Er in E5. destruct w as [|a w]; [discriminate|]. assert (a = 40) by (cbn in E5; congruence). subst a.
      assert (id_char 40 = true) as X; [|discriminate]. apply ident_chars with (u := v); auto. rewrite Ew. apply in_or_app. right. left. auto.
    + apply m_eps in M3 as ->. cbn [s_rest] in E4.
      rewrite Er in E4. destruct w as [|a w]; [discriminate|]. assert (a = 58) by (cbn in E4; congruence). subst a.
      assert (id_char 58 = true) as X; [|discriminate]. apply ident_chars with (u := v); auto. rewrite Ew. apply in_or_app. right. left. auto.
Qed.
Lemma dyn_conv c v prev rest caps : identifier c -> identifier v ->
  run dyn_re (St prev ((60 :: c ++ 58 :: v ++ [62]) ++ rest) caps) Some =
  Some (St (Some 62) rest ((4%nat, v) :: (2%nat, c) :: caps)).
Proof.
  intros Ic Iv. unfold dyn_re. cbn [app]. rewrite run_seq, run_chr, run_seq. apply run_opt_hit.
  unfold conv_prefix_re. rewrite run_seq, <- app_assoc. apply run_group_ident; auto.
  - intros x r E. inv E. reflexivity.
  - rewrite run_seq, run_opt_miss.
    + cbn [app]. rewrite run_chr, <- app_assoc. apply run_tail; auto.
    + rewrite run_seq. apply run_chr_no. intros r. discriminate.
Qed.
Lemma dyn_args c a v prev rest caps : identifier c -> identifier v -> ~ In 10 a -> ~ In 41 a ->
  run dyn_re (St prev ((60 :: c ++ 40 :: a ++ 41 :: 58 :: v ++ [62]) ++ rest) caps) Some =
  Some (St (Some 62) rest ((4%nat, v) :: (3%nat, a) :: (2%nat, c) :: caps)).
Proof.
  intros Ic Iv H10 H41. unfold dyn_re. cbn [app]. rewrite run_seq, run_chr, run_seq. apply run_opt_hit.
  unfold conv_prefix_re. rewrite run_seq, <- app_assoc. apply run_group_ident; auto.
  - intros x r E. inv E. reflexivity.
  - rewrite run_seq. apply run_opt_hit. cbn [app]. rewrite run_seq, run_chr, run_seq, run_group, <- app_assoc.
    apply run_star_set_l.
    + apply forallb_forall. intros x Hx. apply negb_true_iff, N.eqb_neq. intros ->. auto.
    + intros a1 x b ->. cbn [s_prev s_rest s_caps]. apply run_chr_no. intros r E. inv E. apply H41, in_or_app. right. left. auto.
    + cbn [s_prev s_rest s_caps app]. rewrite consumed_self, run_chr, run_chr, <- app_assoc. apply run_tail; auto.
Qed.

Lemma written_run c a v t u rest : written (Dynamic c a v) t -> ~ In 60 u ->
  (forall x, a = Some x -> ~ In 41 x) ->
  exists m, re_match route_re (u ++ t ++ rest) = Some m /\ s_rest m = rest /\ group_or_nil m 1 = u /\
    group_or_nil m 4 = v /\ conv_name m = c /\ conv_args m = a.
Proof.
  intros W Hu Ha. inversion W as [|v' Iv E1 E2|c' v' Ic Iv E1 E2|c' v' Ic Iv E1 E2|c' a' v' Ic Iv An H10 E1 E2]; subst.
  - eexists. split.
    + cbn [app]. apply run_static; auto. apply (dyn_plain v); auto.
    + repeat split; reflexivity.
  - eexists. split.
    + cbn [app]. apply run_static; auto. apply (dyn_conv c v); auto.
    + destruct Ic as (x & r & -> & _). repeat split; reflexivity.
  - eexists. split.
    + cbn [app]. apply run_static; auto. apply (dyn_args c [] v); auto.
    + destruct Ic as (x & r & -> & _). repeat split; reflexivity.
  - eexists. split.
    + cbn [app]. apply run_static; auto. apply (dyn_args c a' v); auto.
    + destruct Ic as (x & r & -> & _). destruct a' as [|y a']; [congruence|]. repeat split; reflexivity.
Qed.

Lemma parse_loop_complete fuel : forall used ps t, (length t <= fuel)%nat ->
  renders ps t -> readable ps -> NoDup (raw_vars ps) -> (forall v, In v (raw_vars ps) -> ~ In v used) ->
  parse_loop fuel used t = Ok ps.
Proof.
  assert (Step : forall fuel used u c a v w t ps,
    (forall used ps t, (length t <= fuel)%nat -> renders ps t -> readable ps -> NoDup (raw_vars ps) ->
       (forall v, In v (raw_vars ps) -> ~ In v used) -> parse_loop fuel used t = Ok ps) ->
    (length (u ++ w ++ t) <= S fuel)%nat -> ~ In 60 u -> written (Dynamic c a v) w -> renders ps t ->
    readable (Dynamic c a v :: ps) -> NoDup (raw_vars (Dynamic c a v :: ps)) ->
    (forall x, In x (raw_vars (Dynamic c a v :: ps)) -> ~ In x used) ->
    parse_loop (S fuel) used (u ++ w ++ t) = Ok (static_piece u ++ Dynamic c a v :: ps)).
  { intros f used u c a v w t ps IH Hl Hu W R Rd Nd Hd.
    destruct (written_run c a v w u t W Hu) as (m & Em & Er & E1 & E4 & Ec & Ea).
    { intros x ->. cbn [readable] in Rd. tauto. }
    cbn [parse_loop]. destruct (u ++ w ++ t) as [|x s] eqn:Es.
    { apply app_eq_nil in Es as [-> Es]. apply app_eq_nil in Es as [-> _]. inv W. }
    rewrite Em. fold (conv_name m). fold (conv_args m). rewrite E4, E1, Ec, Ea, Er.
    cbn [raw_vars flat_map app] in Nd, Hd. inversion Nd as [|y ys Hn Nd' E]; subst.
    assert (existsb (eqs (group_or_nil m 4)) used = false) as ->.
    { apply not_true_iff_false. intros Hex. apply existsb_exists in Hex as (y & Hy & Ey). apply eqs_eq in Ey. subst.
      apply (Hd (group_or_nil m 4)); [left; auto|auto]. }
    rewrite (IH (group_or_nil m 4 :: used) ps (s_rest m)); auto.
    - assert (length w > 0)%nat. { inv W; rewrite app_length; cbn [length]; lia. }
      rewrite <- Es in Hl. rewrite !app_length in Hl. lia.
    - cbn [readable] in Rd. destruct (conv_args m); tauto.
    - intros y Hy [E|Hi]; [subst y; auto|]. apply (Hd y); [right; auto|auto]. }
  induction fuel as [|f IH]; intros used ps t Hl (ts & F & ->) Rd Nd Hd.
  - assert (concat ts = []) as E by (destruct (concat ts); [auto|cbn in Hl; lia]). rewrite E. cbn [parse_loop].
    inversion F as [|p w ps' ts' W F' E1 E2]; subst; auto.
    cbn [concat] in E. apply app_eq_nil in E as [-> _]. inv W. congruence.
  - inversion F as [|p w ps' ts' W F' E1 E2]; subst; [reflexivity|].
    destruct p as [s|c a v].
    + inversion W as [s' Hs H60 E1 E2| | | |]; subst. cbn [concat] in *.
      destruct ps' as [|p2 ps'].
      * inv F'. cbn [concat]. rewrite app_nil_r. cbn [parse_loop]. destruct w as [|x w]; [congruence|].
        rewrite route_re_none by auto. cbn [readable] in Rd.
        assert (mem 62 (x :: w) = false) as -> by (apply mem_not_In; auto).
        assert (mem 60 (x :: w) = false) as -> by (apply mem_not_In; auto). reflexivity.
      * destruct p2 as [s2|c a v]; [cbn [readable] in Rd; tauto|].
        inversion F' as [|p w2 ps2 ts2 W2 F2 E1 E2]; subst. cbn [concat].
        rewrite (Step f used w c a v w2 (concat ts2) ps'); auto.
        -- destruct w; [congruence|reflexivity].
        -- exists ts2; auto.
    + cbn [concat]. change (w ++ concat ts') with ([] ++ w ++ concat ts').
      rewrite (Step f used [] c a v w (concat ts') ps'); auto. exists ts'; auto.
Qed.
Lemma parse_complete ps t : renders ps t -> readable ps -> NoDup (raw_vars ps) -> parse_route t = Ok ps.
Proof. intros R Rd Nd. apply parse_loop_complete; auto. Qed.

(** ** Converter languages and the engine *)
Lemma plain_matches r : plain r -> forall s s', matches r s s' ->
  exists u rest, lang r u /\ s_rest s = u ++ rest /\ s' = St (last_or (s_prev s) u) rest (s_caps s).
Proof.
  intros P s s' M. induction M; cbn [plain] in P; try contradiction.
  - exists [], (s_rest s). split; [constructor|]. cbn. rewrite st_eta. auto.
  - exists [c], rest. split; [constructor; auto|]. auto.
  - destruct P as [Pa Pb]. destruct (IHM1 Pa) as (u & r1 & L1 & E1 & ->). destruct (IHM2 Pb) as (v & r2 & L2 & E2 & ->).
    cbn [s_rest s_caps s_prev] in *. subst. exists (u ++ v), r2. split; [constructor; auto|].
    rewrite E1, app_assoc, last_or_app. auto.
  - destruct P as [Pa Pb]. destruct (IHM Pa) as (u & r1 & L1 & E1 & ->). exists u, r1. split; [apply la_left; auto|auto].
  - destruct P as [Pa Pb]. destruct (IHM Pb) as (u & r1 & L1 & E1 & ->). exists u, r1. split; [apply la_right; auto|auto].
  - exists [], (s_rest s). split; [constructor|]. cbn. rewrite st_eta. auto.
  - destruct (IHM1 P) as (u & r1 & L1 & E1 & ->). destruct (IHM2 P) as (v & r2 & L2 & E2 & ->).
    cbn [s_rest s_caps s_prev] in *. subst. exists (u ++ v), r2. split; [apply la_more; auto|].
    rewrite E1, app_assoc, last_or_app. auto.
Qed.
Lemma lang_matches r u : lang r u -> forall prev rest caps,
  matches r (St prev (u ++ rest) caps) (St (last_or prev u) rest caps).
Proof.
  intros L. induction L; intros prev rest caps.
  - constructor.
  - apply m_set. exists c, rest. cbn. auto.
  - apply m_seq. rewrite <- app_assoc. eexists. split; [apply IHL1|]. rewrite <- last_or_app. apply IHL2.
  - apply MAltL. auto.
  - apply MAltR. auto.
  - constructor.
  - destruct u as [|x u]; [apply IHL2|]. rewrite <- app_assoc.
    eapply MStarS; [apply IHL1| |rewrite <- last_or_app; apply IHL2].
    cbn [s_rest]. rewrite !app_length. cbn. lia.
Qed.

(** ** The expression of a route *)
Fixpoint number (i : nat) (ts : list str) : list (nat * str) :=
  match ts with [] => [] | t :: ts' => (i, t) :: number (S i) ts' end.
Definition var_count (l : list piece) : nat := length (piece_vars l).

Lemma fills_static w l ts u : fills (PStatic w :: l) ts u -> exists v, fills l ts v /\ u = w ++ v.
Proof. intros F. inv F. eauto. Qed.
Lemma fills_var n c l ts u : fills (PVar n c :: l) ts u ->
  exists t ts' v, lang (c_regex c) t /\ fills l ts' v /\ ts = t :: ts' /\ u = t ++ v.
Proof. intros F. inv F. eauto 8. Qed.
Lemma fills_count l ts u : fills l ts u -> length ts = var_count l.
Proof. unfold var_count, piece_vars. induction 1; cbn; auto. Qed.

Lemma str_matches w : forall prev s caps s', matches (RStr w) (St prev s caps) s' <->
  exists rest, s = w ++ rest /\ s' = St (last_or prev w) rest caps.
Proof.
  induction w as [|c w IH]; intros prev s caps s'; cbn [RStr].
  - rewrite m_eps. split; [intros ->; exists s; auto|intros (rest & -> & ->); auto].
  - rewrite m_seq. split.
    + intros (s1 & M1 & M2). apply m_chr in M1 as (r1 & E1 & ->). cbn [s_rest s_caps] in *. subst.
      apply IH in M2 as (rest & -> & ->). exists rest. rewrite last_or_cons with (prev := prev). auto.
    + intros (rest & -> & ->). exists (St (Some c) (w ++ rest) caps). split.
      * apply m_chr. exists (w ++ rest). auto.
      * apply IH. exists rest. rewrite last_or_cons with (prev := prev). auto.
Qed.

Lemma pieces_matches l k : plain_pieces l -> forall i prev s caps s',
  matches (pieces_re i l k) (St prev s caps) s' <->
  exists ts u rest, fills l ts u /\ s = u ++ rest /\
    matches k (St (last_or prev u) rest (rev (number i ts) ++ caps)) s'.
Proof.
  induction l as [|[w|n c] l IH]; intros P i prev s caps s'; cbn [pieces_re].
  - split.
    + intros M. exists [], [], s. split; [constructor|]. auto.
    + intros (ts & u & rest & F & -> & M). inv F. auto.
  - assert (P' : plain_pieces l) by (intros n0 c0 Hi; apply (P n0 c0); right; auto).
    rewrite m_seq. split.
    + intros (s1 & M1 & M2). apply str_matches in M1 as (rest & -> & ->).
      apply IH in M2 as (ts & u & rest' & F & -> & M); auto.
      exists ts, (w ++ u), rest'. split; [constructor; auto|]. rewrite <- app_assoc. split; [auto|].
      rewrite <- last_or_app. auto.
    + intros (ts & u & rest & F & -> & M). inv F. rewrite <- app_assoc. eexists. split.
      * apply str_matches. eexists. split; eauto.
      * apply IH; auto. exists ts, u0, rest. rewrite last_or_app. auto.
  - assert (P' : plain_pieces l) by (intros n0 c0 Hi; apply (P n0 c0); right; auto).
    assert (Pc : plain (c_regex c)) by (apply (P n c); left; auto).
    rewrite m_seq. split.
    + intros (s1 & M1 & M2). apply m_group in M1 as (s1' & M1 & ->).
      apply plain_matches in M1 as (t & rest & L & E & ->); auto. cbn [s_rest s_prev s_caps] in *. subst s.
      rewrite consumed_self in M2. apply IH in M2 as (ts & u & rest' & F & -> & M); auto.
      exists (t :: ts), (t ++ u), rest'. split; [constructor; auto|]. rewrite <- app_assoc. split; [auto|].
      rewrite <- last_or_app. cbn [number rev]. rewrite <- app_assoc. auto.
    + intros (ts & u & rest & F & -> & M). inv F. rewrite <- app_assoc. eexists. split.
      * apply m_group. eexists. split; [apply (lang_matches (c_regex c) t); auto|]. cbn [s_rest s_prev s_caps].
        rewrite consumed_self. reflexivity.
      * apply IH; auto. exists ts0, u0, rest. rewrite last_or_app. cbn [number rev] in M. rewrite <- app_assoc in M. auto.
Qed.

Lemma fills_app l1 l2 ts u : fills (l1 ++ l2) ts u <->
  exists ts1 ts2 u1 u2, fills l1 ts1 u1 /\ fills l2 ts2 u2 /\ ts = ts1 ++ ts2 /\ u = u1 ++ u2.
Proof.
  revert ts u. induction l1 as [|[w|n c] l1 IH]; intros ts u; cbn [app].
  - split.
    + intros F. exists [], ts, [], u. split; [constructor|auto].
    + intros (ts1 & ts2 & u1 & u2 & F1 & F2 & -> & ->). inv F1. auto.
  - split.
    + intros F. apply fills_static in F as (u' & F & ->). apply IH in F as (ts1 & ts2 & u1 & u2 & F1 & F2 & -> & ->).
      exists ts1, ts2, (w ++ u1), u2. split; [constructor; auto|]. rewrite <- app_assoc. auto.
    + intros (ts1 & ts2 & u1 & u2 & F1 & F2 & -> & ->). inv F1. rewrite <- app_assoc. constructor. apply IH. eauto 10.
  - split.
    + intros F. apply fills_var in F as (t & ts' & u' & L & F & -> & ->). apply IH in F as (ts1 & ts2 & u1 & u2 & F1 & F2 & -> & ->).
      exists (t :: ts1), ts2, (t ++ u1), u2. split; [constructor; auto|]. rewrite <- app_assoc. auto.
    + intros (ts1 & ts2 & u1 & u2 & F1 & F2 & -> & ->). inv F1. rewrite <- app_assoc. constructor; auto. apply IH. eauto 10.
Qed.
(** The whole text of a route, without the slash. *)
Definition body (r : route) : list piece := r_domain r ++ PStatic [124] :: r_path r.
Lemma body_text r ts path slash : route_text r ts slash path <-> exists u, fills (body r) ts u /\ path = u ++ slash.
Proof.
  unfold route_text, body. split.
  - intros (tsd & tsp & d & p & Fd & Fp & -> & ->). exists (d ++ [124] ++ p). split.
    + apply fills_app. exists tsd, tsp, d, ([124] ++ p). split; [auto|]. split; [constructor; auto|auto].
    + rewrite <- !app_assoc. auto.
  - intros (u & F & ->). apply fills_app in F as (ts1 & ts2 & u1 & u2 & F1 & F2 & -> & ->). inv F2.
    exists ts1, ts2, u1, u. rewrite <- !app_assoc. auto.
Qed.
Lemma fills_fun l : forall ts u v, fills l ts u -> fills l ts v -> u = v.
Proof.
  induction l as [|[w|n c] l IH]; intros ts u v F G; inv F; inv G; auto.
  - f_equal. eauto.
  - f_equal. eauto.
Qed.
Lemma body_plain r : plain_route r -> plain_pieces (body r).
Proof.
  intros [A B] n c H. unfold body in H. apply in_app_or in H as [H|[H|H]]; [eapply A; eauto|discriminate|eapply B; eauto].
Qed.

Lemma at_end_cases s : at_end s = true <-> s = [] \/ s = [10].
Proof.
  destruct s as [|c [|d s]]; cbn; split; auto; try (intros [H|H]; discriminate); try discriminate.
  - intros H. apply N.eqb_eq in H. subst. auto.
  - intros [H|H]; [discriminate|]. assert (c = 10) by congruence. subst. auto.
Qed.
Definition slashed (r : route) : bool := negb (r_leaf r) || negb (r_strict r).
(** What the suffix of the expression matches. *)
Lemma suffix_matches r prev s caps s' : matches (suffix_re r) (St prev s caps) s' <->
  (slashed r = false /\ at_end s = true /\ s' = St prev s caps) \/
  (slashed r = true /\ prev <> Some 47 /\ exists slash rest, (slash = [] \/ slash = [47]) /\
     s = slash ++ rest /\ at_end rest = true /\ s' = St (last_or prev slash) rest ((0%nat, slash) :: caps)).
Proof.
  unfold suffix_re. fold (slashed r). destruct (slashed r).
  - split.
    + intros M. right. apply m_seq in M as (s1 & M1 & M2). inv M1. cbn [s_prev] in *.
      split; [auto|split; [auto|]]. apply m_seq in M2 as (s2 & M2 & M3). apply m_group in M2 as (s3 & M2 & ->).
      inv M3. cbn [s_rest s_prev s_caps] in *. apply m_alt in M2 as [M2|M2].
      * apply m_chr in M2 as (rest & E & ->). cbn [s_rest s_prev s_caps] in *. subst s.
        exists [47], rest. split; [auto|]. split; [auto|]. split; [auto|].
        change (47 :: rest) with ([47] ++ rest). rewrite consumed_self. auto.
      * apply m_eps in M2 as ->. cbn [s_rest s_prev s_caps] in *. exists [], s. split; [auto|]. split; [auto|]. split; [auto|].
        change s with ([] ++ s) at 2. rewrite consumed_self. auto.
    + intros [(A & _)|(_ & Hp & slash & rest & Hs & -> & He & ->)]; [discriminate|].
      apply m_seq. eexists. split; [apply MNB; auto|]. apply m_seq. eexists. split.
      * apply m_group. exists (St (last_or prev slash) rest caps). split.
        -- apply m_alt. destruct Hs as [->| ->]; [right; constructor|left; apply m_chr; exists rest; auto].
        -- cbn [s_rest s_prev s_caps]. rewrite consumed_self. reflexivity.
      * constructor. auto.
  - split.
    + intros M. left. inv M. auto.
    + intros [(_ & He & ->)|(A & _)]; [|discriminate]. constructor. auto.
Qed.

(** Everything the expression of a route can match. *)
Definition route_caps (r : route) (ts : list str) (slash : str) : list (nat * str) :=
  (if slashed r then [(0%nat, slash)] else []) ++ rev (number 1 ts).
Lemma last_or_none u : last_or None u = Some 47 <-> exists v, u = v ++ [47].
Proof.
  unfold last_or. destruct (rev u) as [|c v] eqn:E.
  - split; [discriminate|]. intros (v & ->). rewrite rev_app_distr in E. discriminate.
  - assert (u = rev v ++ [c]) as -> by (rewrite <- (rev_involutive u), E; auto). split.
    + intros H. inv H. eauto.
    + intros (w & H). apply app_inj_tail in H as [_ ->]. auto.
Qed.

Lemma route_regex_eq r : route_regex r = pieces_re 1 (body r) (suffix_re r).
Proof. reflexivity. Qed.
Lemma slashed_true r : slashed r = true <-> r_leaf r = false \/ r_strict r = false.
Proof. unfold slashed. destruct (r_leaf r), (r_strict r); cbn; intuition discriminate. Qed.
Lemma slashed_false r : slashed r = false <-> r_leaf r = true /\ r_strict r = true.
Proof. unfold slashed. destruct (r_leaf r), (r_strict r); cbn; intuition discriminate. Qed.

Lemma route_matches_sound r path s' : plain_route r -> matches (route_regex r) (St None path []) s' ->
  exists ts slash nl p, (nl = [] \/ nl = [10]) /\ path = p ++ nl /\ instance r ts slash p /\
    length ts = var_count (body r) /\ s_caps s' = route_caps r ts slash.
Proof.
  intros P M. rewrite route_regex_eq in M. apply pieces_matches in M as (ts & u & rest & F & -> & M); [|apply body_plain; auto].
  rewrite app_nil_r in M. pose proof (fills_count _ _ _ F) as Hc.
  apply suffix_matches in M as [(Hs & He & ->)|(Hs & Hp & slash & rest' & Hsl & -> & He & ->)].
  - apply at_end_cases in He. exists ts, [], rest, u. split; [auto|]. split; [auto|]. split.
    + apply slashed_false in Hs as [H1 H2]. apply in_exact; auto. apply body_text. exists u. rewrite app_nil_r. auto.
    + split; [auto|]. unfold route_caps. rewrite Hs. auto.
  - apply at_end_cases in He. exists ts, slash, rest', (u ++ slash). split; [auto|]. rewrite <- app_assoc. split; [auto|]. split.
    + apply in_slash; auto.
      * apply slashed_true; auto.
      * intros t Ht v ->. apply body_text in Ht as (u' & F' & E). rewrite app_nil_r in E. subst u'.
        rewrite (fills_fun _ _ _ _ F F') in Hp. apply Hp. apply last_or_none. eauto.
      * apply body_text. exists u. auto.
    + split; [auto|]. unfold route_caps. rewrite Hs. auto.
Qed.
Lemma route_matches_complete r ts slash nl p : plain_route r -> nl = [] \/ nl = [10] -> instance r ts slash p ->
  exists s', matches (route_regex r) (St None (p ++ nl) []) s' /\ s_caps s' = route_caps r ts slash.
Proof.
  intros P Hnl I. apply at_end_cases in Hnl.
  inversion I as [path Hl Hst T E|slash' path Hls Hsl Hn T E]; subst; apply body_text in T as (u & F & ->).
  - assert (Hs : slashed r = false) by (apply slashed_false; auto). rewrite app_nil_r.
    exists (St (last_or None u) nl (rev (number 1 ts))). split.
    + rewrite route_regex_eq. apply pieces_matches; [apply body_plain; auto|]. exists ts, u, nl.
      split; [auto|]. split; [auto|]. rewrite app_nil_r. apply suffix_matches. left. auto.
    + unfold route_caps. rewrite Hs. auto.
  - assert (Hs : slashed r = true) by (apply slashed_true; auto).
    exists (St (last_or (last_or None u) slash) nl ((0%nat, slash) :: rev (number 1 ts))). split.
    + rewrite route_regex_eq. apply pieces_matches; [apply body_plain; auto|]. exists ts, u, (slash ++ nl).
      split; [auto|]. split; [rewrite <- app_assoc; auto|]. rewrite app_nil_r. apply suffix_matches. right.
      split; [auto|]. split.
      * intros E. apply last_or_none in E as (v & ->). apply (Hn (v ++ [47])) with (u := v); auto.
        apply body_text. exists (v ++ [47]). rewrite app_nil_r. auto.
      * exists slash, nl. auto.
    + unfold route_caps. rewrite Hs. auto.
Qed.
Lemma up_to_nl P path : up_to_newline P path <-> exists p nl, (nl = [] \/ nl = [10]) /\ path = p ++ nl /\ P p.
Proof.
  split.
  - intros [H|(p & -> & H)]; [exists path, []; rewrite app_nil_r; auto|exists p, [10]; auto].
  - intros (p & nl & [->| ->] & -> & H); [left; rewrite app_nil_r; auto|right; eauto].
Qed.

(** ** Reading the groups *)
Lemma cap_number ts : forall i j caps, (forall g x, In (g, x) caps -> (g < i)%nat \/ g = 0%nat) -> (0 < i)%nat -> (j < length ts)%nat ->
  cap (rev (number i ts) ++ caps) (i + j) = nth_error ts j.
Proof.
  induction ts as [|t ts IH]; intros i j caps Hc Hi Hj; cbn [length] in Hj; [lia|].
  cbn [number rev]. rewrite <- app_assoc. cbn [app]. destruct j as [|j].
  - clear IH. cbn [nth_error]. rewrite Nat.add_0_r.
    assert (G : forall l k, (i < k)%nat -> cap (rev (number k l) ++ (i, t) :: caps) i = Some t).
    { induction l as [|y l IH]; intros k Hk; cbn [number rev app].
      - cbn [cap]. rewrite Nat.eqb_refl. auto.
      - rewrite <- app_assoc. cbn [app].
        assert (G2 : forall m caps', cap (rev (number m l) ++ (k, y) :: caps') i = cap (rev (number m l) ++ caps') i).
        { intros m caps'. generalize (rev (number m l)). induction l0 as [|[g z] l0 IHl]; cbn [app cap].
          - destruct (Nat.eqb_spec i k); [lia|auto].
          - destruct (Nat.eqb i g); auto. }
        rewrite G2. apply IH. lia. }
    apply G. lia.
  - cbn [nth_error]. replace (i + S j)%nat with (S i + j)%nat by lia. apply IH; try lia.
    intros g x [E|Hx]; [assert (g = i) by congruence; subst; left; lia|]. apply Hc in Hx as [Hx|Hx]; lia.
Qed.
Lemma route_caps_var r ts slash j : (j < length ts)%nat -> cap (route_caps r ts slash) (S j) = nth_error ts j.
Proof.
  intros Hj. unfold route_caps. pose proof (cap_number ts 1 j [] ltac:(cbn; tauto) ltac:(lia) Hj) as H. rewrite app_nil_r in H.
  destruct (slashed r); cbn [app cap]; auto.
Qed.
Lemma convert_groups_spec caps vars : forall i ts res,
  (forall j, (j < length ts)%nat -> cap caps (i + j) = nth_error ts j) -> length ts = length vars ->
  convert_groups caps i vars = Ok (Some res) <-> reads vars ts res.
Proof.
  induction vars as [|[n c] vars IH]; intros i ts out Hc Hl; destruct ts as [|t ts]; try discriminate; cbn [convert_groups].
  - split; [intros E; inv E; constructor|intros R; inv R; auto].
  - pose proof (Hc 0%nat ltac:(cbn; lia)) as H0. rewrite Nat.add_0_r in H0. cbn [nth_error] in H0. rewrite H0.
    assert (Hc' : forall j, (j < length ts)%nat -> cap caps (S i + j) = nth_error ts j).
    { intros j Hj. replace (S i + j)%nat with (i + S j)%nat by lia. rewrite Hc by (cbn; lia). auto. }
    cbn [length] in Hl. assert (Hl' : length ts = length vars) by lia. split.
    + destruct (c_to_python c t) as [[v|]|e] eqn:Ec; cbn [bind]; try discriminate.
      destruct (convert_groups caps (S i) vars) as [[rest|]|e] eqn:Er; cbn [bind option_map]; try discriminate.
      intros E. inv E. constructor; auto. apply (IH (S i)); auto.
    + intros R. inv R. match goal with H : c_to_python c t = _ |- _ => rewrite H end. cbn [bind].
      match goal with H : reads vars ts ?d |- _ => apply (IH (S i) ts d Hc' Hl') in H; rewrite H end. auto.
Qed.
Lemma convert_groups_none caps vars : forall i ts,
  (forall j, (j < length ts)%nat -> cap caps (i + j) = nth_error ts j) -> length ts = length vars ->
  convert_groups caps i vars = Ok None <-> refuses vars ts.
Proof.
  induction vars as [|[n c] vars IH]; intros i ts Hc Hl; destruct ts as [|t ts]; try discriminate; cbn [convert_groups].
  - split; [discriminate|intros R; inv R].
  - pose proof (Hc 0%nat ltac:(cbn; lia)) as H0. rewrite Nat.add_0_r in H0. cbn [nth_error] in H0. rewrite H0.
    assert (Hc' : forall j, (j < length ts)%nat -> cap caps (S i + j) = nth_error ts j).
    { intros j Hj. replace (S i + j)%nat with (i + S j)%nat by lia. rewrite Hc by (cbn; lia). auto. }
    cbn [length] in Hl. assert (Hl' : length ts = length vars) by lia. specialize (IH (S i) ts Hc' Hl'). split.
    + destruct (c_to_python c t) as [[v|]|e] eqn:Ec; cbn [bind]; try discriminate.
      * destruct (convert_groups caps (S i) vars) as [[rest|]|e] eqn:Er; cbn [bind option_map]; try discriminate.
        intros _. eapply rf_later; eauto. apply IH. auto.
      * intros _. apply rf_here. auto.
    + intros R. inv R; match goal with H : c_to_python c t = _ |- _ => rewrite H end; auto. cbn [bind].
      match goal with H : refuses vars ts |- _ => apply IH in H; rewrite H end. auto.
Qed.

(** ** Route.match *)
Lemma body_vars r : piece_vars (body r) = route_vars r.
Proof. unfold route_vars, piece_vars, body. rewrite !flat_map_app. reflexivity. Qed.

Lemma update_all_get {V} (e : dict V) : forall d k, NoDup (map fst e) ->
  dget (update_all d e) k = match dget e k with Some v => Some v | None => dget d k end.
Proof.
  unfold update_all. induction e as [|[k' v'] e IH]; intros d k Nd; cbn [fold_left fst snd dget]; auto.
  inversion Nd as [|y ys Hn Nd' E]; subst. rewrite IH; auto. cbn [fst] in *.
  destruct (eqs k k') eqn:E.
  - apply eqs_eq in E. subst k'. assert (dget e k = None) as -> by (apply dget_none; auto). apply dget_dset_eq.
  - destruct (dget e k); auto. apply dget_dset_neq. apply eqs_neq in E. congruence.
Qed.

Lemma re_match_sound r path m : plain_route r -> re_match (route_regex r) path = Some m ->
  exists ts slash, up_to_newline (instance r ts slash) path /\ length ts = length (route_vars r) /\
    s_caps m = route_caps r ts slash.
Proof.
  intros P H. apply run_sound in H as (m' & M & E). assert (m' = m) as -> by congruence.
  apply route_matches_sound in M as (ts & slash & nl & p & Hnl & -> & I & Hl & Hc); auto.
  exists ts, slash. split; [apply up_to_nl; eauto 8|]. split; [|auto]. rewrite <- body_vars. auto.
Qed.
Lemma re_match_complete r path ts slash : plain_route r -> up_to_newline (instance r ts slash) path ->
  exists m, re_match (route_regex r) path = Some m.
Proof.
  intros P H. apply up_to_nl in H as (p & nl & Hnl & -> & I).
  destruct (route_matches_complete r ts slash nl p P Hnl I) as (s' & M & _).
  assert (run (route_regex r) (St None (p ++ nl) []) Some <> None) as H.
  { eapply run_complete; eauto. discriminate. }
  unfold re_match, match_at. destruct (run _ _ _); [eauto|congruence].
Qed.
Lemma cap0 r ts slash : slashed r = true -> cap (route_caps r ts slash) 0 = Some slash.
Proof. intros H. unfold route_caps. rewrite H. reflexivity. Qed.
Lemma instance_slash r ts slash p : instance r ts slash p -> slash = [] \/ slash = [47].
Proof. intros I. inv I; auto. Qed.

(** the outcome for given texts *)
Definition needs_slash (r : route) (slash : str) : bool := r_strict r && negb (r_leaf r) && is_nil slash.
Lemma route_match_eq rd r path m ts slash : plain_route r -> re_match (route_regex r) path = Some m ->
  s_caps m = route_caps r ts slash -> (slash = [] \/ slash = [47]) -> r_build_only r = false ->
  route_match rd r path =
    if needs_slash r slash then Ok MSlash
    else do g <- convert_groups (route_caps r ts slash) 1 (route_vars r);
         match g with
         | None => Ok MNone
         | Some d => let result := update_all d (r_defaults r) in
                     if r_alias r && rd then Ok (MAlias result) else Ok (MValues result)
         end.
Proof.
  intros P Hm Hc Hs Hb. unfold route_match. rewrite Hb, Hm, Hc.
  assert (r_strict r && negb (r_leaf r) && match cap (route_caps r ts slash) 0 with Some (_ :: _) => false | _ => true end
    = needs_slash r slash) as ->; [|reflexivity].
  unfold needs_slash. destruct (r_strict r); auto. destruct (r_leaf r) eqn:El; auto.
  rewrite cap0 by (apply slashed_true; auto). cbn. destruct Hs as [->| ->]; auto.
Qed.

Lemma route_match_sound rd r path res : plain_route r -> NoDup (map fst (r_defaults r)) ->
  route_match rd r path = Ok res ->
  match res with
  | MNone => True
  | MSlash => r_build_only r = false /\ r_strict r = true /\ r_leaf r = false /\
      exists ts, up_to_newline (instance r ts []) path
  | MAlias d | MValues d => r_build_only r = false /\
      exists ts slash vals, up_to_newline (instance r ts slash) path /\
        (r_strict r = true -> r_leaf r = false -> slash = [47]) /\
        reads (route_vars r) ts vals /\
        forall k, dget d k = match dget (r_defaults r) k with Some v => Some v | None => dget vals k end
  end.
Proof.
  intros P Nd. destruct (r_build_only r) eqn:Hb.
  { unfold route_match. rewrite Hb. intros E. inv E. auto. }
  destruct (re_match (route_regex r) path) as [m|] eqn:Hm.
  2:{ unfold route_match. rewrite Hb, Hm. intros E. inv E. auto. }
  destruct (re_match_sound _ _ _ P Hm) as (ts & slash & I & Hl & Hc).
  assert (Hs : slash = [] \/ slash = [47]). { destruct I as [I|(p & _ & I)]; eapply instance_slash; eauto. }
  rewrite (route_match_eq rd r path m ts slash P Hm Hc Hs Hb).
  destruct (needs_slash r slash) eqn:En.
  - intros E. inv E. unfold needs_slash in En. apply andb_prop in En as [En E3]. apply andb_prop in En as [E1 E2].
    split; [auto|]. split; [auto|]. split; [destruct (r_leaf r); auto|]. destruct slash; [|discriminate]. eauto.
  - destruct (convert_groups (route_caps r ts slash) 1 (route_vars r)) as [[g|]|e] eqn:Eg; cbn [bind]; [|intros E; inv E; auto|discriminate].
    apply (convert_groups_spec _ _ 1 ts) in Eg; auto.
    2:{ intros j Hj. apply route_caps_var. auto. }
    assert (G : forall d, d = update_all g (r_defaults r) -> false = false /\
      exists ts slash vals, up_to_newline (instance r ts slash) path /\
        (r_strict r = true -> r_leaf r = false -> slash = [47]) /\
        reads (route_vars r) ts vals /\
        forall k, dget d k = match dget (r_defaults r) k with Some v => Some v | None => dget vals k end).
    { intros d ->. split; [auto|]. exists ts, slash, g. split; [auto|]. split.
      - intros E1 E2. unfold needs_slash in En. rewrite E1, E2 in En. cbn in En. destruct Hs as [->|]; [discriminate|auto].
      - split; [auto|]. intros k. apply update_all_get. auto. }
    cbv zeta. destruct (r_alias r && rd); intros E; inv E; apply G; auto.
Qed.

Lemma route_match_none rd r path ts slash : plain_route r -> r_build_only r = false ->
  up_to_newline (instance r ts slash) path -> route_match rd r path = Ok MNone ->
  exists ts' slash', up_to_newline (instance r ts' slash') path /\ refuses (route_vars r) ts'.
Proof.
  intros P Hb I H. destruct (re_match_complete r path ts slash P I) as (m & Hm).
  destruct (re_match_sound _ _ _ P Hm) as (ts' & slash' & I' & Hl & Hc).
  assert (Hs : slash' = [] \/ slash' = [47]). { destruct I' as [J|(p & _ & J)]; eapply instance_slash; eauto. }
  rewrite (route_match_eq rd r path m ts' slash' P Hm Hc Hs Hb) in H.
  destruct (needs_slash r slash'); [discriminate|].
  destruct (convert_groups (route_caps r ts' slash') 1 (route_vars r)) as [[g|]|e] eqn:Eg; cbn [bind] in H; try discriminate.
  - cbv zeta in H. destruct (r_alias r && rd); discriminate.
  - exists ts', slash'. split; [auto|]. apply (convert_groups_none _ _ 1 ts') in Eg; auto. intros j Hj. apply route_caps_var. auto.
Qed.
Lemma route_match_no_instance rd r path : plain_route r ->
  (forall ts slash, ~ up_to_newline (instance r ts slash) path) -> route_match rd r path = Ok MNone.
Proof.
  intros P H. unfold route_match. destruct (r_build_only r); auto.
  destruct (re_match (route_regex r) path) as [m|] eqn:Hm; auto.
  destruct (re_match_sound _ _ _ P Hm) as (ts & slash & I & _). exfalso. eapply H; eauto.
Qed.

(** ** Unambiguous routes *)
Lemma app_sep_inj (x : N) a b u v : ~ In x a -> ~ In x b -> a ++ x :: u = b ++ x :: v -> a = b /\ u = v.
Proof.
  revert b. induction a as [|y a IH]; intros [|z b] Ha Hb E; cbn [app] in E.
  - inv E. auto.
  - inv E. exfalso. apply Hb. left. auto.
  - inv E. exfalso. apply Ha. left. auto.
  - assert (y = z) by congruence. subst z. assert (E' : a ++ x :: u = b ++ x :: v) by congruence.
    destruct (IH b) as [-> ->]; auto.
    + intros H. apply Ha. right. auto.
    + intros H. apply Hb. right. auto.
Qed.
Lemma separated_unique l : separated l -> forall ts ts' u, fills l ts u -> fills l ts' u -> ts = ts'.
Proof.
  intros S. induction S; intros ts ts' u F G.
  - inv F. inv G. auto.
  - apply fills_static in F as (v & F & ->). apply fills_static in G as (v' & G & E).
    apply app_inv_head in E. subst v'. eauto.
  - apply fills_var in F as (t & ts1 & v & L & F & -> & ->). apply fills_var in G as (t' & ts1' & v' & L' & G & -> & E).
    inv F. inv G. rewrite !app_nil_r in E. subst. auto.
  - apply fills_var in F as (t & ts1 & v & L & F & -> & ->). apply fills_var in G as (t' & ts1' & v' & L' & G & -> & E).
    apply fills_static in F as (v1 & F & ->). apply fills_static in G as (v1' & G & ->). cbn [app] in E.
    apply app_sep_inj in E as [-> E]; auto. apply app_inv_head in E. subst. f_equal. eauto.
Qed.
Lemma instance_unique r ts ts' slash slash' path : separated_route r ->
  instance r ts slash path -> instance r ts' slash' path -> ts = ts' /\ slash = slash'.
Proof.
  intros S I J. pose proof S as S'. unfold separated_route in S'. fold (body r) in S'.
  inversion I as [p1 Hl1 Hst1 T1 E1|s1 p1 Hls1 Hsl1 Hn1 T1 E1]; subst;
  inversion J as [p2 Hl2 Hst2 T2 E2|s2 p2 Hls2 Hsl2 Hn2 T2 E2]; subst;
    try (destruct Hls1; congruence); try (destruct Hls2; congruence).
  - apply body_text in T1 as (u & F & ->). apply body_text in T2 as (u' & F' & E). rewrite !app_nil_r in E. subst u'.
    split; [eapply separated_unique; eauto|auto].
  - apply body_text in T1 as (u & F & ->). apply body_text in T2 as (u' & F' & E).
    assert (N : forall (a b : str), a ++ [] = b ++ [47] -> a = b ++ [47]) by (intros a b H; rewrite app_nil_r in H; auto).
    assert (u = u' /\ slash = slash') as [-> ->].
    { destruct Hsl1 as [->| ->], Hsl2 as [->| ->].
      - rewrite !app_nil_r in E. auto.
      - apply N in E. exfalso. apply (Hn1 u) with (u := u'); auto. apply body_text. exists u. rewrite app_nil_r. auto.
      - symmetry in E. apply N in E. exfalso. apply (Hn2 u') with (u := u); auto. apply body_text. exists u'. rewrite app_nil_r. auto.
      - apply app_inj_tail in E as [-> _]. auto. }
    split; [eapply separated_unique; eauto|auto].
Qed.
(** For unambiguous routes the result is determined. *)
Lemma route_match_exact rd r path ts slash : plain_route r -> separated_route r -> r_build_only r = false ->
  (forall p, path <> p ++ [10]) -> instance r ts slash path ->
  route_match rd r path =
    if needs_slash r slash then Ok MSlash
    else do g <- convert_groups (route_caps r ts slash) 1 (route_vars r);
         match g with
         | None => Ok MNone
         | Some d => let result := update_all d (r_defaults r) in
                     if r_alias r && rd then Ok (MAlias result) else Ok (MValues result)
         end.
Proof.
  intros P S Hb Hnl I. destruct (re_match_complete r path ts slash P (or_introl I)) as (m & Hm).
  destruct (re_match_sound _ _ _ P Hm) as (ts' & slash' & [I'|(p & -> & I')] & Hl & Hc); [|exfalso; eapply Hnl; eauto].
  destruct (instance_unique _ _ _ _ _ _ S I I') as [-> ->].
  apply (route_match_eq rd r path m); auto. eapply instance_slash; eauto.
Qed.
Lemma route_match_values rd r path ts slash vals : plain_route r -> separated_route r -> r_build_only r = false ->
  (forall p, path <> p ++ [10]) -> instance r ts slash path -> reads (route_vars r) ts vals ->
  NoDup (map fst (r_defaults r)) ->
  (r_strict r = true -> r_leaf r = false -> slash = [47]) ->
  exists d, route_match rd r path = Ok (if r_alias r && rd then MAlias d else MValues d) /\
    forall k, dget d k = match dget (r_defaults r) k with Some v => Some v | None => dget vals k end.
Proof.
  intros P S Hb Hnl I R Nd Hs. rewrite (route_match_exact rd r path ts slash); auto.
  assert (needs_slash r slash = false) as ->.
  { unfold needs_slash. destruct (r_strict r) eqn:E1, (r_leaf r) eqn:E2; auto. rewrite Hs; auto. }
  assert (Hl : length ts = length (route_vars r)) by (clear -R; induction R; cbn; auto).
  apply (convert_groups_spec (route_caps r ts slash) _ 1 ts) in R; auto.
  2:{ intros j Hj. apply route_caps_var. auto. }
  rewrite R. cbn [bind]. cbv zeta. exists (update_all vals (r_defaults r)). split.
  - destruct (r_alias r && rd); auto.
  - intros k. apply update_all_get. auto.
Qed.

(** ** Matching a longer text *)
(** Expressions without anchors at the end. *)
Fixpoint open_re (r : re) : Prop :=
  match r with
  | REps | RSet _ | RNotBehind _ => True
  | RSeq a b | RAlt a b => open_re a /\ open_re b
  | RStar _ a | RGroup _ a => open_re a
  | REnd | REos => False
  end.
Lemma run_ext {R} r : forall s (k1 k2 : st -> option R), (forall s', k1 s' = k2 s') -> run r s k1 = run r s k2.
Proof.
  induction r; intros s k1 k2 H; cbn [run]; auto.
  - destruct (s_rest s); auto. destruct (p n); auto.
  - rewrite (IHr1 s k1 k2 H), (IHr2 s k1 k2 H). auto.
  - destruct greedy.
    + generalize (length (s_rest s)) as f. intros f. revert s. induction f as [|f IH]; intros s; cbn [star_g]; auto.
      rewrite (IHr s _ (fun s' => if (length (s_rest s') <? length (s_rest s))%nat then star_g (run r) f s' k2 else None)).
      * rewrite H. auto.
      * intros s'. destruct (_ <? _)%nat; auto.
    + generalize (length (s_rest s)) as f. intros f. revert s. induction f as [|f IH]; intros s; cbn [star_l]; auto.
      rewrite H. destruct (k2 s); auto. apply IHr. intros s'. destruct (_ <? _)%nat; auto.
  - destruct (at_end (s_rest s)); auto.
  - destruct (s_rest s); auto.
  - destruct (s_prev s) as [d|]; auto. destruct (d =? c); auto.
Qed.
Lemma run_none {R} r s (k : st -> option R) : (forall s', matches r s s' -> k s' = None) -> run r s k = None.
Proof.
  intros H. destruct (run r s k) eqn:E; auto. apply run_sound in E as (s' & M & E). rewrite (H s' M) in E. discriminate.
Qed.
Lemma star_g_fuel {R} r : forall f1 f2 s (k : st -> option R), (length (s_rest s) <= f1)%nat -> (length (s_rest s) <= f2)%nat ->
  star_g (run r) f1 s k = star_g (run r) f2 s k.
Proof.
  assert (Z : forall f s (k : st -> option R), length (s_rest s) = 0%nat -> star_g (run r) f s k = k s).
  { intros [|f] s k H; cbn [star_g]; auto. rewrite run_none; auto. intros s' _. rewrite H. auto. }
  induction f1 as [|f1 IH]; intros f2 s k H1 H2.
  - rewrite !Z by lia. auto.
  - destruct f2 as [|f2]; [rewrite !Z by lia; auto|]. cbn [star_g].
    rewrite (run_ext r s _ (fun s' => if (length (s_rest s') <? length (s_rest s))%nat then star_g (run r) f2 s' k else None)); auto.
    intros s'. destruct (Nat.ltb_spec (length (s_rest s')) (length (s_rest s))); auto. apply IH; lia.
Qed.
Lemma star_l_fuel {R} r : forall f1 f2 s (k : st -> option R), (length (s_rest s) <= f1)%nat -> (length (s_rest s) <= f2)%nat ->
  star_l (run r) f1 s k = star_l (run r) f2 s k.
Proof.
  assert (Z : forall f s (k : st -> option R), length (s_rest s) = 0%nat -> star_l (run r) f s k = k s).
  { intros [|f] s k H; cbn [star_l]; auto. destruct (k s); auto. rewrite run_none; auto. intros s' _. rewrite H. auto. }
  induction f1 as [|f1 IH]; intros f2 s k H1 H2.
  - rewrite !Z by lia. auto.
  - destruct f2 as [|f2]; [rewrite !Z by lia; auto|]. cbn [star_l].
    rewrite (run_ext r s _ (fun s' => if (length (s_rest s') <? length (s_rest s))%nat then star_l (run r) f2 s' k else None)); auto.
    intros s'. destruct (Nat.ltb_spec (length (s_rest s')) (length (s_rest s))); auto. apply IH; lia.
Qed.

Section Lift.
  Context {R R' : Type} (f : R -> R') (t : str) (Inv : st -> Prop).
  Definition lift (s : st) : st := St (s_prev s) (s_rest s ++ t) (s_caps s).
  (** [Inv] speaks about positions only and is kept when a character is consumed. *)
  Hypothesis inv_step : forall s c rest caps, Inv s -> s_rest s = c :: rest -> Inv (St (Some c) rest caps).
  Hypothesis inv_caps : forall s caps, Inv s -> Inv (St (s_prev s) (s_rest s) caps).

  Lemma inv_matches r s s' : matches r s s' -> Inv s -> Inv s'.
  Proof.
    induction 1; intros Hi; auto.
    - eapply inv_step; eauto.
  Qed.
  Lemma lift_consumed s s' : consumed (lift s) (lift s') = consumed s s'.
  Proof.
    unfold consumed, lift. cbn [s_rest]. rewrite !app_length.
    replace (length (s_rest s) + length t - (length (s_rest s') + length t))%nat with (length (s_rest s) - length (s_rest s'))%nat by lia.
    rewrite firstn_app. replace (length (s_rest s) - length (s_rest s') - length (s_rest s))%nat with 0%nat by lia.
    cbn. rewrite app_nil_r. auto.
  Qed.
  Definition short (s : st) : Prop := (length (s_rest s) < length t)%nat.
  Definition good (k : st -> option R) (k' : st -> option R') : Prop :=
    (forall s, Inv (lift s) -> k' (lift s) = option_map f (k s)) /\
    (forall s, Inv s -> short s -> k' s = None).

  Lemma short_run r k k' s : good k k' -> Inv s -> short s -> run r s k' = None.
  Proof.
    intros [_ H] Hi Hs. apply run_none. intros s' M. apply H.
    - eapply inv_matches; eauto.
    - apply matches_suffix in M as (u & E). unfold short in *. rewrite E, app_length in Hs. lia.
  Qed.
  Lemma run_lift r : open_re r -> forall s k k', good k k' -> Inv (lift s) ->
    run r (lift s) k' = option_map f (run r s k).
  Proof.
    induction r; intros O s k k' G Hi; cbn [open_re] in O; try contradiction; cbn [run].
    - apply G; auto.
    - destruct (s_rest s) as [|c rest] eqn:E.
      + cbn [lift s_rest]. rewrite E. cbn [app]. destruct t as [|c t'] eqn:Et; auto. destruct (p c) eqn:Ep; auto.
        cbn. apply G.
        * eapply inv_step; [exact Hi|]. unfold lift. cbn [s_rest]. rewrite E, Et. reflexivity.
        * unfold short. rewrite Et. cbn. lia.
      + cbn [lift s_rest s_caps]. rewrite E. cbn [app]. destruct (p c) eqn:Ep; auto.
        change (St (Some c) (rest ++ t) (s_caps s)) with (lift (St (Some c) rest (s_caps s))). apply G.
        unfold lift. cbn [s_prev s_rest s_caps]. eapply inv_step; [exact Hi|]. unfold lift. cbn [s_rest]. rewrite E. reflexivity.
    - destruct O as [O1 O2]. apply IHr1; auto. split.
      + intros s0 Hi0. apply IHr2; auto.
      + intros s0 Hi0 Hs0. eapply short_run; eauto.
    - destruct O as [O1 O2]. rewrite (IHr1 O1 s k k'), (IHr2 O2 s k k') by auto. destruct (run r1 s k); auto.
    - destruct greedy.
      + rewrite (star_g_fuel r _ (length (s_rest s) + length t) (lift s)) by (cbn [lift s_rest]; rewrite app_length; lia).
        rewrite (star_g_fuel r (length (s_rest s)) (length (s_rest s) + length t) s) by lia.
        generalize (length (s_rest s) + length t)%nat as n.
        assert (SH : forall n s, Inv s -> short s -> star_g (run r) n s k' = None).
        { induction n as [|n IHn]; intros s0 Hi0 Hs0; cbn [star_g]; [apply G; auto|].
          rewrite run_none; [apply G; auto|]. intros s' M. destruct (_ <? _)%nat; auto. apply IHn.
          - eapply inv_matches; eauto.
          - apply matches_suffix in M as (u & E). unfold short in *. rewrite E, app_length in Hs0. lia. }
        intros n. revert s Hi. induction n as [|n IHn]; intros s Hi; cbn [star_g]; [apply G; auto|].
        rewrite (IHr O s (fun s' => if (length (s_rest s') <? length (s_rest s))%nat then star_g (run r) n s' k else None)); auto.
        * destruct (run r s _); cbn [option_map]; auto. apply G; auto.
        * split.
          -- intros s0 Hi0. cbn [lift s_rest]. rewrite !app_length.
             replace (length (s_rest s0) + length t <? length (s_rest s) + length t)%nat with (length (s_rest s0) <? length (s_rest s))%nat.
             ++ destruct (_ <? _)%nat; auto.
             ++ destruct (Nat.ltb_spec (length (s_rest s0)) (length (s_rest s))), (Nat.ltb_spec (length (s_rest s0) + length t) (length (s_rest s) + length t)); auto; lia.
          -- intros s0 Hi0 Hs0. destruct (_ <? _)%nat; auto.
      + rewrite (star_l_fuel r _ (length (s_rest s) + length t) (lift s)) by (cbn [lift s_rest]; rewrite app_length; lia).
        rewrite (star_l_fuel r (length (s_rest s)) (length (s_rest s) + length t) s) by lia.
        generalize (length (s_rest s) + length t)%nat as n.
        assert (SH : forall n s, Inv s -> short s -> star_l (run r) n s k' = None).
        { induction n as [|n IHn]; intros s0 Hi0 Hs0; cbn [star_l]; [apply G; auto|].
          assert (k' s0 = None) as -> by (apply G; auto).
          apply run_none. intros s' M. destruct (_ <? _)%nat; auto. apply IHn.
          - eapply inv_matches; eauto.
          - apply matches_suffix in M as (u & E). unfold short in *. rewrite E, app_length in Hs0. lia. }
        intros n. revert s Hi. induction n as [|n IHn]; intros s Hi; cbn [star_l]; [apply G; auto|].
        rewrite (proj1 G s Hi). destruct (k s) eqn:Ek; cbn [option_map]; auto.
        apply (IHr O s (fun s' => if (length (s_rest s') <? length (s_rest s))%nat then star_l (run r) n s' k else None)); auto.
        split.
        * intros s0 Hi0. cbn [lift s_rest]. rewrite !app_length.
          replace (length (s_rest s0) + length t <? length (s_rest s) + length t)%nat with (length (s_rest s0) <? length (s_rest s))%nat.
          -- destruct (_ <? _)%nat; auto.
          -- destruct (Nat.ltb_spec (length (s_rest s0)) (length (s_rest s))), (Nat.ltb_spec (length (s_rest s0) + length t) (length (s_rest s) + length t)); auto; lia.
        * intros s0 Hi0 Hs0. destruct (_ <? _)%nat; auto.
    - apply (IHr O s (fun s' => k (St (s_prev s') (s_rest s') ((g, consumed s s') :: s_caps s')))); auto. split.
      + intros s0 Hi0. rewrite lift_consumed. cbn [lift s_prev s_rest s_caps].
        change (St (s_prev s0) (s_rest s0 ++ t) ((g, consumed s s0) :: s_caps s0))
          with (lift (St (s_prev s0) (s_rest s0) ((g, consumed s s0) :: s_caps s0))). apply G.
        apply (inv_caps (lift s0)). auto.
      + intros s0 Hi0 Hs0. apply G; [apply inv_caps; auto|auto].
    - cbn [lift s_prev]. destruct (s_prev s) as [d|].
      + destruct (d =? c); auto. apply G; auto.
      + apply G; auto.
  Qed.
End Lift.

Lemma pieces_open l k i : plain_pieces l -> open_re k -> open_re (pieces_re i l k).
Proof.
  assert (PO : forall r, plain r -> open_re r) by (induction r; cbn; tauto).
  revert i. induction l as [|[w|n c] l IH]; intros i P O; cbn [pieces_re]; auto.
  - cbn [open_re]. split.
    + clear. induction w; cbn; auto.
    + apply IH; auto. intros n0 c0 H. apply (P n0 c0). right. auto.
  - cbn [open_re]. split; [apply PO; apply (P n c); left; auto|].
    apply IH; auto. intros n0 c0 H. apply (P n0 c0). right. auto.
Qed.
Lemma pieces_run {R} l k : forall i s (kk : st -> option R),
  run (pieces_re i l k) s kk = run (pieces_re i l REps) s (fun s' => run k s' kk).
Proof.
  induction l as [|[w|n c] l IH]; intros i s kk; cbn [pieces_re]; auto.
  - cbn [run]. apply run_ext. intros s'. apply IH.
  - cbn [run]. apply run_ext. intros s'. apply IH.
Qed.

(** A strict branch route that matches a path without the slash matches the path with
    the slash, with the same groups. *)
Lemma re_match_slash r path m : plain_route r -> r_strict r = true -> r_leaf r = false ->
  (forall p, path <> p ++ [10]) -> (forall p, path <> p ++ [47]) ->
  re_match (route_regex r) path = Some m ->
  exists ts m', s_caps m = route_caps r ts [] /\
    re_match (route_regex r) (path ++ [47]) = Some m' /\ s_caps m' = route_caps r ts [47].
Proof.
  intros P Hst Hlf Hn Hsl Hm. unfold re_match, match_at in *. rewrite route_regex_eq in *. rewrite pieces_run in *.
  assert (Esuf : suffix_re r = RSeq (RNotBehind 47) (RSeq (RGroup 0 (ROpt (RChr 47))) REnd)).
  { unfold suffix_re. rewrite Hlf. reflexivity. }
  set (Inv := fun s : st => exists u, path ++ [47] = u ++ s_rest s /\ s_prev s = last_or None u).
  assert (Hi0 : Inv (lift [47] (St None path []))) by (exists []; auto).
  set (f := fun m : st => St (Some 47) [] ((0%nat, [47]) :: tl (s_caps m))).
  assert (G : good f [47] Inv (fun s' => run (suffix_re r) s' Some) (fun s' => run (suffix_re r) s' Some)).
  { rewrite Esuf. split.
    - intros s (u & Eu & Ep). unfold lift in *. cbn [s_rest s_prev s_caps] in *.
      rewrite app_assoc in Eu. apply app_inj_tail in Eu as [Eu _].
      cbn [run ROpt RChr s_rest s_prev s_caps lift].
      assert (Hnn : s_rest s <> [10] /\ s_rest s <> [47] /\ s_rest s <> [47; 10]).
      { split; [|split]; intros E; rewrite E in Eu.
        - apply (Hn u). auto.
        - apply (Hsl u). auto.
        - apply (Hn (u ++ [47])). rewrite Eu, <- app_assoc. auto. }
      destruct Hnn as (N1 & N2 & N3).
      assert (X : forall (b : option st), (match s_prev s with Some d => if d =? 47 then None else b | None => b end) =
        if (match s_prev s with Some d => d =? 47 | None => false end) then None else b).
      { intros b. destruct (s_prev s) as [d|]; auto. }
      rewrite !X. destruct (match s_prev s with Some d => d =? 47 | None => false end); auto.
      destruct (s_rest s) as [|c rest] eqn:Er.
      + cbn [app]. rewrite N.eqb_refl. cbn [at_end]. unfold f. cbn [option_map s_caps tl]. unfold consumed. cbn. auto.
      + cbn [app]. assert (at_end (c :: rest) = false) as E1.
        { apply not_true_iff_false. rewrite at_end_cases. intros [E|E]; [discriminate|congruence]. }
        assert (at_end (c :: rest ++ [47]) = false) as E2.
        { apply not_true_iff_false. rewrite at_end_cases. intros [E|E]; [discriminate|]. destruct rest; discriminate. }
        rewrite E1, E2. destruct (N.eqb_spec 47 c) as [<-|]; auto.
        assert (at_end rest = false) as E3.
        { apply not_true_iff_false. rewrite at_end_cases. intros [->| ->]; congruence. }
        assert (at_end (rest ++ [47]) = false) as E4.
        { apply not_true_iff_false. rewrite at_end_cases. destruct rest as [|d rest]; [congruence|].
          intros [E|E]; [discriminate|]. destruct rest; discriminate. }
        rewrite E3, E4. auto.
    - intros s (u & Eu & Ep) Hs. unfold short in Hs. cbn in Hs. destruct (s_rest s) as [|c rest] eqn:Er; [|cbn in Hs; lia].
      rewrite app_nil_r in Eu. cbn [run s_prev]. rewrite Ep, <- Eu. unfold last_or. rewrite rev_app_distr. reflexivity. }
  pose proof (run_lift f [47] Inv) as L.
  assert (S1 : forall s c rest caps, Inv s -> s_rest s = c :: rest -> Inv (St (Some c) rest caps)).
  { intros s c rest caps (u & Eu & Ep) E. exists (u ++ [c]). cbn [s_rest s_prev]. split.
    - rewrite Eu, E, <- app_assoc. auto.
    - unfold last_or. rewrite rev_app_distr. auto. }
  assert (S2 : forall s caps, Inv s -> Inv (St (s_prev s) (s_rest s) caps)) by (intros s caps H; exact H).
  specialize (L S1 S2 (pieces_re 1 (body r) REps) (pieces_open (body r) REps 1 (body_plain _ P) I) (St None path []) _ _ G Hi0).
  rewrite Hm in L. cbn [option_map] in L.
  assert (Hm2 : re_match (route_regex r) path = Some m).
  { unfold re_match, match_at. rewrite route_regex_eq, pieces_run. auto. }
  destruct (re_match_sound _ _ _ P Hm2) as (ts & slash & Iu & Hl & Hc).
  destruct Iu as [Iu|(p & -> & _)]; [|exfalso; eapply Hn; eauto].
  assert (slash = []) as ->.
  { destruct (instance_slash _ _ _ _ Iu) as [->| ->]; auto. inversion Iu as [|s1 p1 Hls1 Hsl1 Hn1 T1 E1]; subst.
    apply body_text in T1 as (u & _ & ->). exfalso. eapply Hsl; eauto. }
  exists ts, (f m). split; [auto|]. split; [exact L|]. unfold f. cbn [s_caps]. rewrite Hc. unfold route_caps.
  assert (slashed r = true) as -> by (apply slashed_true; auto). reflexivity.
Qed.

Lemma slash_redirect rd r path : plain_route r -> (forall p, path <> p ++ [10]) ->
  route_match rd r path = Ok MSlash ->
  exists ts, instance r ts [] path /\ instance r ts [47] (path ++ [47]) /\
    route_match rd r (path ++ [47]) =
      do g <- convert_groups (route_caps r ts []) 1 (route_vars r);
      match g with
      | None => Ok MNone
      | Some d => let result := update_all d (r_defaults r) in
                  if r_alias r && rd then Ok (MAlias result) else Ok (MValues result)
      end.
Proof.
  intros P Hn H. pose proof H as H'. unfold route_match in H'. destruct (r_build_only r) eqn:Hb; [discriminate|].
  destruct (re_match (route_regex r) path) as [m|] eqn:Hm; [|discriminate].
  destruct (r_strict r) eqn:Hst; destruct (r_leaf r) eqn:Hlf; cbn [andb negb] in H';
    try (exfalso; clear - H'; destruct (convert_groups (s_caps m) 1 (route_vars r)) as [[g|]|]; cbn [bind] in H'; try discriminate;
         cbv zeta in H'; destruct (r_alias r && rd); discriminate).
  assert (Hsl : forall p, path <> p ++ [47]).
  { intros p ->. destruct (re_match_sound _ _ _ P Hm) as (ts & slash & [I|(q & Eq & _)] & _ & Hc).
    - assert (Hs := instance_slash _ _ _ _ I). rewrite (route_match_eq rd r _ m ts slash P Hm Hc Hs Hb) in H.
      destruct Hs as [->| ->].
      + inversion I as [p1 Hl1|s1 p1 Hls1 Hsl1 Hn1 T1 E1]; subst; [congruence|]. eapply Hn1; eauto.
      + unfold needs_slash in H. cbn [is_nil] in H. rewrite andb_false_r in H.
        destruct (convert_groups (route_caps r ts [47]) 1 (route_vars r)) as [[g|]|]; cbn [bind] in H; try discriminate;
        cbv zeta in H; destruct (r_alias r && rd); discriminate.
    - apply app_inj_tail in Eq as [_ Eq]. discriminate. }
  destruct (re_match_slash r path m P Hst Hlf Hn Hsl Hm) as (ts & m' & Hc & Hm' & Hc').
  destruct (re_match_sound _ _ _ P Hm) as (ts1 & slash1 & [I1|(q & Eq & _)] & Hl1 & Hc1); [|exfalso; eapply Hn; eauto].
  assert (Hslashed : slashed r = true) by (apply slashed_true; auto).
  assert (length ts = length ts1 /\ ts = ts1 /\ slash1 = []) as (_ & -> & ->).
  { rewrite Hc1 in Hc. unfold route_caps in Hc. rewrite Hslashed in Hc. cbn [app] in Hc.
    assert (Hr : rev (number 1 ts1) = rev (number 1 ts)) by congruence. assert (Hs : slash1 = []) by congruence.
    assert (Hnum : number 1 ts1 = number 1 ts) by (rewrite <- (rev_involutive (number 1 ts1)), Hr, rev_involutive; auto).
    assert (ts1 = ts).
    { clear - Hnum. revert ts Hnum. generalize 1%nat. induction ts1 as [|a l IH]; intros n [|b ts] H; cbn in H; try discriminate; auto.
      assert (a = b) by congruence. subst. f_equal. apply (IH (S n)). congruence. }
    subst. auto. }
  exists ts1. split; [auto|]. split.
  - inversion I1 as [p1 Hl2|s1 p1 Hls1 Hsl1 Hn1 T1 E1]; subst; [congruence|]. apply in_slash; auto.
    apply body_text in T1 as (u & F & E). rewrite app_nil_r in E. subst u. apply body_text. eauto.
  - rewrite (route_match_eq rd r _ m' ts1 [47] P Hm' Hc' (or_intror eq_refl) Hb).
    unfold needs_slash. cbn [is_nil]. rewrite andb_false_r.
    assert (convert_groups (route_caps r ts1 [47]) 1 (route_vars r) = convert_groups (route_caps r ts1 []) 1 (route_vars r)) as ->; auto.
    assert (G : forall vars i, (0 < i)%nat -> convert_groups (route_caps r ts1 [47]) i vars = convert_groups (route_caps r ts1 []) i vars).
    { induction vars as [|[n c] vars IH]; intros i Hi; cbn [convert_groups]; auto.
      assert (cap (route_caps r ts1 [47]) i = cap (route_caps r ts1 []) i) as ->.
      { unfold route_caps. rewrite Hslashed. cbn [app cap]. destruct (Nat.eqb_spec i 0); [lia|auto]. }
      destruct (c_to_python c _) as [[v|]|]; cbn [bind]; auto. rewrite IH by lia. auto. }
    apply G. lia.
Qed.

(** ** Languages of the built-in converters *)
Lemma lang_seq_inv a b u : lang (RSeq a b) u -> exists x y, lang a x /\ lang b y /\ u = x ++ y.
Proof. intros L. inv L. eauto 8. Qed.
Lemma lang_set_inv p u : lang (RSet p) u -> exists c, p c = true /\ u = [c].
Proof. intros L. inv L. eauto. Qed.
Lemma lang_alt_inv a b u : lang (RAlt a b) u -> lang a u \/ lang b u.
Proof. intros L. inv L; auto. Qed.
Lemma lang_eps_inv u : lang REps u -> u = [].
Proof. intros L. inv L. auto. Qed.
Lemma lang_star_set g p u : lang (RStar g (RSet p)) u <-> forallb p u = true.
Proof.
  split.
  - intros L. remember (RStar g (RSet p)) as r eqn:E. induction L; try discriminate; auto.
    inv E. apply lang_set_inv in L1 as (c & Hc & ->). cbn. rewrite Hc, IHL2; auto.
  - induction u as [|c u IH]; cbn; intros H; [constructor|]. apply andb_prop in H as [Hc Hu].
    change (c :: u) with ([c] ++ u). apply la_more; [constructor; auto|auto].
Qed.
Lemma lang_rep_set n p u : lang (RRep n (RSet p)) u <-> length u = n /\ forallb p u = true.
Proof.
  revert u. induction n as [|n IH]; intros u; cbn [RRep].
  - split; [intros L; apply lang_eps_inv in L as ->; auto|]. intros [H _]. destruct u; [constructor|discriminate].
  - split.
    + intros L. apply lang_seq_inv in L as (x & y & L1 & L2 & ->). apply lang_set_inv in L1 as (c & Hc & ->).
      apply IH in L2 as [Hl Hf]. cbn. rewrite Hc, Hl, Hf. auto.
    + intros [Hl Hf]. destruct u as [|c u]; [discriminate|]. cbn in Hl, Hf. apply andb_prop in Hf as [Hc Hf].
      change (c :: u) with ([c] ++ u). constructor; [constructor; auto|]. apply IH. split; [lia|auto].
Qed.
Lemma lang_upto_set n p u : lang (RUpTo n (RSet p)) u <-> (length u <= n)%nat /\ forallb p u = true.
Proof.
  revert u. induction n as [|n IH]; intros u; cbn [RUpTo].
  - split; [intros L; apply lang_eps_inv in L as ->; auto|]. intros [H _]. destruct u; [constructor|cbn in H; lia].
  - split.
    + intros L. apply lang_alt_inv in L as [L|L].
      * apply lang_seq_inv in L as (x & y & L1 & L2 & ->). apply lang_set_inv in L1 as (c & Hc & ->).
        apply IH in L2 as [Hl Hf]. cbn. rewrite Hc, Hf. split; [lia|auto].
      * apply lang_eps_inv in L as ->. cbn. split; [lia|auto].
    + intros [Hl Hf]. destruct u as [|c u]; [apply la_right; constructor|]. cbn in Hl, Hf. apply andb_prop in Hf as [Hc Hf].
      apply la_left. change (c :: u) with ([c] ++ u). constructor; [constructor; auto|]. apply IH. split; [lia|auto].
Qed.
Lemma no_slash u : forallb not_slash u = true <-> ~ In 47 u.
Proof.
  unfold not_slash. rewrite forallb_forall. split.
  - intros H Hi. apply H in Hi. discriminate.
  - intros H x Hx. apply negb_true_iff, N.eqb_neq. intros ->. auto.
Qed.
Lemma lang_string mn mx u : (forall m, mx = Some m -> (mn <= m)%nat) ->
  lang (string_re mn mx) u <-> ~ In 47 u /\ (mn <= length u)%nat /\ forall m, mx = Some m -> (length u <= m)%nat.
Proof.
  intros Hm. unfold string_re. split.
  - intros L. apply lang_seq_inv in L as (x & y & L1 & L2 & ->). apply lang_rep_set in L1 as [Hl Hf].
    rewrite app_length. destruct mx as [m|].
    + apply lang_upto_set in L2 as [Hl2 Hf2]. specialize (Hm m eq_refl). split; [|split].
      * apply no_slash. rewrite forallb_app, Hf, Hf2. auto.
      * lia.
      * intros m' E. inv E. lia.
    + apply lang_star_set in L2. split; [|split].
      * apply no_slash. rewrite forallb_app, Hf, L2. auto.
      * lia.
      * discriminate.
  - intros (Hs & H1 & H2). apply no_slash in Hs. rewrite <- (firstn_skipn mn u) in *. rewrite forallb_app in Hs.
    apply andb_prop in Hs as [Ha Hb]. rewrite firstn_skipn in H1, H2. constructor.
    + apply lang_rep_set. split; [apply firstn_length_le; auto|auto].
    + destruct mx as [m|].
      * apply lang_upto_set. split; [|auto]. rewrite skipn_length. specialize (H2 m eq_refl). lia.
      * apply lang_star_set. auto.
Qed.
Lemma lang_str w u : lang (RStr w) u <-> u = w.
Proof.
  revert u. induction w as [|c w IH]; intros u; cbn [RStr].
  - split; [apply lang_eps_inv|intros ->; constructor].
  - split.
    + intros L. apply lang_seq_inv in L as (x & y & L1 & L2 & ->). apply lang_set_inv in L1 as (d & Hd & ->).
      apply N.eqb_eq in Hd as <-. apply IH in L2 as ->. auto.
    + intros ->. change (c :: w) with ([c] ++ w). constructor; [constructor; apply N.eqb_refl|apply IH; auto].
Qed.
Lemma lang_any items u : lang (any_re items) u <-> In u items \/ (items = [] /\ u = []).
Proof.
  induction items as [|x items IH].
  - cbn. split; [intros L; apply lang_eps_inv in L as ->; auto|]. intros [[]|[_ ->]]. constructor.
  - destruct items as [|y items].
    + cbn [any_re]. rewrite lang_str. cbn. split; [intros ->; auto|]. intros [[H|[]]|[H _]]; [auto|discriminate].
    + change (any_re (x :: y :: items)) with (RAlt (RStr x) (any_re (y :: items))). split.
      * intros L. apply lang_alt_inv in L as [L|L].
        -- apply lang_str in L as ->. left. left. auto.
        -- apply IH in L as [L|[L _]]; [left; right; auto|discriminate].
      * intros [[->|H]|[H _]]; [apply la_left; apply lang_str; auto|apply la_right; apply IH; auto|discriminate].
Qed.
Lemma lang_path u : lang (c_regex conv_path) u <-> exists c r, u = c :: r /\ c <> 47 /\ ~ In 10 r.
Proof.
  cbn [conv_path c_regex]. split.
  - intros L. apply lang_seq_inv in L as (x & y & L1 & L2 & ->). apply lang_set_inv in L1 as (c & Hc & ->).
    apply lang_star_set in L2. exists c, y. split; [auto|]. split.
    + intros ->. discriminate.
    + intros Hi. rewrite forallb_forall in L2. apply L2 in Hi. discriminate.
  - intros (c & r & -> & Hc & Hr). change (c :: r) with ([c] ++ r). constructor.
    + constructor. apply negb_true_iff, N.eqb_neq. auto.
    + apply lang_star_set. apply forallb_forall. intros x Hx. apply negb_true_iff, N.eqb_neq. intros ->. auto.
Qed.
Lemma find_some_first {A} (p : A -> bool) l : (exists x, In x l /\ p x = true) -> exists y, find p l = Some y.
Proof.
  intros (x & Hi & Hp). destruct (find p l) as [y|] eqn:E; [eauto|]. pose proof (find_none _ _ E x Hi). congruence.
Qed.
(** the runs of ten digits do not overlap *)
Definition gaps_ok : bool :=
  forallb (fun z => forallb (fun y => (z =? y) || (z + 9 <? y) || (y + 9 <? z)) decimal_zeros) decimal_zeros.
Lemma zeros_apart y z c : In y decimal_zeros -> In z decimal_zeros -> between y (y + 9) c = true -> between z (z + 9) c = true -> y = z.
Proof.
  intros Hy Hz. assert (G : gaps_ok = true) by (vm_compute; reflexivity).
  unfold gaps_ok in G. rewrite forallb_forall in G. specialize (G y Hy). rewrite forallb_forall in G. specialize (G z Hz).
  unfold between. lia.
Qed.
Lemma decimal_spec c v : decimal c = Some v <-> digit c v.
Proof.
  unfold decimal, digit. split.
  - destruct (find _ decimal_zeros) as [z|] eqn:E; [|discriminate]. intros H. inv H.
    apply find_some in E as [Hi Hb]. exists z. unfold between in Hb. split; [auto|lia].
  - intros (z & Hi & -> & Hv).
    destruct (find_some_first (fun z0 => between z0 (z0 + 9) (z + v)) decimal_zeros) as (y & Ey).
    { exists z. split; [auto|]. unfold between. lia. }
    rewrite Ey. apply find_some in Ey as [Hy Hb]. assert (y = z) as ->.
    { eapply zeros_apart; eauto. unfold between. lia. }
    f_equal. lia.
Qed.
Lemma is_decimal_spec c : is_decimal c = true <-> exists v, digit c v.
Proof.
  unfold is_decimal. destruct (decimal c) as [v|] eqn:E.
  - split; auto. intros _. exists v. apply decimal_spec. auto.
  - split; [discriminate|]. intros (v & H). apply decimal_spec in H. congruence.
Qed.
Lemma lang_int u : lang (RPlus true (RSet is_decimal)) u <-> u <> [] /\ forallb is_decimal u = true.
Proof.
  unfold RPlus. split.
  - intros L. apply lang_seq_inv in L as (x & y & L1 & L2 & ->). apply lang_set_inv in L1 as (c & Hc & ->).
    apply lang_star_set in L2. split; [discriminate|]. cbn. rewrite Hc, L2. auto.
  - intros [Hn Hf]. destruct u as [|c u]; [congruence|]. cbn in Hf. apply andb_prop in Hf as [Hc Hf].
    change (c :: u) with ([c] ++ u). constructor; [constructor; auto|apply lang_star_set; auto].
Qed.
Lemma decimal_int_snoc s c v : digit c v -> decimal_int (s ++ [c]) = (10 * decimal_int s + Z.of_N v)%Z.
Proof. intros H. unfold decimal_int. rewrite fold_left_app. cbn [fold_left]. apply decimal_spec in H. rewrite H. auto. Qed.
Lemma numeral_spec s z : numeral s z <-> s <> [] /\ forallb is_decimal s = true /\ decimal_int s = z.
Proof.
  split.
  - induction 1 as [c v H|s c v z N IH H].
    + split; [discriminate|]. cbn. assert (is_decimal c = true) as -> by (apply is_decimal_spec; eauto). split; [auto|].
      transitivity (decimal_int ([] ++ [c])); [reflexivity|]. rewrite (decimal_int_snoc _ _ _ H). change (decimal_int []) with 0%Z. lia.
    + destruct IH as (Hn & Hf & <-). split; [destruct s; discriminate|]. split.
      * rewrite forallb_app, Hf. cbn. assert (is_decimal c = true) as -> by (apply is_decimal_spec; eauto). auto.
      * apply decimal_int_snoc; auto.
  - revert z. induction s as [|c s IH] using rev_ind; intros z (Hn & Hf & <-); [congruence|].
    rewrite forallb_app in Hf. apply andb_prop in Hf as [Hf Hc]. cbn in Hc. rewrite andb_true_r in Hc.
    apply is_decimal_spec in Hc as (v & Hv). rewrite (decimal_int_snoc _ _ _ Hv). destruct s as [|d s].
    + cbn [app]. change (decimal_int []) with 0%Z. replace (10 * 0 + Z.of_N v)%Z with (Z.of_N v) by lia. constructor. auto.
    + apply nu_more; auto. apply IH. split; [discriminate|auto].
Qed.
Lemma within_spec mn mx z : out_of_bounds mn mx z = false <-> within mn mx z.
Proof.
  unfold out_of_bounds, within. split.
  - intros H. apply orb_false_iff in H as [H1 H2]. split; intros m ->; lia.
  - intros [H1 H2]. apply orb_false_iff. split; [destruct mn|destruct mx]; auto; [specialize (H1 z0 eq_refl)|specialize (H2 z0 eq_refl)]; lia.
Qed.
Lemma int_accepts fixed mn mx t v : accepts (conv_int fixed mn mx) t v <->
  exists z, v = VInt z /\ numeral t z /\ within mn mx z /\ (fixed <> 0%nat -> length t = fixed).
Proof.
  unfold accepts. cbn [conv_int c_regex c_to_python]. rewrite lang_int. unfold int_to_python. split.
  - intros [(Hn & Hf) H]. destruct (negb (fixed =? 0)%nat && negb (length t =? fixed)%nat) eqn:E; [discriminate|].
    destruct (out_of_bounds mn mx (decimal_int t)) eqn:Eo; [discriminate|]. inv H.
    exists (decimal_int t). split; [auto|]. split; [apply numeral_spec; auto|]. split; [apply within_spec; auto|]. lia.
  - intros (z & -> & N & W & Hx). apply numeral_spec in N as (Hn & Hf & <-). split; [auto|].
    assert (negb (fixed =? 0)%nat && negb (length t =? fixed)%nat = false) as -> by lia.
    assert (out_of_bounds mn mx (decimal_int t) = false) as -> by (apply within_spec; auto). auto.
Qed.

(** decimal digits of a number *)
Lemma ascii_digit_digit c : is_ascii_digit c = true -> digit c (c - 48).
Proof. unfold is_ascii_digit, between, digit. intros H. exists 48. split; [left; auto|lia]. Qed.
Lemma decimal_int_ascii s : forallb is_ascii_digit s = true -> forallb is_decimal s = true /\ decimal_int s = Z.of_N (digits_val s).
Proof.
  induction s as [|c s IH] using rev_ind; intros H; [auto|]. rewrite forallb_app in *. cbn [forallb] in *.
  apply andb_prop in H as [Hs Hc]. rewrite andb_true_r in Hc. pose proof (ascii_digit_digit c Hc) as D.
  destruct (IH Hs) as [H1 H2]. split.
  - rewrite H1. assert (is_decimal c = true) as -> by (apply is_decimal_spec; eauto). auto.
  - rewrite (decimal_int_snoc _ _ _ D), H2, digits_val_app. cbn [length digits_val fold_left].
    unfold is_ascii_digit, between in Hc. change (digits_val [c]) with (10 * 0 + (c - 48)). lia.
Qed.
Lemma decimal_int_bound s : forallb is_decimal s = true -> (0 <= decimal_int s < 10 ^ Z.of_nat (length s))%Z.
Proof.
  induction s as [|c s IH] using rev_ind; intros H; [cbn; lia|]. rewrite forallb_app in H. apply andb_prop in H as [Hs Hc].
  cbn in Hc. rewrite andb_true_r in Hc. apply is_decimal_spec in Hc as (v & Hv). rewrite (decimal_int_snoc _ _ _ Hv).
  rewrite app_length. cbn [length]. specialize (IH Hs). destruct Hv as (z & _ & _ & Hv).
  replace (Z.of_nat (length s + 1)) with (Z.succ (Z.of_nat (length s))) by lia. rewrite Z.pow_succ_r by lia. lia.
Qed.
Lemma digits_val_low c s : is_ascii_digit c = true -> c <> 48 -> 10 ^ N.of_nat (length s) <= digits_val (c :: s).
Proof.
  intros Hc H0. change (c :: s) with ([c] ++ s). rewrite digits_val_app. change (digits_val [c]) with (10 * 0 + (c - 48)).
  unfold is_ascii_digit, between in Hc. nia.
Qed.
Lemma dec_length n k : (0 < k)%nat -> n < 10 ^ N.of_nat k -> (length (dec n) <= k)%nat.
Proof.
  intros Hk Hn. destruct (dec n) as [|c s] eqn:E; [cbn; lia|]. cbn [length].
  destruct (N.eq_dec c 48) as [->|Hc].
  - rewrite (dec_nozero _ _ E). cbn. lia.
  - pose proof (dec_digits n) as Hd. rewrite E in Hd. cbn in Hd. apply andb_prop in Hd as [Hd _].
    pose proof (digits_val_low c s Hd Hc) as H. rewrite <- E, dec_val in H.
    assert (Hlt : 10 ^ N.of_nat (length s) < 10 ^ N.of_nat k) by lia.
    apply N.pow_lt_mono_r_iff in Hlt; lia.
Qed.
Lemma repeat_digits k : forallb is_ascii_digit (repeat 48 k) = true.
Proof. induction k; cbn; auto. Qed.
Lemma repeat_val k s : digits_val (repeat 48 k ++ s) = digits_val s.
Proof.
  rewrite digits_val_app. assert (digits_val (repeat 48 k) = 0) as ->; [|lia].
  induction k as [|k IH]; auto.
Qed.
Lemma int_roundtrip fixed mn mx t v : accepts (conv_int fixed mn mx) t v ->
  exists q, c_to_url (conv_int fixed mn mx) v = Ok (Some q) /\ accepts (conv_int fixed mn mx) q v /\ forallb is_ascii_digit q = true.
Proof.
  intros H. apply int_accepts in H as (z & -> & N & W & Hx). apply numeral_spec in N as (Hn & Hf & Hz).
  pose proof (decimal_int_bound t Hf) as B. rewrite Hz in B.
  cbn [conv_int c_to_url int_to_url int_of_value bind]. unfold int_to_url. cbn [int_of_value bind].
  assert (E : zdec z = dec (Z.to_N z)) by (destruct z; auto; lia).
  assert (G : forall k, numeral (repeat 48 k ++ dec (Z.to_N z)) z /\ forallb is_ascii_digit (repeat 48 k ++ dec (Z.to_N z)) = true).
  { intros k. assert (D : forallb is_ascii_digit (repeat 48 k ++ dec (Z.to_N z)) = true)
      by (rewrite forallb_app, repeat_digits, dec_digits; auto).
    split; [|auto]. destruct (decimal_int_ascii _ D) as [D1 D2]. apply numeral_spec. split.
    - intros H. apply app_eq_nil in H as [_ H]. eapply dec_nonnil; eauto.
    - split; [auto|]. rewrite D2, repeat_val, dec_val. lia. }
  eexists. split; [reflexivity|]. destruct (Nat.eqb_spec fixed 0) as [Hx0|Hx0].
  - rewrite E. destruct (G 0%nat) as [G1 G2]. split; [|auto]. apply int_accepts. exists z. split; [auto|]. split; [auto|]. split; [auto|lia].
  - unfold zero_pad. assert ((z <? 0)%Z = false) as -> by lia. destruct (G (fixed - length (dec (Z.to_N z)))%nat) as [G1 G2].
    split; [|auto]. apply int_accepts. exists z. split; [auto|]. split; [auto|]. split; [auto|]. intros _.
    rewrite app_length, repeat_length. rewrite (Hx Hx0) in B.
    assert (length (dec (Z.to_N z)) <= fixed)%nat; [|lia]. apply dec_length; [lia|].
    apply N2Z.inj_lt. rewrite Z2N.id by lia. rewrite N2Z.inj_pow. rewrite nat_N_Z. lia.
Qed.

(** ** Building *)
Definition writes (u t : str) : Prop := exists b, utf8_encode u = Ok b /\ percent_decodes t b.
Lemma utf8_encode_app a b x y : utf8_encode a = Ok x -> utf8_encode b = Ok y -> utf8_encode (a ++ b) = Ok (x ++ y).
Proof.
  unfold utf8_encode. rewrite forallb_app, flat_map_app. destruct (forallb scalar a), (forallb scalar b); cbn; try discriminate.
  intros H1 H2. inv H1. inv H2. auto.
Qed.
Lemma quote_app safe b t y : ~ In 37 safe -> bytes_text b -> percent_decodes t y ->
  percent_decodes (quote_bytes safe b ++ t) (b ++ y).
Proof.
  intros Hs Hb Ht. unfold percent_decodes in *. induction b as [|c b IH]; [auto|].
  assert (Hc : c < 256) by (apply Hb; left; auto).
  assert (Hr : bytes_text b) by (intros x Hx; apply Hb; right; auto).
  change (quote_bytes safe (c :: b)) with (quote_byte safe c ++ quote_bytes safe b). rewrite <- app_assoc.
  unfold quote_byte. destruct (quote_safe safe c) eqn:E.
  - cbn [app]. constructor; [|auto]. intros ->. apply quote_safe_spec in E as [E|[E _]]; [|auto].
    unfold unreserved in E. lia.
  - cbn [app]. eapply un_escape; [apply escape_pct; auto| |]; auto.
Qed.
Lemma writes_app safe s q u t : ~ In 37 safe -> urlquote safe s = Ok q -> writes u t -> writes (s ++ u) (q ++ t).
Proof.
  intros Hs H (y & Hy & Ht). apply urlquote_spec in H as (b & Hb & Hbt & ->). exists (b ++ y). split.
  - apply utf8_encode_app; auto.
  - apply quote_app; auto.
Qed.
Lemma writes_decodes u t : writes u t -> decodes t u.
Proof. intros (b & Hb & Ht). exists b. split; auto. eapply utf8_roundtrip; eauto. Qed.
Lemma urlquote_not_in safe s q x : urlquote safe s = Ok q -> In x [37; 63; 35; 124] -> x <> 37 -> ~ In x safe -> ~ In x q.
Proof.
  intros H Hx H37 Hs Hi. apply urlquote_spec in H as (b & _ & Hb & ->). unfold quote_bytes in Hi.
  apply in_flat_map in Hi as (c & Hc & Hi). unfold quote_byte in Hi. destruct (quote_safe safe c) eqn:E.
  - destruct Hi as [->|[]]. apply quote_safe_spec in E as [E|[E _]]; [|auto].
    unfold unreserved in E. cbn in Hx. lia.
  - specialize (Hb c Hc). unfold pct in Hi. pose proof (hex_upper_range (c / 16)). pose proof (hex_upper_range (c mod 16)).
    assert (c / 16 < 16) by nsolve. assert (c mod 16 < 16) by nsolve. cbn in Hx, Hi. lia.
Qed.
Lemma build_pieces_app l1 l2 values t : build_pieces (l1 ++ l2) values = Ok (Some t) ->
  exists t1 t2, build_pieces l1 values = Ok (Some t1) /\ build_pieces l2 values = Ok (Some t2) /\ t = t1 ++ t2.
Proof.
  revert t. induction l1 as [|[s|n c] l1 IH]; intros t H.
  - exists [], t. auto.
  - cbn [app build_pieces] in *. destruct (urlquote _ s) as [u|]; cbn [bind] in *; [|discriminate].
    destruct (build_pieces (l1 ++ l2) values) as [[r|]|]; cbn [bind option_map] in *; try discriminate. inv H.
    destruct (IH r eq_refl) as (t1 & t2 & H1 & H2 & ->). rewrite H1. cbn. exists (u ++ t1), t2. rewrite app_assoc. auto.
  - cbn [app build_pieces] in *. destruct (dget values n) as [v|]; [|discriminate].
    destruct (c_to_url c v) as [[u|]|]; cbn [bind] in *; try discriminate.
    destruct (build_pieces (l1 ++ l2) values) as [[r|]|]; cbn [bind option_map] in *; try discriminate. inv H.
    destruct (IH r eq_refl) as (t1 & t2 & H1 & H2 & ->). rewrite H1. cbn. exists (u ++ t1), t2. rewrite app_assoc. auto.
Qed.
Definition served (values : dict value) (l : list piece) : Prop :=
  forall n c v, In (PVar n c) l -> dget values n = Some v -> exists t, faithful c v t.
Definition given (values : dict value) (vars : list (str * converter)) : dict value :=
  flat_map (fun nc => match dget values (fst nc) with Some v => [(fst nc, v)] | None => [] end) vars.
Definition clean (x : N) (t : str) : Prop := ~ In x t.
Lemma build_pieces_spec l values t : served values l -> build_pieces l values = Ok (Some t) ->
  exists ts u, fills l ts u /\ writes u t /\ reads (piece_vars l) ts (given values (piece_vars l)) /\
    ~ In 63 t /\ ~ In 35 t /\ ((forall s, In (PStatic s) l -> ~ In 124 s) -> ~ In 124 t).
Proof.
  revert t. induction l as [|[s|n c] l IH]; intros t Hs H.
  - inv H. exists [], []. split; [constructor|]. split; [exists []; split; [reflexivity|constructor]|]. split; [constructor|]. cbn. tauto.
  - cbn [build_pieces] in H. destruct (urlquote _ s) as [q|] eqn:Eq; cbn [bind] in H; [|discriminate].
    destruct (build_pieces l values) as [[t'|]|]; cbn [bind option_map] in H; try discriminate. inv H.
    destruct (IH t') as (ts & u & F & W & R & N1 & N2 & N3); auto. { intros n c v Hi. apply Hs. right; auto. }
    exists ts, (s ++ u). split; [constructor; auto|]. split; [eapply writes_app; [|eauto|auto]; vm_compute; intuition congruence|].
    split; [exact R|].
    assert (63 = 63 /\ ~ In 63 q) as [_ Q1] by (split; [auto|]; eapply urlquote_not_in; [eauto|cbn; auto|lia|vm_compute; intuition congruence]).
    assert (Q2 : ~ In 35 q) by (eapply urlquote_not_in; [eauto|cbn; auto|lia|vm_compute; intuition congruence]).
    split; [rewrite in_app_iff; tauto|]. split; [rewrite in_app_iff; tauto|]. intros Hb. rewrite in_app_iff. intros [Hi|Hi].
    + apply urlquote_spec in Eq as (b & Hb1 & Hb2 & ->). 
      assert (Hq : ~ In 124 b).
      { intros Hx. unfold utf8_encode in Hb1. destruct (forallb scalar s) eqn:Esc; [|discriminate]. inv Hb1.
        apply in_flat_map in Hx as (x & Hx & Hy). apply (Hb s); [left; auto|].
        assert (x = 124) as <-; [|auto]. revert Hy. clear. unfold utf8_char.
        destruct (x <? 128) eqn:E1; [|destruct (x <? 2048) eqn:E2; [|destruct (x <? 65536) eqn:E3]]; cbn [In]; intros Hy.
        - intuition.
        - exfalso. nsolve.
        - exfalso. nsolve.
        - exfalso. nsolve. }
      unfold quote_bytes in Hi. apply in_flat_map in Hi as (c & Hc & Hi). unfold quote_byte in Hi.
      destruct (quote_safe _ c) eqn:E.
      * destruct Hi as [->|[]]. auto.
      * specialize (Hb2 c Hc). unfold pct in Hi. pose proof (hex_upper_range (c / 16)). pose proof (hex_upper_range (c mod 16)).
        assert (c / 16 < 16) by nsolve. assert (c mod 16 < 16) by nsolve. cbn in Hi. lia.
    + apply N3 in Hi; auto. intros s' Hs'. apply Hb. right; auto.
  - cbn [build_pieces] in H. destruct (dget values n) as [v|] eqn:Ev; [|discriminate].
    destruct (Hs n c v (or_introl eq_refl) Ev) as (x & [Ha1 Ha2] & safe & q & Hq & Hu & Hx).
    rewrite Hq in H. cbn [bind] in H. destruct (build_pieces l values) as [[t'|]|]; cbn [bind option_map] in H; try discriminate. inv H.
    destruct (IH t') as (ts & u & F & W & R & N1 & N2 & N3); auto. { intros n' c' v' Hi. apply Hs. right; auto. }
    exists (x :: ts), (x ++ u). split; [constructor; auto|]. split; [eapply writes_app; [|eauto|auto]; apply Hx; cbn; auto|].
    split.
    { cbn [piece_vars flat_map app given fst]. unfold given in *. cbn [flat_map fst]. rewrite Ev. cbn [app]. constructor; auto. }
    assert (Q : forall z, In z [63; 35; 124] -> ~ In z q).
    { intros z Hz. eapply urlquote_not_in; [eauto|cbn in *; tauto|cbn in Hz; intuition lia|apply Hx; cbn in *; tauto]. }
    pose proof (Q 63 ltac:(cbn; auto)). pose proof (Q 35 ltac:(cbn; auto)). pose proof (Q 124 ltac:(cbn; auto)).
    rewrite !in_app_iff. split; [tauto|]. split; [tauto|]. intros Hb [Hi|Hi]; [tauto|]. apply N3 in Hi; auto.
    intros s' Hs'. apply Hb. right; auto.
Qed.
Lemma urlquote_ascii safe s q : urlquote safe s = Ok q -> ascii_text q.
Proof.
  intros H c Hi. apply urlquote_spec in H as (b & _ & Hb & ->). unfold quote_bytes in Hi.
  apply in_flat_map in Hi as (x & Hx & Hi). unfold quote_byte in Hi. destruct (quote_safe safe x) eqn:E.
  - destruct Hi as [<-|[]]. unfold quote_safe in E. lia.
  - specialize (Hb x Hx). unfold pct in Hi. pose proof (hex_upper_range (x / 16)). pose proof (hex_upper_range (x mod 16)).
    assert (x / 16 < 16) by nsolve. assert (x mod 16 < 16) by nsolve. cbn in Hi. lia.
Qed.
Lemma build_pieces_ascii l values t : served values l -> build_pieces l values = Ok (Some t) -> ascii_text t.
Proof.
  revert t. induction l as [|[s|n c] l IH]; intros t Hs H.
  - inv H. intros x [].
  - cbn [build_pieces] in H. destruct (urlquote _ s) as [q|] eqn:Eq; cbn [bind] in H; [|discriminate].
    destruct (build_pieces l values) as [[t'|]|]; cbn [bind option_map] in H; try discriminate. inv H.
    assert (A : ascii_text t') by (apply IH; auto; intros n c v Hi; apply Hs; right; auto).
    pose proof (urlquote_ascii _ _ _ Eq) as B. intros x Hx. apply in_app_iff in Hx as [Hx|Hx]; auto.
  - cbn [build_pieces] in H. destruct (dget values n) as [v|] eqn:Ev; [|discriminate].
    destruct (Hs n c v (or_introl eq_refl) Ev) as (x & _ & safe & q & Hq & Hu & Hx).
    rewrite Hq in H. cbn [bind] in H. destruct (build_pieces l values) as [[t'|]|]; cbn [bind option_map] in H; try discriminate. inv H.
    assert (A : ascii_text t') by (apply IH; auto; intros n' c' v' Hi; apply Hs; right; auto).
    pose proof (urlquote_ascii _ _ _ Hu) as B. intros y Hy. apply in_app_iff in Hy as [Hy|Hy]; auto.
Qed.
Lemma utf8_encode_ascii s : ascii_text s -> utf8_encode s = Ok s.
Proof.
  intros H. unfold utf8_encode. assert (forallb scalar s = true) as ->.
  { apply forallb_forall. intros x Hx. specialize (H x Hx). unfold scalar, between. lia. }
  f_equal. induction s as [|c s IH]; auto. cbn [flat_map]. rewrite IH by (intros x Hx; apply H; right; auto).
  unfold utf8_char. assert (c <? 128 = true) as -> by (specialize (H c (or_introl eq_refl)); lia). auto.
Qed.
Lemma writes_plain d t : writes d t -> ascii_text t -> ~ In 37 t -> d = t.
Proof.
  intros (b & Hb & Ht) A N. assert (b = t) as ->.
  { eapply unescapes_fun; [exact Ht|]. rewrite <- (app_nil_r t) at 1. rewrite <- (app_nil_r t) at 2. apply unescapes_plain; [auto|constructor]. }
  eapply utf8_encode_inj; eauto. apply utf8_encode_ascii. auto.
Qed.
Lemma given_get values vars k : dget (given values vars) k =
  if existsb (eqs k) (map fst vars) then dget values k else None.
Proof.
  induction vars as [|[n c] vars IH]; auto. unfold given in *. cbn [flat_map map fst existsb].
  destruct (eqs k n) eqn:E.
  - apply eqs_eq in E as <-. cbn [orb]. destruct (dget values k) as [v|] eqn:Ev.
    + cbn [app dget]. rewrite eqs_refl. auto.
    + cbn [app]. rewrite IH. destruct (existsb _ _); auto.
  - cbn [orb]. destruct (dget values n) as [v|] eqn:Ev; cbn [app dget]; [|auto]. rewrite E. auto.
Qed.
Lemma open_end_slash r ts : open_end r -> slashed r = true -> no_final_slash r ts.
Proof.
  intros [[H1 H2]|(l & p & Eb & Hp)] Hs; [unfold slashed in Hs; rewrite H1, H2 in Hs; discriminate|].
  intros t Ht u ->. apply body_text in Ht as (v & F & E). rewrite app_nil_r in E. subst v.
  unfold body in F. rewrite Eb in F. apply fills_app in F as (t1 & t2 & u1 & u2 & F1 & F2 & _ & E).
  assert (G : u2 <> [] -> exists w, u2 = w ++ [47]).
  { intros Hn. destruct (@exists_last _ u2 Hn) as (w & x & ->). rewrite app_assoc in E. apply app_inj_tail in E as [_ <-]. eauto. }
  destruct p as [s|n c].
  - apply fills_static in F2 as (v & F2 & ->). inversion F2. subst. rewrite app_nil_r in *. destruct Hp as [Hn Hp].
    destruct (G Hn) as (w & Hw). eapply Hp; eauto.
  - apply fills_var in F2 as (x & ts' & v & Hx & F2 & -> & ->). inversion F2. subst. rewrite app_nil_r in *.
    destruct (Hp _ Hx) as [Hn Hp']. destruct (G Hn) as (w & Hw). eapply Hp'; eauto.
Qed.
Lemma reads_app v1 v2 t1 t2 d1 d2 : reads v1 t1 d1 -> reads v2 t2 d2 -> reads (v1 ++ v2) (t1 ++ t2) (d1 ++ d2).
Proof. induction 1; cbn; auto. constructor; auto. Qed.
Lemma given_app values v1 v2 : given values (v1 ++ v2) = given values v1 ++ given values v2.
Proof. apply flat_map_app. Qed.
Lemma piece_vars_app a b : piece_vars (a ++ b) = piece_vars a ++ piece_vars b.
Proof. apply flat_map_app. Qed.
Lemma bar_text : urlquote (lit "/:|+") [124] = Ok [124].
Proof. reflexivity. Qed.
Lemma route_build_parts r values au dom url : (forall s, In (PStatic s) (r_domain r) -> ~ In 124 s) ->
  served values (trace r) -> route_build r values au = Ok (Some (dom, url)) ->
  exists upath, build_pieces (r_domain r) values = Ok (Some dom) /\
    build_pieces (r_path r ++ if r_leaf r then [] else [PStatic [47]]) values = Ok (Some upath) /\
    match au, sort_items (query_vars r values) with
    | true, q :: qs => exists e, urlencode (q :: qs) = Ok e /\ url = upath ++ 63 :: e
    | _, _ => url = upath
    end.
Proof.
  intros Hbar Hs H. unfold route_build, trace in H. set (pp := r_path r ++ _) in *.
  destruct (build_pieces (r_domain r ++ PStatic [124] :: pp) values) as [[t|]|] eqn:E; cbn [bind] in H; try discriminate.
  apply build_pieces_app in E as (t1 & t2 & E1 & E2 & ->). cbn [build_pieces] in E2. rewrite bar_text in E2. cbn [bind] in E2.
  destruct (build_pieces pp values) as [[up|]|] eqn:E3; cbn [bind option_map] in E2; try discriminate.
  assert (t2 = [124] ++ up) as -> by congruence. cbn [app] in H. clear E2.
  destruct (build_pieces_spec (r_domain r) values t1) as (tsd & d & _ & _ & _ & _ & _ & N3); auto.
  { intros n c v Hi. apply Hs. unfold trace. apply in_or_app. auto. }
  rewrite split1_app in H by auto. exists up.
  destruct au; [destruct (sort_items _) as [|q qs]|].
  - assert (t1 = dom) as <- by congruence. assert (up = url) as <- by congruence. auto.
  - destruct (urlencode _) as [e|]; cbn [bind] in H; [|discriminate].
    assert (t1 = dom) as <- by congruence. assert (up ++ 63 :: e = url) as <- by congruence. eauto.
  - assert (t1 = dom) as <- by congruence. assert (up = url) as <- by congruence. auto.
Qed.
Lemma build_match rd r values au dom url :
  plain_route r -> separated_route r -> open_end r -> r_build_only r = false -> NoDup (map fst (r_defaults r)) ->
  (forall s, In (PStatic s) (r_domain r) -> ~ In 124 s) ->
  (forall n c v, In (n, c) (route_vars r) -> dget values n = Some v -> exists t, faithful c v t) ->
  route_build r values au = Ok (Some (dom, url)) ->
  exists d p upath,
    decodes dom d /\ (~ In 37 dom -> d = dom) /\
    decodes upath p /\ ~ In 63 upath /\ ~ In 35 upath /\
    (url = upath \/ exists query, url = upath ++ 63 :: query) /\
    ((forall u, p <> u ++ [10]) ->
     exists vals, route_match rd r (d ++ 124 :: p) = Ok (if r_alias r && rd then MAlias vals else MValues vals) /\
       forall k, dget vals k = match dget (r_defaults r) k with
                               | Some v => Some v
                               | None => if existsb (eqs k) (var_names r) then dget values k else None
                               end).
Proof.
  intros P S O Hb Nd Hbar Hf H.
  assert (Hv : forall n c, In (PVar n c) (trace r) -> In (n, c) (route_vars r)).
  { intros n c Hi. unfold trace in Hi. unfold route_vars, piece_vars. apply in_flat_map. exists (PVar n c). split; [|left; auto].
    apply in_app_iff in Hi as [Hi|[Hi|Hi]]; [apply in_or_app; auto|discriminate|]. apply in_app_iff in Hi as [Hi|Hi]; [apply in_or_app; auto|].
    destruct (r_leaf r); [destruct Hi|destruct Hi as [Hi|[]]; discriminate]. }
  assert (Hs : served values (trace r)) by (intros n c v Hi Hg; eapply Hf; eauto).
  destruct (route_build_parts _ _ _ _ _ Hbar Hs H) as (up & E1 & E2 & E3).
  assert (Hs1 : served values (r_domain r)) by (intros n c v Hi; apply Hs; unfold trace; apply in_or_app; auto).
  assert (Hs2 : served values (r_path r ++ if r_leaf r then [] else [PStatic [47]]))
    by (intros n c v Hi; apply Hs; unfold trace; apply in_or_app; right; right; auto).
  destruct (build_pieces_spec _ _ _ Hs1 E1) as (tsd & d & Fd & Wd & Rd & _).
  destruct (build_pieces_spec _ _ _ Hs2 E2) as (tsp & p & Fp & Wp & Rp & N1 & N2 & _).
  exists d, p, up. split; [apply writes_decodes; auto|]. split; [intros N; eapply writes_plain; [exact Wd|exact (build_pieces_ascii _ _ _ Hs1 E1)|exact N]|].
  split; [apply writes_decodes; auto|]. split; [auto|]. split; [auto|]. split.
  { destruct au; [destruct (sort_items _)|]; auto. destruct E3 as (e & _ & ->). eauto. }
  intros Hnl. set (slash := if r_leaf r then [] else [47]).
  assert (Fp' : exists p0, fills (r_path r) tsp p0 /\ p = p0 ++ slash).
  { apply fills_app in Fp as (t1 & t2 & u1 & u2 & F1 & F2 & -> & ->). unfold slash. destruct (r_leaf r).
    - inversion F2. subst. rewrite app_nil_r. eauto.
    - apply fills_static in F2 as (v & F2 & ->). inversion F2. subst. rewrite !app_nil_r. eauto. }
  destruct Fp' as (p0 & Fp0 & Ep).
  assert (RT : route_text r (tsd ++ tsp) slash (d ++ 124 :: p)).
  { exists tsd, tsp, d, p0. rewrite Ep. auto. }
  assert (I : instance r (tsd ++ tsp) slash (d ++ 124 :: p)).
  { unfold slash in *. destruct (r_leaf r) eqn:El; [destruct (r_strict r) eqn:Es|].
    - apply in_exact; auto.
    - apply in_slash; auto. apply open_end_slash; auto. unfold slashed. rewrite Es. destruct (r_leaf r); auto.
    - apply in_slash; auto. apply open_end_slash; auto. unfold slashed. rewrite El. auto. }
  assert (R : reads (route_vars r) (tsd ++ tsp) (given values (route_vars r))).
  { unfold route_vars. rewrite piece_vars_app, given_app. apply reads_app; [auto|].
    rewrite piece_vars_app in Rp. replace (piece_vars (if r_leaf r then [] else [PStatic [47]])) with (@nil (str * converter)) in Rp by (destruct (r_leaf r); auto).
    rewrite app_nil_r in Rp. auto. }
  destruct (route_match_values rd r (d ++ 124 :: p) (tsd ++ tsp) slash (given values (route_vars r))) as (vals & Hm & Hg); auto.
  { intros q Eq. destruct p as [|x p'] eqn:Ex.
    - apply (app_inj_tail d q 124 10) in Eq as [_ Eq]. discriminate.
    - destruct (@exists_last _ (x :: p') ltac:(discriminate)) as (w & y & Ew). rewrite Ew in Eq.
      change (d ++ 124 :: w ++ [y]) with (d ++ [124] ++ w ++ [y]) in Eq. rewrite !app_assoc in Eq.
      apply app_inj_tail in Eq as [_ ->]. eapply Hnl; eauto. }
  { intros _ El. unfold slash. rewrite El. auto. }
  exists vals. split; [auto|]. intros k. rewrite Hg, given_get. unfold var_names. auto.
Qed.

(** ** The built-in converters keep to the contract *)
Lemma base_faithful rx w t : lang rx t -> unicode_text t -> faithful (Conv rx w base_to_python base_to_url) (VStr t) t.
Proof.
  intros L U. split; [split; [auto|reflexivity]|]. destruct (urlquote_ok (lit "/:") t U) as (q & Hq).
  exists (lit "/:"), q. cbn [c_to_url]. unfold base_to_url. cbn [value_str]. rewrite Hq. cbn [bind]. split; [auto|]. split; [auto|].
  intros x Hx. cbn in Hx. vm_compute. intuition congruence.
Qed.
Lemma quote_digits q : forallb is_ascii_digit q = true -> urlquote [] q = Ok q.
Proof.
  intros H. unfold urlquote. rewrite utf8_encode_ascii.
  - cbn [bind]. f_equal. induction q as [|c q IH]; auto. cbn in H. apply andb_prop in H as [Hc Hq].
    change (quote_bytes [] (c :: q)) with (quote_byte [] c ++ quote_bytes [] q). rewrite IH; auto.
    unfold quote_byte, quote_safe, always_safe, is_ascii_alnum. rewrite Hc.
    assert (c <? 128 = true) as -> by (unfold is_ascii_digit, between in Hc; lia). rewrite orb_true_r. auto.
  - intros x Hx. rewrite forallb_forall in H. specialize (H x Hx). unfold is_ascii_digit, between in H. lia.
Qed.
Lemma int_faithful fixed mn mx t v : accepts (conv_int fixed mn mx) t v -> exists q, faithful (conv_int fixed mn mx) v q.
Proof.
  intros H. destruct (int_roundtrip _ _ _ _ _ H) as (q & Hq & Ha & Hd). exists q. split; [auto|]. exists [], q.
  split; [auto|]. split; [apply quote_digits; auto|]. intros x _ [].
Qed.
Lemma hex_lower_hex d : d < 16 -> is_hex (hex_lower d) = true /\ hexval (hex_lower d) = Some d /\ hex_lower d < 128 /\ hex_lower d <> 45 /\ unreserved (hex_lower d).
Proof.
  intros H. unfold hex_lower. assert (Hc : d < 10 \/ 10 <= d) by lia. destruct Hc as [Hc|Hc].
  - assert (d <? 10 = true) as -> by lia. split; [unfold is_hex, is_ascii_digit, between; lia|]. split; [apply hexval_spec; constructor; lia|].
    unfold unreserved. lia.
  - assert (d <? 10 = false) as -> by lia. split; [unfold is_hex, is_ascii_digit, between; lia|]. split.
    + apply hexval_spec. constructor; lia.
    + unfold unreserved. lia.
Qed.
Definition uuid_from (a : N) (s : str) : N :=
  fold_left (fun a c => match hexval c with Some d => 16 * a + d | None => a end) s a.
Lemma uuid_from_app a s t : uuid_from a (s ++ t) = uuid_from (uuid_from a s) t.
Proof. apply fold_left_app. Qed.
Lemma hex_digits_spec k : forall n a, n < 16 ^ N.of_nat k -> uuid_from a (hex_digits k n) = a * 16 ^ N.of_nat k + n.
Proof.
  induction k as [|k IH]; intros n a H.
  - cbn [hex_digits]. change (uuid_from a []) with a. change (16 ^ N.of_nat 0) with 1 in *. lia.
  - cbn [hex_digits]. rewrite Nat2N.inj_succ, N.pow_succ_r' in *. rewrite uuid_from_app, IH by (apply N.div_lt_upper_bound; lia).
    cbn [uuid_from fold_left]. assert (n mod 16 < 16) by (apply N.mod_lt; lia). destruct (hex_lower_hex _ H0) as (_ & E & _).
    unfold uuid_from. cbn [fold_left]. rewrite E. pose proof (N.div_mod n 16). lia.
Qed.
Lemma hex_digits_hex k : forall n, forallb is_hex (hex_digits k n) = true /\ length (hex_digits k n) = k.
Proof.
  induction k as [|k IH]; intros n; [auto|]. cbn [hex_digits]. destruct (IH (n / 16)) as [H1 H2].
  rewrite forallb_app, app_length, H1, H2. assert (H : n mod 16 < 16) by (apply N.mod_lt; lia).
  destruct (hex_lower_hex _ H) as (E & _). cbn. rewrite E. split; [auto|lia].
Qed.
Lemma hex_digits_unreserved k : forall n, Forall unreserved (hex_digits k n).
Proof.
  induction k as [|k IH]; intros n; [constructor|]. cbn [hex_digits]. apply Forall_app. split; [auto|].
  assert (H : n mod 16 < 16) by (apply N.mod_lt; lia). constructor; [|constructor]. apply hex_lower_hex. auto.
Qed.
Lemma uuid_dash a s : uuid_from a ([45] ++ s) = uuid_from a s.
Proof. reflexivity. Qed.
Lemma firstn_skipn_add {A} i k (h : list A) : firstn i (skipn k h) ++ skipn (k + i) h = skipn k h.
Proof.
  revert h. induction k as [|k IH]; intros h; [apply firstn_skipn|]. destruct h as [|x h]; [destruct i; auto|]. apply IH.
Qed.
Lemma uuid_of_from s : uuid_of s = uuid_from 0 s.
Proof. reflexivity. Qed.
Lemma uuid_text_of n : n < 2 ^ 128 -> uuid_of (uuid_text n) = n.
Proof.
  intros H. rewrite uuid_of_from. unfold uuid_text. cbv zeta.
  assert (Eh : uuid_from 0 (hex_digits 32 n) = n) by (rewrite hex_digits_spec; [rewrite N.mul_0_l; reflexivity|exact H]).
  revert Eh. generalize (hex_digits 32 n). intros h Eh.
  rewrite uuid_from_app, uuid_dash, uuid_from_app, uuid_dash, uuid_from_app, uuid_dash, uuid_from_app, uuid_dash.
  rewrite <- !uuid_from_app.
  change (skipn 20 h) with (skipn (16 + 4) h). repeat rewrite <- app_assoc. rewrite firstn_skipn_add.
  change (skipn 16 h) with (skipn (12 + 4) h). rewrite firstn_skipn_add.
  change (skipn 12 h) with (skipn (8 + 4) h). rewrite firstn_skipn_add. rewrite firstn_skipn. exact Eh.
Qed.
Lemma forallb_firstn {A} (p : A -> bool) k l : forallb p l = true -> forallb p (firstn k l) = true.
Proof. rewrite <- (firstn_skipn k l) at 1. rewrite forallb_app. intros H. apply andb_prop in H as [H _]. auto. Qed.
Lemma forallb_skipn {A} (p : A -> bool) k l : forallb p l = true -> forallb p (skipn k l) = true.
Proof. rewrite <- (firstn_skipn k l) at 1. rewrite forallb_app. intros H. apply andb_prop in H as [_ H]. auto. Qed.
Lemma lang_uuid t : lang uuid_re t <-> exists a b c d e, t = a ++ [45] ++ b ++ [45] ++ c ++ [45] ++ d ++ [45] ++ e /\
  length a = 8%nat /\ length b = 4%nat /\ length c = 4%nat /\ length d = 4%nat /\ length e = 12%nat /\
  forallb is_hex (a ++ b ++ c ++ d ++ e) = true.
Proof.
  unfold uuid_re. split.
  - intros L. apply lang_seq_inv in L as (a & t1 & La & L & ->). apply lang_seq_inv in L as (x1 & t2 & L1 & L & ->).
    apply lang_seq_inv in L as (b & t3 & Lb & L & ->). apply lang_seq_inv in L as (x2 & t4 & L2 & L & ->).
    apply lang_seq_inv in L as (c & t5 & Lc & L & ->). apply lang_seq_inv in L as (x3 & t6 & L3 & L & ->).
    apply lang_seq_inv in L as (d & t7 & Ld & L & ->). apply lang_seq_inv in L as (x4 & e & L4 & Le & ->).
    apply lang_set_inv in L1 as (y1 & E1 & ->). apply lang_set_inv in L2 as (y2 & E2 & ->).
    apply lang_set_inv in L3 as (y3 & E3 & ->). apply lang_set_inv in L4 as (y4 & E4 & ->).
    apply N.eqb_eq in E1, E2, E3, E4. subst. apply lang_rep_set in La, Lb, Lc, Ld, Le.
    exists a, b, c, d, e. split; [auto|]. rewrite !forallb_app. destruct La as [-> ->], Lb as [-> ->], Lc as [-> ->], Ld as [-> ->], Le as [-> ->]. auto 8.
  - intros (a & b & c & d & e & -> & H1 & H2 & H3 & H4 & H5 & H). rewrite !forallb_app in H.
    apply andb_prop in H as [Ha H]. apply andb_prop in H as [Hb H]. apply andb_prop in H as [Hc H]. apply andb_prop in H as [Hd He].
    repeat (first [apply la_seq | apply lang_rep_set; split; assumption | apply la_set; apply N.eqb_refl]).
Qed.
Lemma uuid_faithful n : n < 2 ^ 128 -> faithful conv_uuid (VUuid n) (uuid_text n).
Proof.
  intros H. destruct (hex_digits_hex 32 n) as [Hh Hl]. split.
  - split.
    + apply lang_uuid. unfold uuid_text. cbv zeta. do 5 eexists. split; [reflexivity|].
      rewrite !forallb_app, !firstn_length, !skipn_length, Hl. rewrite forallb_firstn, !forallb_firstn, forallb_skipn by (repeat apply forallb_skipn; auto). auto 8.
    + cbn [c_to_python conv_uuid]. rewrite uuid_text_of; auto.
  - exists [], (uuid_text n). split; [reflexivity|]. split; [|intros x _ []].
    assert (U : Forall unreserved (uuid_text n)).
    { pose proof (hex_digits_unreserved 32 n) as U. unfold uuid_text. cbv zeta. rewrite Forall_forall in *.
      assert (D : unreserved 45) by (unfold unreserved; lia).
      intros x Hx. rewrite !in_app_iff in Hx.
      assert (F : forall i j, In x (firstn i (skipn j (hex_digits 32 n))) -> unreserved x).
      { intros i j Hi. apply U. rewrite <- (firstn_skipn j). apply in_or_app. right. rewrite <- (firstn_skipn i). apply in_or_app. auto. }
      assert (F0 : forall i, In x (firstn i (hex_digits 32 n)) -> unreserved x) by (intros i; apply (F i 0%nat)).
      assert (F1 : forall j, In x (skipn j (hex_digits 32 n)) -> unreserved x).
      { intros j Hi. apply U. rewrite <- (firstn_skipn j). apply in_or_app. auto. }
      cbn [In] in Hx. intuition (subst; eauto). }
    unfold urlquote. rewrite utf8_encode_ascii.
    + cbn [bind]. f_equal. revert U. generalize (uuid_text n). intros z. induction z as [|c s IH]; intros U; auto. inversion U. subst.
      change (quote_bytes [] (c :: s)) with (quote_byte [] c ++ quote_bytes [] s). rewrite IH; auto. unfold quote_byte.
      assert (quote_safe [] c = true) as -> by (apply quote_safe_spec; auto). auto.
    + intros x Hx. rewrite Forall_forall in U. specialize (U x Hx). unfold unreserved in U. lia.
Qed.

(** Plainness of the built-in expressions *)
Lemma plain_rep n p : plain (RRep n (RSet p)).
Proof. induction n; cbn; auto. Qed.
Lemma plain_upto n p : plain (RUpTo n (RSet p)).
Proof. induction n; cbn; auto. Qed.
Lemma plain_str s : plain (RStr s).
Proof. induction s; cbn; auto. Qed.
Lemma plain_any l : plain (any_re l).
Proof. induction l as [|x [|y l] IH]; [exact I|apply plain_str|split; [apply plain_str|exact IH]]. Qed.
Lemma builtin_plain : (forall mn mx, plain (c_regex (conv_string mn mx))) /\ (forall l, plain (c_regex (conv_any l))) /\
  plain (c_regex conv_path) /\ (forall f mn mx, plain (c_regex (conv_int f mn mx))) /\
  (forall f g, plain (c_regex (conv_float f g))) /\ plain (c_regex conv_uuid).
Proof.
  split; [|split; [|split; [|split; [|split]]]].
  - intros mn mx. split; [apply plain_rep|destruct mx; [apply plain_upto|exact I]].
  - intros l. apply plain_any.
  - cbn. auto.
  - cbn. auto.
  - cbn. auto.
  - cbn. auto 30.
Qed.

Lemma slash_redirect_values rd r path : plain_route r -> NoDup (map fst (r_defaults r)) -> (forall p, path <> p ++ [10]) ->
  route_match rd r path = Ok MSlash ->
  r_build_only r = false /\ r_strict r = true /\ r_leaf r = false /\
  exists ts, instance r ts [] path /\ instance r ts [47] (path ++ [47]) /\
    route_match rd r (path ++ [47]) <> Ok MSlash /\
    (forall vals, reads (route_vars r) ts vals -> exists d,
       route_match rd r (path ++ [47]) = Ok (if r_alias r && rd then MAlias d else MValues d) /\
       forall k, dget d k = match dget (r_defaults r) k with Some v => Some v | None => dget vals k end) /\
    (refuses (route_vars r) ts <-> route_match rd r (path ++ [47]) = Ok MNone).
Proof.
  intros P Nd Hn H. pose proof (route_match_sound _ _ _ _ P Nd H) as (B & Es & El & _). split; [auto|]. split; [auto|]. split; [auto|].
  destruct (slash_redirect _ _ _ P Hn H) as (ts & I1 & I2 & E). exists ts. split; [auto|]. split; [auto|]. rewrite E.
  assert (Hl : length ts = length (route_vars r)).
  { assert (exists u, fills (body r) ts u) as (u & F).
    { inversion I1 as [p H1 H2 RT|s p H1 H2 H3 RT]; subst; apply body_text in RT as (u & F & _); eauto. }
    apply fills_count in F. rewrite F. rewrite <- body_vars. clear. induction (body r) as [|[s|n c] l IH]; cbn; auto. }
  split; [|split].
  - destruct (convert_groups _ _ _) as [[d|]|]; cbn [bind]; try discriminate. cbv zeta. destruct (r_alias r && rd); discriminate.
  - intros vals R. apply (convert_groups_spec (route_caps r ts []) _ 1 ts) in R; auto.
    2:{ intros j Hj. apply route_caps_var. auto. }
    rewrite R. cbn [bind]. cbv zeta. exists (update_all vals (r_defaults r)). split; [destruct (r_alias r && rd); auto|].
    intros k. apply update_all_get. auto.
  - rewrite <- (convert_groups_none (route_caps r ts []) _ 1 ts); auto.
    2:{ intros j Hj. apply route_caps_var. auto. }
    destruct (convert_groups _ _ _) as [[d|]|]; cbn [bind]; cbv zeta; [|tauto|].
    + split; [discriminate|]. destruct (r_alias r && rd); discriminate.
    + split; discriminate.
Qed.
(** a strict leaf has no instance with a slash added to one *)
Lemma leaf_no_slash rd r path d : plain_route r -> NoDup (map fst (r_defaults r)) -> r_leaf r = true -> r_strict r = true ->
  route_match rd r path = Ok (MValues d) \/ route_match rd r path = Ok (MAlias d) ->
  exists ts, up_to_newline (route_text r ts []) path.
Proof.
  intros P Nd El Es H.
  assert (G : exists ts slash, up_to_newline (instance r ts slash) path).
  { destruct H as [H|H]; apply route_match_sound in H as (_ & ts & slash & _ & I & _); eauto. }
  destruct G as (ts & slash & I).
  assert (J : forall p, instance r ts slash p -> route_text r ts [] p).
  { intros p Hp. inversion Hp as [q H1 H2 RT|s q H1 H2 H3 RT]; subst; auto. destruct H1; congruence. }
  exists ts. destruct I as [I|(p & -> & I)]; [left; auto|right; eauto].
Qed.
