(** Lemmas about entity tags. *)
From Coq Require Import Arith List NArith ZArith Bool Lia ZifyBool ZifyN.
From Verif Require Import PyStr PyStrFacts Regex RegexFacts ModelQuote SpecQuote ProofQuote ModelHeaders ModelEtag SpecEtag.
Import ListNotations.
Open Scope N_scope.

Lemma quote_etag_ok t w h : quote_etag t w = Ok h ->
  h = (if w then lit "w/" else []) ++ 34 :: t ++ [34] /\ ~ In 34 t.
Proof.
  unfold quote_etag. destruct (mem 34 t) eqn:E; [discriminate|]. intros H; inv H.
  apply mem_not_In in E. auto.
Qed.
Lemma quote_etag_raise t w : quote_etag t w = Raise ValueError <-> In 34 t.
Proof.
  unfold quote_etag. rewrite <- mem_In. destruct (mem 34 t); split; congruence.
Qed.

Lemma strip_quoted_end p t : (forall c r, p ++ [34] = c :: r -> is_space c = false) ->
  strip (p ++ 34 :: t ++ [34]) = p ++ 34 :: t ++ [34].
Proof.
  intros H. apply strip_by_id.
  - intros c r E. apply (H c (tl (p ++ [34]))). destruct p; inv E; auto.
  - intros c r E. replace (p ++ 34 :: t ++ [34]) with ((p ++ 34 :: t) ++ [34]) in E by (rewrite <- app_assoc; auto).
    apply app_inj_tail in E as [_ <-]. reflexivity.
Qed.

Lemma unquote_quoted m t : unquote_etag (write_tag (m, t)) = Some (t, weak_mark m).
Proof.
  unfold write_tag. cbn [fst snd].
  assert (E : forall p, (p = [] \/ p = lit "W/" \/ p = lit "w/") ->
     unquote_etag (p ++ 34 :: t ++ [34]) = Some (t, negb (eqs p []))).
  { intros p Hp. unfold unquote_etag.
    rewrite strip_quoted_end by (intros c r Hc; destruct Hp as [->|[->| ->]]; inv Hc; reflexivity).
    pose proof (quoted_both_wrap t) as Hq. pose proof (middle_quoted t) as Hm.
    set (e := 34 :: t ++ [34]) in *. assert (He : exists r, e = 34 :: r) by (unfold e; eauto). clearbody e.
    destruct He as [r ->].
    destruct Hp as [->|[->| ->]]; cbv - [quoted_both middle]; rewrite Hq, Hm; reflexivity. }
  destruct m; cbn [weak_mark].
  - rewrite E; auto.
  - rewrite E; auto.
  - rewrite E; auto.
Qed.

Lemma etag_roundtrip t w h : quote_etag t w = Ok h -> unquote_etag h = Some (t, w).
Proof.
  intros H. apply quote_etag_ok in H as [-> _].
  destruct w; [apply (unquote_quoted Weakw)|apply (unquote_quoted Strong)].
Qed.

(** ** Termination *)
Lemma etag_progress prev s m : s <> [] -> s <> [10] -> match_at etag_re prev s = Some m ->
  exists u, u <> [] /\ s = u ++ s_rest m.
Proof.
  intros Hn Hnl H. unfold match_at in H. apply run_sound in H as (s' & M & E). inv E.
  destruct (matches_suffix _ _ _ M) as [u Hu]. cbn [s_rest] in Hu. exists u. split; auto.
  intros ->. cbn [app] in Hu. assert (Hlen : length s = length (s_rest m)) by (rewrite <- Hu; auto). clear Hu.
  assert (Hsuf : forall r a b, matches r a b -> (length (s_rest b) <= length (s_rest a))%nat).
  { intros r a b Hm. destruct (matches_suffix _ _ _ Hm) as [x Hx]. rewrite Hx, app_length. lia. }
  unfold etag_re in M. inversion M as [| |a b s0 s1 s2 M1 M2| | | | | | | |]; subst.
  inversion M2 as [| |a b s0 s3 s4 M3 M4| | | | | | | |]; subst.
  pose proof (Hsuf _ _ _ M1). pose proof (Hsuf _ _ _ M3). pose proof (Hsuf _ _ _ M4).
  cbn [s_rest] in H.
  assert (L : length (s_rest s3) = length s) by lia.
  assert (E3 : s_rest s3 = s).
  { destruct (matches_suffix _ _ _ M1) as [x1 Hx1]. destruct (matches_suffix _ _ _ M3) as [x3 Hx3].
    cbn [s_rest] in Hx1. rewrite Hx3 in Hx1. rewrite app_assoc in Hx1.
    assert (length (x1 ++ x3) = 0)%nat.
    { apply (f_equal (@length N)) in Hx1. rewrite app_length in Hx1. lia. }
    destruct (x1 ++ x3); [auto|discriminate]. }
  unfold etag_sep_re in M4. inversion M4; subst.
  - match goal with H : matches (RSeq ws_re _) _ _ |- _ =>
      inversion H as [| |a b s0 s5 s6 M5 M6| | | | | | | |]; subst end.
    inversion M6 as [| |a b s0 s7 s8 M7 M8| | | | | | | |]; subst.
    pose proof (Hsuf _ _ _ M5). pose proof (Hsuf _ _ _ M8).
    unfold RChr in M7. inversion M7; subst. cbn [s_rest] in *.
    match goal with H : s_rest s5 = _ :: _ |- _ => rewrite H in * end. cbn [length] in *.
    cbn [s_rest step] in *. lia.
  - match goal with H : matches REnd _ _ |- _ => inversion H; subst end.
    match goal with H : at_end _ = true |- _ => rename H into He end.
    destruct (s_rest m) as [|c [|d s']]; cbn in He; try congruence; try discriminate.
    apply N.eqb_eq in He. subst. congruence.
Qed.

Lemma last_suffix {A} (u s : list A) x y : u ++ s = y ++ [x] -> s <> [] -> exists z, s = z ++ [x].
Proof.
  intros H Hs. destruct (exists_last Hs) as (z & w & ->). rewrite app_assoc in H. apply app_inj_tail in H as [_ ->].
  eauto.
Qed.

Lemma etags_loop_terminates fuel : forall prev s strong weak,
  (length s <= fuel)%nat -> (forall u, s <> u ++ [10]) -> exists e, etags_loop fuel prev s strong weak = Some e.
Proof.
  induction fuel as [|f IH]; intros prev s strong weak Hf Hs.
  - destruct s; [cbn; eauto|cbn [length] in Hf; lia].
  - destruct s as [|c s]; [cbn; eauto|]. cbn [etags_loop].
    destruct (match_at etag_re prev (c :: s)) as [m|] eqn:E; [|eauto].
    apply etag_progress in E as (u & Hu & Eu); [|discriminate|apply (Hs [])].
    assert (Hl : (length (s_rest m) <= f)%nat).
    { apply (f_equal (@length N)) in Eu. rewrite app_length in Eu. destruct u; [congruence|]. cbn [length] in *. lia. }
    assert (Hm : forall v, s_rest m <> v ++ [10]).
    { intros v Ev. apply (Hs (u ++ v)). rewrite Eu, Ev, app_assoc. auto. }
    destruct (match cap (s_caps m) 3 with Some r => eqs r [42] | None => false end); [eauto|].
    destruct (cap (s_caps m) 1); apply IH; auto.
Qed.

Lemma etags_loop_more fuel : forall fuel' prev s strong weak e, (fuel <= fuel')%nat ->
  etags_loop fuel prev s strong weak = Some e -> etags_loop fuel' prev s strong weak = Some e.
Proof.
  induction fuel as [|f IH]; intros fuel' prev s strong weak e Hf H.
  - destruct s; [destruct fuel'; auto|discriminate].
  - destruct fuel' as [|f']; [lia|]. destruct s as [|c s]; [auto|]. cbn [etags_loop] in *.
    destruct (match_at etag_re prev (c :: s)) as [m|]; auto.
    destruct (match cap (s_caps m) 3 with Some r => eqs r [42] | None => false end); auto.
    destruct (cap (s_caps m) 1); apply IH; auto; lia.
Qed.

Lemma etags_newline_loops fuel : parse_etags fuel [10] = None.
Proof.
  unfold parse_etags. generalize (@None N) as prev. generalize (@nil (option str)) at 2 as weak.
  generalize (@nil (option str)) as strong.
  induction fuel as [|f IH]; intros strong weak prev; [reflexivity|].
  assert (E : match_at etag_re prev [10] = Some (St prev [10] [(3%nat, [])])) by (vm_compute; reflexivity).
  cbn [etags_loop]. rewrite E. cbn. apply IH.
Qed.

(** ** Reading a list of tags *)
Lemma dot_quoted t : ~ In 10 t -> forallb (fun c => negb (c =? 10)) t = true.
Proof.
  intros H. apply forallb_forall. intros c Hc. apply negb_true_iff. apply N.eqb_neq. intros ->. auto.
Qed.

(** The separator part, at a comma or at the end. *)
Lemma run_sep_comma {R} a b h prev caps (k : st -> option R) x : blank a -> blank b ->
  (forall c r, h = c :: r -> is_space c = false) ->
  k (St (last_or (last_or (last_or prev a) [44]) b) h caps) = Some x ->
  run etag_sep_re (St prev (a ++ 44 :: b ++ h) caps) k = Some x.
Proof.
  intros Ha Hb Hh Hk. unfold etag_sep_re. rewrite run_alt.
  enough (E : run (RSeq ws_re (RSeq (RChr 44) ws_re)) (St prev (a ++ 44 :: b ++ h) caps) k = Some x) by (rewrite E; auto).
  rewrite run_seq. unfold ws_re. apply run_star_set_g.
  - apply forallb_forall. unfold blank in Ha. rewrite Forall_forall in Ha. auto.
  - intros c r E. inv E. reflexivity.
  - rewrite run_seq, run_chr. apply run_star_set_g; auto.
    apply forallb_forall. unfold blank in Hb. rewrite Forall_forall in Hb. auto.
Qed.
Lemma run_sep_end {R} prev caps (k : st -> option R) x :
  k (St prev [] caps) = Some x -> run etag_sep_re (St prev [] caps) k = Some x.
Proof. intros H. unfold etag_sep_re. rewrite run_alt. cbn. rewrite H. auto. Qed.

Definition tag_caps (t : tag) : list (nat * str) :=
  (2%nat, snd t) :: match fst t with Strong => [] | WeakW => [(1%nat, lit "W/")] | Weakw => [(1%nat, lit "w/")] end.

Lemma run_body {R} t rest prev caps (k : st -> option R) x :
  ~ In 34 t -> ~ In 10 t ->
  run etag_sep_re (St (Some 34) rest ((2%nat, t) :: caps)) k = Some x ->
  run (RSeq etag_body_re etag_sep_re) (St prev (34 :: t ++ 34 :: rest) caps) k = Some x.
Proof.
  intros H34 H10 Hk. rewrite run_seq. unfold etag_body_re. rewrite run_alt.
  match goal with |- match ?X with _ => _ end = _ => enough (E : X = Some x) by (rewrite E; auto) end.
  rewrite run_seq, run_chr, run_seq, run_group. unfold RDot. apply run_star_set_l.
  - apply dot_quoted; auto.
  - intros a c b E. cbn [s_prev s_rest s_caps]. rewrite run_chr_no; auto.
    intros r Hr. inv Hr. apply H34. apply in_or_app. right; left; auto.
  - cbn [s_prev s_rest s_caps]. rewrite consumed_self, run_chr. auto.
Qed.

Lemma match_tag m t rest prev x : ~ In 34 t -> ~ In 10 t ->
  run etag_sep_re (St (Some 34) rest (tag_caps (m, t))) Some = Some x ->
  match_at etag_re prev (write_tag (m, t) ++ rest) = Some x.
Proof.
  intros H34 H10 Hk. unfold match_at, etag_re, write_tag, tag_caps in *. cbn [fst snd] in *.
  rewrite run_seq. rewrite <- app_assoc, <- app_comm_cons, <- app_assoc.
  destruct m.
  - cbn [app]. rewrite run_opt_miss.
    + apply run_body; auto.
    + rewrite run_group, run_seq. apply run_set_no. intros c r E. inv E. reflexivity.
  - apply run_opt_hit. rewrite run_group, run_seq. cbn [lit app].
    rewrite run_set_ok by reflexivity. rewrite run_chr. cbn [s_prev s_rest s_caps].
    match goal with |- context [consumed ?a ?b] =>
      replace (consumed a b) with (lit "W/") by (symmetry; apply (consumed_app _ _ (lit "W/")); reflexivity) end.
    apply run_body; auto.
  - apply run_opt_hit. rewrite run_group, run_seq. cbn [lit app].
    rewrite run_set_ok by reflexivity. rewrite run_chr. cbn [s_prev s_rest s_caps].
    match goal with |- context [consumed ?a ?b] =>
      replace (consumed a b) with (lit "w/") by (symmetry; apply (consumed_app _ _ (lit "w/")); reflexivity) end.
    apply run_body; auto.
Qed.

Lemma tag_list_head h l : tag_list h l -> forall c r, h = c :: r -> is_space c = false.
Proof.
  assert (W : forall t s c r, write_tag t ++ s = c :: r -> is_space c = false).
  { intros [m t] s c r E. unfold write_tag in E. cbn [fst snd] in E. destruct m; inv E; reflexivity. }
  intros H c r E. inv H; eauto. apply (W t [] c r). rewrite app_nil_r. auto.
Qed.
Lemma write_nonnil t s : write_tag t ++ s <> [].
Proof. destruct t as [[] t]; discriminate. Qed.

Lemma etags_loop_list h l : tag_list h l -> Forall plain_tag l -> forall fuel prev strong weak,
  (length h <= fuel)%nat ->
  etags_loop fuel prev h strong weak = Some (etags_new (strong ++ texts false l) (weak ++ texts true l) false).
Proof.
  induction 1 as [[m t]|[m t] a b h l Ha Hb Hl IH]; intros Hp fuel prev strong weak Hf.
  - inv Hp. destruct H1 as (Hne & H34 & H10). cbn [snd] in *.
    assert (E : match_at etag_re prev (write_tag (m, t) ++ []) = Some (St (Some 34) [] (tag_caps (m, t)))).
    { apply match_tag; auto; try (apply run_sep_end; reflexivity). }
    rewrite app_nil_r in E.
    destruct fuel as [|f]; [destruct m; cbn in Hf; lia|].
    assert (Hstep : etags_loop (S f) prev (write_tag (m, t)) strong weak =
      match m with Strong => etags_loop f (Some 34) [] (strong ++ [Some t]) weak
                 | _ => etags_loop f (Some 34) [] strong (weak ++ [Some t]) end).
    { cbn [etags_loop]. destruct (write_tag (m, t)) eqn:Ew; [destruct m; discriminate|]. rewrite E.
      destruct t; [congruence|]. destruct m; reflexivity. }
    rewrite Hstep. destruct m; cbn [texts map filter weak_mark Bool.eqb fst snd]; rewrite app_nil_r; destruct f; reflexivity.
  - inv Hp. destruct H1 as (Hne & H34 & H10). cbn [snd] in *.
    set (rest := a ++ 44 :: b ++ h) in *.
    assert (E : match_at etag_re prev (write_tag (m, t) ++ rest) =
                Some (St (last_or (last_or (last_or (Some 34) a) [44]) b) h (tag_caps (m, t)))).
    { apply match_tag; auto. apply run_sep_comma; auto. eapply tag_list_head; eauto. }
    rewrite app_length in Hf. assert (Hlh : (length h < fuel)%nat).
    { unfold rest in Hf. rewrite app_length in Hf. cbn [length] in Hf. rewrite app_length in Hf. lia. }
    destruct fuel as [|f]; [lia|].
    assert (Hstep : etags_loop (S f) prev (write_tag (m, t) ++ rest) strong weak =
      match m with Strong => etags_loop f (last_or (last_or (last_or (Some 34) a) [44]) b) h (strong ++ [Some t]) weak
                 | _ => etags_loop f (last_or (last_or (last_or (Some 34) a) [44]) b) h strong (weak ++ [Some t]) end).
    { cbn [etags_loop]. destruct (write_tag (m, t) ++ rest) eqn:Ew; [destruct (write_nonnil _ _ Ew)|]. rewrite E.
      destruct t; [congruence|]. destruct m; reflexivity. }
    rewrite Hstep. unfold texts in *.
    destruct m; rewrite IH by (auto; lia); cbn [texts map filter weak_mark Bool.eqb fst snd];
      rewrite <- app_assoc; reflexivity.
Qed.

(** A list of tags before a final line feed: the loop comes to the line feed alone
    and stays there. *)
Lemma newline_stays fuel : forall prev strong weak, etags_loop fuel prev [10] strong weak = None.
Proof.
  induction fuel as [|f IH]; intros prev strong weak; [reflexivity|].
  assert (E : match_at etag_re prev [10] = Some (St prev [10] [(3%nat, [])])) by (vm_compute; reflexivity).
  cbn [etags_loop]. rewrite E. cbn. apply IH.
Qed.
Lemma run_sep_newline prev caps : run etag_sep_re (St prev [10] caps) Some = Some (St prev [10] caps).
Proof. reflexivity. Qed.

Lemma etags_loop_list_newline h l : tag_list h l -> Forall plain_tag l -> forall fuel prev strong weak,
  etags_loop fuel prev (h ++ [10]) strong weak = None.
Proof.
  induction 1 as [[m t]|[m t] a b h l Ha Hb Hl IH]; intros Hp fuel prev strong weak.
  - inv Hp. destruct H1 as (Hne & H34 & H10). cbn [snd] in *.
    assert (E : match_at etag_re prev (write_tag (m, t) ++ [10]) = Some (St (Some 34) [10] (tag_caps (m, t)))).
    { apply match_tag; auto using run_sep_newline. }
    destruct fuel as [|f]; [destruct m; reflexivity|].
    cbn [etags_loop]. destruct (write_tag (m, t) ++ [10]) eqn:Ew; [destruct (write_nonnil _ _ Ew)|]. rewrite E.
    destruct t; [congruence|]. destruct m; apply newline_stays.
  - inv Hp. destruct H1 as (Hne & H34 & H10). cbn [snd] in *.
    assert (Hh : forall c r, h ++ [10] = c :: r -> is_space c = false).
    { intros c r E. destruct h as [|c' h']; [exfalso|].
      - inv Hl; [destruct t0 as [[] ?]; discriminate|destruct (write_nonnil _ _ H)].
      - inv E. eapply tag_list_head; eauto. }
    assert (E : match_at etag_re prev (write_tag (m, t) ++ a ++ 44 :: b ++ h ++ [10]) =
                Some (St (last_or (last_or (last_or (Some 34) a) [44]) b) (h ++ [10]) (tag_caps (m, t)))).
    { apply match_tag; auto. apply run_sep_comma; auto. }
    replace ((write_tag (m, t) ++ a ++ 44 :: b ++ h) ++ [10]) with (write_tag (m, t) ++ a ++ 44 :: b ++ h ++ [10])
      by (rewrite <- !app_assoc; cbn [app]; rewrite <- app_assoc; reflexivity).
    destruct fuel as [|f]; [destruct m; reflexivity|].
    cbn [etags_loop]. destruct (write_tag (m, t) ++ a ++ 44 :: b ++ h ++ [10]) eqn:Ew; [destruct (write_nonnil _ _ Ew)|].
    rewrite E. destruct t; [congruence|]. destruct m; apply IH; auto.
Qed.

Lemma parse_etags_list h l fuel : tag_list h l -> Forall plain_tag l -> (length h <= fuel)%nat ->
  parse_etags fuel h = Some (ET (texts false l) (texts true l) false).
Proof. intros. unfold parse_etags. rewrite (etags_loop_list h l); auto. Qed.

Lemma parse_etags_star fuel : (1 <= fuel)%nat -> parse_etags fuel [42] = Some (ET [] [] true).
Proof.
  intros H. destruct fuel; [lia|].
  assert (E : match_at etag_re None [42] = Some (St (Some 42) [] [(3%nat, [42])])) by (vm_compute; reflexivity).
  unfold parse_etags. cbn [etags_loop]. rewrite E. reflexivity.
Qed.

Lemma parse_etags_terminates v : (forall u, v <> u ++ [10]) -> forall fuel, (length v <= fuel)%nat ->
  exists e, parse_etags fuel v = Some e.
Proof. intros H fuel Hf. apply etags_loop_terminates; auto. Qed.

(** ** The decision *)
Lemma has_tag_texts t w l : has_tag (Some t) (texts w l) = true <-> exists m, In (m, t) l /\ weak_mark m = w.
Proof.
  unfold has_tag, texts. rewrite existsb_exists. split.
  - intros (x & Hx & E). apply in_map_iff in Hx as ([m y] & <- & Hy). cbn [snd] in E. apply eqs_eq in E. subst.
    apply filter_In in Hy as [Hy Hw]. exists m. cbn [fst] in Hw. apply eqb_prop in Hw. auto.
  - intros (m & Hm & Hw). exists (Some t). split; [|apply eqs_refl]. apply in_map_iff. exists (m, t). split; auto.
    apply filter_In. split; auto. cbn [fst]. rewrite Hw. apply eqb_reflx.
Qed.

Lemma contains_raw_list l m t :
  et_contains_raw (ET (texts false l) (texts true l) false) (write_tag (m, t)) = true <->
  tag_matches l (weak_mark m) t.
Proof.
  unfold et_contains_raw. rewrite unquote_quoted. unfold et_contains_weak, et_contains, et_is_weak, tag_matches.
  cbn [e_star e_strong e_weak orb].
  destruct (weak_mark m).
  - rewrite orb_true_iff, !has_tag_texts. split.
    + intros [(m' & H1 & H2)|(m' & H1 & H2)]; eauto.
    + intros (m' & H1 & _). destruct (weak_mark m') eqn:E; [left|right]; eauto.
  - rewrite has_tag_texts. split; [intros (m' & H1 & H2); eauto|]. intros (m' & H1 & [H2|H2]); [eauto|discriminate].
Qed.

Lemma tag_list_nonempty h l : tag_list h l -> l <> [].
Proof. destruct 1; discriminate. Qed.
Lemma et_bool_list l : l <> [] -> et_bool (ET (texts false l) (texts true l) false) = true.
Proof.
  destruct l as [|[m t] l]; [congruence|]. intros _. unfold et_bool, texts. cbn [filter fst].
  destruct m; cbn; auto. destruct (map _ _); auto. destruct (map _ _); auto.
Qed.

Lemma method_get m : (eqs m (lit "GET") || eqs m (lit "HEAD")) = true <-> get_or_head m.
Proof. rewrite orb_true_iff, !eqs_eq. reflexivity. Qed.

Lemma write_cons t : exists c r, write_tag t = c :: r.
Proof. destruct t as [[] t]; cbn; eauto. Qed.

Lemma decision_tags date md5 fuel env h l m t lastmod :
  get_or_head (ce_method env) -> ce_inm env = Some h -> tag_list h l -> Forall plain_tag l -> (length h <= fuel)%nat ->
  exists b, is_resource_modified date md5 fuel env (Some (write_tag (m, t))) None lastmod = Some (Ok b) /\
  (b = false <-> tag_matches l (weak_mark m) t).
Proof.
  intros Hm Hi Hl Hp Hf. unfold is_resource_modified. rewrite (proj2 (method_get _) Hm). cbn [negb].
  destruct (write_cons (m, t)) as (c & r & E). rewrite E, Hi.
  rewrite (parse_etags_list h l fuel) by auto. rewrite et_bool_list by (eapply tag_list_nonempty; eauto).
  eexists. split; [reflexivity|]. rewrite negb_false_iff, <- E. apply contains_raw_list.
Qed.

Lemma decision_star date md5 fuel env m t lastmod :
  get_or_head (ce_method env) -> ce_inm env = Some [42] -> (1 <= fuel)%nat ->
  is_resource_modified date md5 fuel env (Some (write_tag (m, t))) None lastmod = Some (Ok false).
Proof.
  intros Hm Hi Hf. unfold is_resource_modified. rewrite (proj2 (method_get _) Hm). cbn [negb].
  destruct (write_cons (m, t)) as (c & r & E). rewrite E, Hi.
  rewrite parse_etags_star by auto. cbn [et_bool e_star orb]. rewrite <- E.
  unfold et_contains_raw. rewrite unquote_quoted. unfold et_contains_weak, et_contains. cbn [e_star orb].
  destruct (weak_mark m); rewrite ?orb_true_r; reflexivity.
Qed.

(** No tag list decides: no If-None-Match, or the resource has no tag. *)
Lemma decision_date date md5 fuel env etag lastmod :
  get_or_head (ce_method env) ->
  (ce_inm env = None \/ ce_inm env = Some [] \/ etag = None) ->
  exists b, is_resource_modified date md5 fuel env etag None lastmod = Some (Ok b) /\
  (b = false <-> exists h since m, ce_ims env = Some h /\ date h = Some since /\ lastmod = Some m /\
                                   (m / 1000000 * 1000000 <= since)%Z).
Proof.
  intros Hm Hc.
  assert (E : is_resource_modified date md5 fuel env etag None lastmod =
    Some (Ok (negb match (match ce_ims env with None => None | Some h => date h end), lastmod with
                   | Some s, Some m => (whole_second m <=? s)%Z | _, _ => false end))).
  { unfold is_resource_modified. rewrite (proj2 (method_get _) Hm). cbn [negb option_map].
    destruct etag as [[|c t]|]; auto. destruct Hc as [->|[->|?]]; try discriminate; auto.
    unfold parse_etags. destruct fuel; reflexivity. }
  eexists. split; [exact E|]. rewrite negb_false_iff. clear E.
  assert (W : forall m, whole_second m = (m / 1000000 * 1000000)%Z).
  { intros m. unfold whole_second. pose proof (Z.div_mod m 1000000 ltac:(lia)). lia. }
  destruct (ce_ims env) as [h|].
  2: { split; [discriminate|]. intros (h & s & m & H & _). discriminate. }
  destruct (date h) as [s|] eqn:Ed.
  2: { split; [discriminate|]. intros (h' & s & m & H & H2 & _). inv H. congruence. }
  destruct lastmod as [m|].
  2: { split; [discriminate|]. intros (h' & s' & m & H & H2 & H3 & _). discriminate. }
  rewrite W, Z.leb_le. split.
  - intros H. exists h, s, m. auto.
  - intros (h' & s' & m' & H1 & H2 & H3 & H4). inv H1. inv H3. rewrite Ed in H2. inv H2. auto.
Qed.

Lemma decision_data date md5 fuel env data lastmod :
  is_resource_modified date md5 fuel env None (Some data) lastmod =
  is_resource_modified date md5 fuel env (Some (md5 data)) None lastmod.
Proof. reflexivity. Qed.

Lemma decision_both date md5 fuel env e data lastmod :
  is_resource_modified date md5 fuel env (Some e) (Some data) lastmod = Some (Raise TypeError).
Proof. reflexivity. Qed.

Lemma decision_other_methods date md5 fuel env etag lastmod :
  ~ get_or_head (ce_method env) -> is_resource_modified date md5 fuel env (Some etag) None lastmod = Some (Ok false).
Proof.
  intros H. unfold is_resource_modified. rewrite <- method_get in H.
  destruct (eqs (ce_method env) (lit "GET") || eqs (ce_method env) (lit "HEAD")); [congruence|reflexivity].
Qed.

(** ** One round for each character, or no end *)
Lemma etags_loop_rounds fuel : forall prev s strong weak e,
  etags_loop fuel prev s strong weak = Some e -> etags_loop (length s) prev s strong weak = Some e.
Proof.
  induction fuel as [|f IH]; intros prev s strong weak e H.
  - destruct s; [exact H|discriminate].
  - destruct s as [|c s]; [exact H|].
    destruct (list_eq_dec N.eq_dec (c :: s) [10]) as [E10|N10]; [rewrite E10, newline_stays in H; discriminate|].
    cbn [etags_loop length] in *. destruct (match_at etag_re prev (c :: s)) as [m|] eqn:E; [|exact H].
    apply etag_progress in E as (u & Hu & Eu); [|discriminate|exact N10].
    assert (Hl : (length (s_rest m) <= length s)%nat).
    { apply (f_equal (@length N)) in Eu. rewrite app_length in Eu. destruct u; [congruence|]. cbn [length] in *. lia. }
    destruct (match cap (s_caps m) 3 with Some r => eqs r [42] | None => false end); [exact H|].
    destruct (cap (s_caps m) 1); apply IH in H; eapply etags_loop_more; eauto.
Qed.
Lemma parse_etags_rounds v : (forall fuel, parse_etags fuel v = None) \/
  exists e, forall fuel, (length v <= fuel)%nat -> parse_etags fuel v = Some e.
Proof.
  unfold parse_etags. destruct (etags_loop (length v) None v [] []) as [e|] eqn:E.
  - right. exists e. intros fuel L. eapply etags_loop_more; eauto.
  - left. intros fuel. destruct (etags_loop fuel None v [] []) as [e|] eqn:F; [|reflexivity].
    apply etags_loop_rounds in F. congruence.
Qed.
