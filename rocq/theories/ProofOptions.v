(** Lemmas for option headers (Content-Type like). *)
From Coq Require Import Arith List NArith ZArith Bool Lia ZifyBool ZifyN.
From Verif Require Import PyStr PyStrFacts Regex RegexFacts ModelQuote SpecQuote ProofQuote.
Import ListNotations.
Open Scope N_scope.

(** Body of an escaped string as seen by [_quoted_string_re]: a run of plain
    characters, then escape pairs each followed by a run of plain characters. *)
Inductive pairs : str -> Prop :=
| pairs_nil : pairs []
| pairs_cons c u w : c <> 10 -> forallb not_quote_bs u = true -> pairs w -> pairs (92 :: c :: u ++ w).

Lemma esc_pairs v : exists u w, esc v = u ++ w /\ forallb not_quote_bs u = true /\ pairs w.
Proof.
  unfold esc. induction v as [|c v (u & w & E & Hu & Hw)]; [exists [], []; repeat split; auto; constructor|].
  cbn [flat_map]. rewrite E. unfold esc_c. destruct (c =? 92) eqn:E1.
  - exists [], (92 :: 92 :: u ++ w). repeat split; auto. constructor; auto. discriminate.
  - destruct (c =? 34) eqn:E2.
    + exists [], (92 :: 34 :: u ++ w). repeat split; auto. constructor; auto. discriminate.
    + exists (c :: u), w. repeat split; auto. cbn [forallb]. unfold not_quote_bs at 1. rewrite E1, E2. auto.
Qed.

Lemma pairs_head w rest d r : pairs w -> w ++ 34 :: rest = d :: r -> not_quote_bs d = false.
Proof. intros Hw Ed. destruct Hw; cbn [app] in Ed; inv Ed; auto. Qed.

Lemma pairs_star {R} w : pairs w -> forall fuel prev rest caps (k : st -> option R) x,
  (length (w ++ 34%N :: rest) <= fuel)%nat ->
  (forall prev', k (St prev' (34 :: rest) caps) = Some x) ->
  star_g (run (RSeq (RChr 92) (RSeq RDot (RStar true (RSet not_quote_bs))))) fuel
         (St prev (w ++ 34 :: rest) caps) k = Some x.
Proof.
  induction 1 as [|c u w Hc Hu Hw IH]; intros fuel prev rest caps k x Hf Hk.
  - destruct fuel; cbn [star_g app]; auto.
    rewrite run_seq, run_chr_no; auto. discriminate.
  - destruct fuel; [cbn [app length] in Hf; lia|]. cbn [star_g].
    set (kk := fun s' => _).
    assert (E : run (RSeq (RChr 92) (RSeq RDot (RStar true (RSet not_quote_bs))))
       (St prev ((92 :: c :: u ++ w) ++ 34 :: rest) caps) kk = Some x).
    { cbn [app]. rewrite run_seq, run_chr, run_seq. unfold RDot. rewrite run_set_ok.
      2: { replace (c =? 10) with false by (symmetry; apply N.eqb_neq; auto). auto. }
      rewrite <- app_assoc. apply run_star_set_g; auto.
      - intros d r. apply pairs_head. auto.
      - unfold kk. cbn [s_rest app].
        replace (_ <? _)%nat with true.
        + apply IH; auto. cbn [app length] in Hf. rewrite <- app_assoc, app_length in Hf.
          rewrite app_length in *. cbn [length] in *. lia.
        + symmetry; apply Nat.ltb_lt. cbn [length]. rewrite <- app_assoc, !app_length. lia. }
    rewrite E. auto.
Qed.

Lemma run_quoted {R} v prev rest caps (k : st -> option R) x :
  k (St (Some 34) rest caps) = Some x ->
  run quoted_string_re (St prev (34 :: esc v ++ 34 :: rest) caps) k = Some x.
Proof.
  intros Hk. destruct (esc_pairs v) as (u & w & -> & Hu & Hw).
  unfold quoted_string_re. rewrite run_seq, run_chr, run_seq.
  rewrite <- app_assoc. apply run_star_set_g; auto.
  - intros d r. apply pairs_head. auto.
  - rewrite run_seq. cbn [run]. apply pairs_star; auto.
Qed.

Lemma run_quoted_fail {R} prev s caps (k : st -> option R) :
  (forall r, s <> 34 :: r) -> run quoted_string_re (St prev s caps) k = None.
Proof. intros H. unfold quoted_string_re. rewrite run_seq, run_chr_no; auto. Qed.

Lemma run_ws_none {R} prev s caps (k : st -> option R) x :
  (forall c r, s = c :: r -> is_space c = false) ->
  k (St prev s caps) = Some x -> run ws_re (St prev s caps) k = Some x.
Proof.
  intros H Hk. apply (run_star_set_g is_space [] prev s caps k x); auto.
Qed.

(** ** One piece *)

(** A name that the option regex reads as a bare key: non-empty, without blank,
    ';' or '=', and not starting with a double quote. *)
Definition opt_name (k : str) : Prop :=
  exists c u, k = c :: u /\ c <> 34 /\ forallb opt_key_c (c :: u) = true.

Lemma token_opt_name k : is_token k -> opt_name k.
Proof.
  intros H. apply key_token in H as [H Hn]. destruct k as [|c u]; [congruence|].
  exists c, u. split; auto. split.
  - cbn [forallb] in H. apply andb_true_iff in H as [H _]. apply token_char_ne in H. tauto.
  - revert H. apply forallb_impl. intros d Hd. apply token_char_ne in Hd. unfold opt_key_c.
    rewrite !andb_true_iff, !negb_true_iff, !N.eqb_neq. tauto.
Qed.

Definition piece_end (s : str) : Prop := s = [] \/ exists r, s = 59 :: r.

(** What [parse_options_header] makes of one dumped option. *)
Definition reread_option (kv : str * option str) : str * option str :=
  (fst kv, match snd kv with
           | Some [] => None
           | Some v => Some (unquote_header_value (eqs (fst kv) (lit "filename")) (quote_header_value true v))
           | None => None
           end).

Lemma opt_name_unquote k : opt_name k -> unquote_header_value false k = k.
Proof.
  intros (c & u & -> & Hc & _). unfold unquote_header_value, quoted_both.
  replace (c =? 34) with false by (symmetry; apply N.eqb_neq; auto). auto.
Qed.

Definition key_re := RGroup 1 (RAlt quoted_string_re (RPlus true (RSet opt_key_c))).
Definition val_re := RGroup 2 (RAlt quoted_string_re (RPlus true (RSet opt_val_c))).

Lemma run_key {R} k prev rest caps (kk : st -> option R) x :
  opt_name k ->
  (forall d r, rest = d :: r -> opt_key_c d = false) ->
  kk (St (last_or prev k) rest ((1%nat, k) :: caps)) = Some x ->
  run key_re (St prev (k ++ rest) caps) kk = Some x.
Proof.
  intros (c & u & -> & Hc & Hu) Hr Hk.
  unfold key_re. rewrite run_group, run_alt, run_quoted_fail.
  - cbn [forallb] in Hu. apply andb_true_iff in Hu as [H1 H2].
    change ((c :: u) ++ rest) with (c :: u ++ rest).
    apply run_plus_set; auto. cbn [s_prev s_rest s_caps].
    change (c :: u ++ rest) with ((c :: u) ++ rest). rewrite consumed_self. auto.
  - intros r Er. inv Er. congruence.
Qed.

Lemma token_opt_val v : forallb is_token_char v = true -> forallb opt_val_c v = true.
Proof.
  apply forallb_impl. intros c H. apply token_char_ne in H. unfold opt_val_c.
  rewrite negb_true_iff, N.eqb_neq. tauto.
Qed.

Lemma run_val {R} v prev rest caps (kk : st -> option R) x :
  v <> [] -> piece_end rest ->
  kk (St (last_or prev (quote_header_value true v)) rest ((2%nat, quote_header_value true v) :: caps)) = Some x ->
  run val_re (St prev (quote_header_value true v ++ rest) caps) kk = Some x.
Proof.
  intros Hv Hr Hk. unfold val_re. rewrite run_group, run_alt.
  destruct (quote_seen_cases true v) as [(Eq & _ & Ht)|(Eq & _)]; rewrite Eq in *.
  - rewrite run_quoted_fail.
    + destruct v as [|c u]; [congruence|].
      change ((c :: u) ++ rest) with (c :: u ++ rest).
      pose proof (token_opt_val _ Ht) as Hov. cbn [forallb] in Hov. apply andb_true_iff in Hov as [H1 H2].
      apply run_plus_set; auto.
      * intros d r E. destruct Hr as [->|[r' ->]]; inv E. auto.
      * cbn [s_prev s_rest s_caps]. change (c :: u ++ rest) with ((c :: u) ++ rest). rewrite consumed_self. auto.
    + intros r Er. destruct v as [|c u]; [congruence|]. cbn [app] in Er. inv Er.
      cbn [forallb] in Ht. discriminate.
  - replace ((34 :: esc v ++ [34]) ++ rest) with (34 :: esc v ++ 34 :: rest)
      by (cbn [app]; rewrite <- app_assoc; auto).
    erewrite run_quoted; [reflexivity|]. cbn [s_prev s_rest s_caps].
    replace (34 :: esc v ++ 34 :: rest) with ((34 :: esc v ++ [34]) ++ rest)
      by (cbn [app]; rewrite <- app_assoc; auto).
    rewrite consumed_self. rewrite <- Hk. f_equal. f_equal.
    unfold last_or. cbn [rev]. rewrite rev_app_distr. auto.
Qed.

Definition front_re := RSeq (RChr 59) (RSeq ws_re key_re).
Definition optval_re := RSeq (RChr 61) (RSeq ws_re val_re).
Definition back_re := RSeq ws_re (RSeq (ROpt optval_re) ws_re).

Lemma piece_split prev s :
  match_at option_header_piece_re prev s = run front_re (St prev s []) (fun s' => run back_re s' Some).
Proof. reflexivity. Qed.

Lemma run_front k sp prev tail (kk : st -> option st) x :
  opt_name k -> sp = [] \/ sp = [32] ->
  (forall d r, tail = d :: r -> opt_key_c d = false) ->
  kk (St (last_or (last_or (Some 59) sp) k) tail [(1%nat, k)]) = Some x ->
  run front_re (St prev (59 :: sp ++ k ++ tail) []) kk = Some x.
Proof.
  intros Hk Hsp Ht H. unfold front_re. rewrite run_seq, run_chr, run_seq.
  apply (run_star_set_g is_space sp (Some 59) (k ++ tail) []).
  - destruct Hsp as [->| ->]; auto.
  - intros d r E. destruct Hk as (c & u & -> & _ & Hu). inv E.
    cbn [forallb] in Hu. unfold opt_key_c in Hu. destruct (is_space d); auto.
  - apply run_key; auto.
Qed.

Lemma piece_end_head rest : piece_end rest ->
  forall d r, rest = d :: r -> opt_key_c d = false /\ is_space d = false /\ d <> 61 /\ d <> 34 /\ opt_val_c d = false.
Proof.
  intros Hr d r E. destruct Hr as [->|[r' ->]]; inv E. repeat split; auto; discriminate.
Qed.

(** Matching one piece; the part left over is [rest], or "=" followed by
    [rest] when the value was empty. *)
Lemma piece_match kv sp prev rest :
  opt_name (fst kv) -> sp = [] \/ sp = [32] -> piece_end rest ->
  exists m pre,
    match_at option_header_piece_re prev (59 :: sp ++ dump_option kv ++ rest) = Some m /\
    s_rest m = pre ++ rest /\ (pre = [] \/ pre = [61]) /\
    option_of_match m = reread_option kv.
Proof.
  intros Hk Hsp Hr. destruct kv as [k ov]. cbn [fst snd] in *.
  rewrite piece_split. pose proof (piece_end_head rest Hr) as He.
  set (p1 := last_or (last_or (Some 59) sp) k).
  destruct ov as [v|]; unfold dump_option; cbn [fst snd].
  - rewrite <- app_assoc. cbn [app].
    destruct v as [|c0 v].
    + change (quote_header_value true []) with (@nil N). cbn [app].
      exists (St p1 (61 :: rest) [(1%nat, k)]), [61]. split.
      * apply run_front; auto; [intros d r E; inv E; auto|]. fold p1.
        unfold back_re. rewrite run_seq. apply run_ws_none; [intros d r E; inv E; auto|].
        rewrite run_seq, run_opt_miss;
          [apply run_ws_none; auto; intros d r E; inv E; auto|].
        unfold optval_re. rewrite run_seq, run_chr, run_seq.
        apply (run_star_set_g_none is_space [] (Some 61) rest); auto;
          [intros d r E; apply (He d r E)|].
        intros a b Eab. destruct a; [|discriminate]. destruct b; [|discriminate]. cbn [app].
        unfold val_re. rewrite run_group, run_alt, run_quoted_fail.
        -- unfold RPlus. rewrite run_seq, run_set_no; auto. intros c r E. apply (He c r E).
        -- intros r E. destruct (He _ _ E) as (_ & _ & _ & H & _). congruence.
      * repeat split; auto. unfold option_of_match, reread_option. cbn [s_caps cap Nat.eqb fst snd option_map].
        rewrite opt_name_unquote; auto.
    + set (vv := c0 :: v). set (q := quote_header_value true vv).
      assert (Hq : forall d r, q ++ rest = d :: r -> is_space d = false).
      { intros d r E. unfold q in E.
        destruct (quote_seen_cases true vv) as [(Eq & _ & Ht)|(Eq & _)]; rewrite Eq in E.
        - unfold vv in E. cbn [app] in E. inv E. unfold vv in Ht. cbn [forallb] in Ht.
          apply andb_true_iff in Ht as [Ht _]. apply token_char_ne in Ht. tauto.
        - inv E. auto. }
      exists (St (last_or (Some 61) q) rest [(2%nat, q); (1%nat, k)]), []. split.
      * apply run_front; auto; [intros d r E; inv E; auto|]. fold p1.
        unfold back_re. rewrite run_seq. apply run_ws_none; [intros d r E; inv E; auto|].
        rewrite run_seq. apply run_opt_hit.
        unfold optval_re. rewrite run_seq, run_chr, run_seq. apply run_ws_none; [exact Hq|].
        apply run_val; auto; [discriminate|].
        apply run_ws_none; auto. intros d r E; apply (He d r E).
      * repeat split; auto. unfold option_of_match, reread_option. cbn [s_caps cap Nat.eqb fst snd option_map].
        rewrite opt_name_unquote; auto.
  - exists (St p1 rest [(1%nat, k)]), []. split.
    + apply run_front; auto; [intros d r E; apply (He d r E)|]. fold p1.
      unfold back_re. rewrite run_seq. apply run_ws_none; [intros d r E; apply (He d r E)|].
      rewrite run_seq, run_opt_miss; [apply run_ws_none; auto; intros d r E; apply (He d r E)|].
      unfold optval_re. rewrite run_seq, run_chr_no; auto.
      intros r E. destruct (He _ _ E) as (_ & _ & H & _). congruence.
    + repeat split; auto. unfold option_of_match, reread_option. cbn [s_caps cap Nat.eqb fst snd option_map].
      rewrite opt_name_unquote; auto.
Qed.

(** ** All pieces *)
Definition tail_of (opts : dict (option str)) : str :=
  flat_map (fun kv => 59 :: 32 :: dump_option kv) opts.

Lemma join_opts h opts :
  join [59; 32] (h :: map dump_option opts) = h ++ tail_of opts.
Proof.
  revert h; induction opts as [|kv opts IH]; intros h; cbn [map tail_of flat_map].
  - cbn [join]. rewrite app_nil_r. auto.
  - change (join [59; 32] (h :: dump_option kv :: map dump_option opts))
      with (h ++ [59; 32] ++ join [59; 32] (dump_option kv :: map dump_option opts)).
    rewrite IH. auto.
Qed.

Lemma tail_piece_end opts : piece_end (tail_of opts).
Proof. destruct opts; [left; auto|right]. cbn [tail_of flat_map app]. eauto. Qed.

Lemma match_none_no59 prev s :
  (forall r, s <> 59 :: r) -> match_at option_header_piece_re prev s = None.
Proof. intros H. unfold match_at, option_header_piece_re. rewrite run_seq, run_chr_no; auto. Qed.

Lemma search_hit r prev s m : match_at r prev s = Some m -> search_at r prev s = Some ([], m).
Proof. intros H. destruct s; cbn [search_at]; rewrite H; auto. Qed.

Lemma finditer_opts opts : forall fuel prev pre,
  Forall (fun kv => opt_name (fst kv)) opts ->
  pre = [] \/ pre = [61] -> (length (tail_of opts) < fuel)%nat ->
  map option_of_match (finditer fuel option_header_piece_re prev (pre ++ tail_of opts)) =
  map reread_option opts.
Proof.
  induction opts as [|kv opts IH]; intros fuel prev pre Hk Hpre Hf.
  - cbn [tail_of flat_map]. rewrite app_nil_r. destruct fuel; [cbn in Hf; lia|].
    cbn [finditer]. destruct Hpre as [->| ->]; cbn [search_at].
    + rewrite match_none_no59; auto. discriminate.
    + rewrite !match_none_no59 by discriminate. auto.
  - inversion Hk as [|? ? Hk1 Hk2]; subst. destruct fuel; [lia|].
    change (tail_of (kv :: opts)) with (59 :: [32] ++ dump_option kv ++ tail_of opts) in *.
    assert (Hs : forall prev, exists m p pre',
        search_at option_header_piece_re prev (pre ++ 59 :: [32] ++ dump_option kv ++ tail_of opts) = Some (p, m)
        /\ s_rest m = pre' ++ tail_of opts /\ (pre' = [] \/ pre' = [61]) /\ option_of_match m = reread_option kv).
    { intros prev0. destruct Hpre as [->| ->].
      - destruct (piece_match kv [32] prev0 (tail_of opts) Hk1 (or_intror eq_refl) (tail_piece_end _))
          as (m & pre' & E & Hrest & Hp & Ho).
        exists m, [], pre'. cbn [app] in *. repeat split; auto. apply search_hit; auto.
      - destruct (piece_match kv [32] (Some 61) (tail_of opts) Hk1 (or_intror eq_refl) (tail_piece_end _))
          as (m & pre' & E & Hrest & Hp & Ho).
        exists m, [61], pre'. cbn [app] in *. repeat split; auto.
        cbn [search_at]. rewrite match_none_no59 by discriminate.
        pose proof (search_hit _ _ _ _ E) as Es. cbn [search_at] in Es. rewrite Es. auto. }
    destruct (Hs prev) as (m & p & pre' & Es & Hrest & Hp & Ho).
    cbn [finditer]. rewrite Es. cbn [map]. rewrite Ho, Hrest. f_equal.
    apply IH; auto. cbn [app length] in Hf. rewrite !app_length in Hf. lia.
Qed.

Lemma options_exact h opts :
  opt_name h -> Forall (fun kv => opt_name (fst kv)) opts -> NoDup (map fst opts) ->
  parse_options_header (dump_options_header (Some h) opts) = Ok (h, map reread_option opts).
Proof.
  intros Hh Ho Hd. unfold dump_options_header. cbn [app]. rewrite join_opts.
  unfold parse_options_header.
  assert (Hne : exists c r, h ++ tail_of opts = c :: r).
  { destruct Hh as (c & u & -> & _). cbn [app]. eauto. }
  destruct Hne as (c & r & Ec). rewrite Ec, <- Ec.
  destruct (piece_match (h, None) [] None (tail_of opts) Hh (or_introl eq_refl) (tail_piece_end _))
    as (m & pre & E & Hrest & Hp & Hm).
  unfold dump_option in E. cbn [fst snd app] in E.
  cbn [length finditer]. rewrite (search_hit _ _ _ _ E). cbn [map]. rewrite Hm, Hrest.
  cbn [reread_option fst snd].
  rewrite finditer_opts; auto.
  - rewrite (fold_dset_nodup (map reread_option opts) []); auto.
    cbn [app]. rewrite map_map. cbn [reread_option fst]. auto.
  - rewrite app_length. destruct Hh as (c' & u & -> & _). cbn [length]. lia.
Qed.

Lemma options_roundtrip h opts :
  opt_name h -> Forall (fun kv => opt_name (fst kv)) opts -> NoDup (map fst opts) ->
  Forall (fun kv => forall v, snd kv = Some v ->
            v <> [] /\ (fst kv = lit "filename" -> forall r, v <> 92 :: r)) opts ->
  parse_options_header (dump_options_header (Some h) opts) = Ok (h, opts).
Proof.
  intros Hh Ho Hd Hv. rewrite options_exact; auto. f_equal. f_equal.
  rewrite <- (map_id opts) at 2. apply map_ext_in. intros [k [v|]] Hi; auto.
  rewrite Forall_forall in Hv. destruct (Hv _ Hi v eq_refl) as [Hne Hf]. cbn [fst] in Hf.
  unfold reread_option. cbn [fst snd]. destruct v as [|c v]; [congruence|]. f_equal. f_equal.
  destruct (eqs k (lit "filename")) eqn:Ek.
  2: apply quote_unquote.
  apply eqs_eq in Ek. specialize (Hf Ek).
  destruct (quote_cases true (c :: v)) as [(-> & Ht & _)| ->]; unfold unquote_header_value.
  - rewrite quoted_both_token; auto.
  - rewrite quoted_both_wrap, middle_quoted. cbn [negb orb].
    replace (starts [92; 92] (esc (c :: v))) with false; [apply unesc|].
    symmetry. unfold esc. cbn [flat_map]. unfold esc_c at 1.
    destruct (c =? 92) eqn:E1.
    + apply N.eqb_eq in E1. subst. exfalso. eapply Hf; eauto.
    + destruct (c =? 34); cbn [app starts]; auto. rewrite N.eqb_sym, E1. auto.
Qed.

Lemma option_name_iff k : option_name k <-> opt_name k.
Proof.
  unfold option_name, opt_name. split.
  - intros (H1 & H2 & H3). destruct k as [|c u]; [congruence|]. exists c, u. split; auto.
    split; [intros ->; eapply H3; eauto|].
    rewrite forallb_forall. rewrite Forall_forall in H2. intros x Hx. specialize (H2 x Hx).
    unfold opt_key_c. rewrite !andb_true_iff, !negb_true_iff, !N.eqb_neq. tauto.
  - intros (c & u & -> & Hc & H). split; [discriminate|]. split; [|intros r E; inv E; congruence].
    rewrite forallb_forall in H. rewrite Forall_forall. intros x Hx. specialize (H x Hx).
    unfold opt_key_c in H. rewrite !andb_true_iff, !negb_true_iff, !N.eqb_neq in H. tauto.
Qed.

Lemma options_roundtrip_spec h opts :
  option_name h -> Forall (fun kv => option_name (fst kv)) opts -> NoDup (map fst opts) ->
  Forall (fun kv => forall v, snd kv = Some v ->
            v <> [] /\ (fst kv = lit "filename" -> forall r, v <> 92 :: r)) opts ->
  parse_options_header (dump_options_header (Some h) opts) = Ok (h, opts).
Proof.
  intros Hh Ho. apply options_roundtrip.
  - apply option_name_iff; auto.
  - revert Ho. apply Forall_impl. intros. apply option_name_iff; auto.
Qed.

Lemma token_option_name k : is_token k -> option_name k.
Proof. intros. apply option_name_iff, token_opt_name; auto. Qed.

Lemma doubled_esc v : esc v = doubled v.
Proof.
  unfold esc, doubled. apply flat_map_ext. intros c. unfold esc_c.
  destruct (N.eq_dec c 34) as [->|A]; [reflexivity|]. destruct (N.eq_dec c 92) as [->|B]; [reflexivity|].
  apply N.eqb_neq in A, B. rewrite A, B. reflexivity.
Qed.
Lemma reread_back kv : reread_option kv = comes_back kv.
Proof.
  destruct kv as [k [[|c v]|]]; try reflexivity. unfold reread_option, comes_back. cbn [fst snd]. f_equal.
  destruct (list_eq_dec N.eq_dec k (lit "filename")) as [->|Nk].
  2:{ replace (eqs k (lit "filename")) with false by (symmetry; apply eqs_neq; exact Nk). f_equal. apply quote_unquote. }
  rewrite eqs_refl. destruct (quote_cases true (c :: v)) as [(-> & Ht & _)| ->]; unfold unquote_header_value.
  - rewrite quoted_both_token by auto. destruct (N.eq_dec c 92) as [->|Nc]; [|reflexivity].
    cbn [forallb] in Ht. apply andb_true_iff in Ht. destruct Ht as [Ht _]. discriminate Ht.
  - rewrite quoted_both_wrap, middle_quoted. cbn [negb orb]. destruct (N.eq_dec c 92) as [->|Nc].
    + replace (starts [92; 92] (esc (92 :: v))) with true by reflexivity. cbn [negb]. f_equal. apply doubled_esc.
    + replace (starts [92; 92] (esc (c :: v))) with false; [cbn [negb]; f_equal; apply unesc|].
      symmetry. unfold esc. cbn [flat_map]. unfold esc_c at 1. apply N.eqb_neq in Nc. rewrite Nc.
      destruct (c =? 34); cbn [app starts]; auto. rewrite N.eqb_sym, Nc. reflexivity.
Qed.
Lemma options_header_exact h opts :
  option_name h -> Forall (fun kv => option_name (fst kv)) opts -> NoDup (map fst opts) ->
  parse_options_header (dump_options_header (Some h) opts) = Ok (h, map comes_back opts).
Proof.
  intros A B C. rewrite options_exact; [|apply option_name_iff; exact A| |exact C].
  - f_equal. f_equal. apply map_ext. exact reread_back.
  - revert B. apply Forall_impl. intros. apply option_name_iff; auto.
Qed.
