From Coq Require Import Arith List NArith ZArith QArith Bool Lia ZifyBool ZifyN ZifyNat.
From Verif Require Import PyStr PyStrFacts ModelAccept SpecRange SpecAccept ProofAccept
  ModelAcceptText SpecAcceptText.
Import ListNotations.
Open Scope N_scope.

Ltac inv H := inversion H; subst; clear H.

Lemma trimmed_strip s : trimmed s -> strip s = s.
Proof. intros [A B]. apply strip_by_id; auto. Qed.
Lemma strip_trimmed s : trimmed (strip s).
Proof.
  unfold strip, strip_by.
  destruct (lstrip_by_spec is_space s) as (a & _ & _ & HL).
  set (l := lstrip_by is_space s) in *. clearbody l.
  destruct (rstrip_by_spec is_space l) as (b & E & _ & HR).
  split; [|exact HR].
  intros c r H. apply (HL c (r ++ b)). rewrite E, H. reflexivity.
Qed.
Lemma strip_in c s : In c (strip s) -> In c s.
Proof.
  unfold strip, strip_by. intros H.
  destruct (lstrip_by_spec is_space s) as (a & E1 & _).
  destruct (rstrip_by_spec is_space (lstrip_by is_space s)) as (b & E2 & _).
  rewrite E1. apply in_or_app. right. rewrite E2. apply in_or_app. left. exact H.
Qed.
Lemma strip_piece s : ~ In 44 s -> ~ In 59 s -> piece (strip s).
Proof.
  intros A B. split; [apply strip_trimmed|]. split; intros H; apply strip_in in H; contradiction.
Qed.
Lemma bare_piece s : bare s -> piece s.
Proof.
  unfold bare. intros H. rewrite Forall_forall in H. repeat split; intros.
  - apply H. subst. left. reflexivity.
  - apply H. subst. apply in_or_app. right. left. reflexivity.
  - intros F. apply H in F. tauto.
  - intros F. apply H in F. tauto.
Qed.

(** ** Reading what was written *)

Lemma accept_params_pieces ps : forall d,
  (forall kv, In kv ps -> piece (fst kv) /\ ~ In 61 (fst kv) /\ piece (snd kv)) ->
  NoDup (map fst (d ++ ps)) ->
  accept_params (map (fun kv => fst kv ++ 61 :: snd kv) ps) d = Ok (d ++ ps).
Proof.
  induction ps as [|[k v] ps IH]; intros d H N; cbn [map accept_params].
  - rewrite app_nil_r. reflexivity.
  - destruct (H (k, v) (or_introl eq_refl)) as (PK & NK & PV). cbn [fst snd] in *.
    rewrite split1_app by exact NK.
    rewrite (trimmed_strip k) by apply PK. rewrite (trimmed_strip v) by apply PV.
    assert (E : dset d k v = d ++ [(k, v)]).
    { apply dset_notin, dget_none. rewrite map_app in N. cbn [map fst] in N.
      apply NoDup_remove_2 in N. rewrite in_app_iff in N. tauto. }
    rewrite E, IH.
    + rewrite <- app_assoc. reflexivity.
    + intros kv I. apply H. right. exact I.
    + rewrite <- app_assoc. exact N.
Qed.

Lemma split_pieces a ps : ~ In 59 a -> Forall (fun p => ~ In 59 p) ps ->
  split_on 59 (a ++ flat_map (fun p => 59 :: p) ps) = a :: ps.
Proof.
  revert a. induction ps as [|p ps IH]; intros a A F; cbn [flat_map].
  - rewrite app_nil_r. apply split_on_none. exact A.
  - inv F. cbn [app]. rewrite split_on_app by exact A. f_equal. apply IH; auto.
Qed.

Lemma flat_map_params ps :
  flat_map param_text ps = flat_map (fun p => 59 :: p) (map (fun kv => fst kv ++ 61 :: snd kv) ps).
Proof. induction ps as [|kv ps IH]; [reflexivity|]. cbn [flat_map map]. rewrite IH. reflexivity. Qed.

Lemma ddel_absent (d : dict str) k : dget d k = None -> ddel d k = d.
Proof.
  intros H. apply dget_none in H. unfold ddel.
  induction d as [|[k' v] d IH]; [reflexivity|].
  cbn [filter fst]. cbn [map fst] in H.
  destruct (eqs k k') eqn:E.
  - apply eqs_eq in E. subst. destruct H. left. reflexivity.
  - cbn [negb]. f_equal. apply IH. intros F. apply H. right. exact F.
Qed.

Section text.
  Variable float_of : str -> option fl.
  Variable show : fl -> str.
  Hypothesis F : exact_floats float_of show.

  (* the parameters of the text, the quality among them *)
  Definition all_params (r : range) : list (str * str) :=
    (if feq (rg_q r) f_one then [] else [(lit "q", show (rg_q r))]) ++ rg_params r.
  Lemma range_header_params r : range_header show r =
    rg_value r ++ flat_map (fun p => 59 :: p) (map (fun kv => fst kv ++ 61 :: snd kv) (all_params r)).
  Proof.
    unfold range_header, all_params. rewrite <- flat_map_params, flat_map_app. f_equal.
    destruct (feq (rg_q r) f_one); [reflexivity|].
    cbn [flat_map]. rewrite app_nil_r. reflexivity.
  Qed.

  Lemma all_params_ok k r : writable float_of k r ->
    (forall kv, In kv (all_params r) -> piece (fst kv) /\ ~ In 61 (fst kv) /\ piece (snd kv))
    /\ NoDup (map fst (all_params r)).
  Proof.
    intros (_ & _ & (s & x & E & Q) & N & P & _).
    unfold all_params. destruct (feq (rg_q r) f_one); cbn [app].
    - split; [|exact N]. intros [key v] I. destruct (P _ _ I) as (A & B & _ & C). auto.
    - split.
      + intros [key v] [I|I].
        * injection I as <- <-. cbn [fst snd]. split; [|split].
          -- apply bare_piece. repeat constructor; discriminate.
          -- intros [D|[]]. discriminate.
          -- apply bare_piece. rewrite Q. apply (ef_bare _ _ F s). exact E.
        * destruct (P _ _ I) as (A & B & _ & C). auto.
      + cbn [map fst]. constructor; [|exact N].
        intros I. apply in_map_iff in I as ([key v] & EK & I). cbn [fst] in EK. subst key.
        destruct (P _ _ I) as (_ & _ & D & _). apply D. reflexivity.
  Qed.

  Lemma no_q k r : writable float_of k r -> dget (rg_params r) (lit "q") = None.
  Proof.
    intros (_ & _ & _ & _ & P & _). apply dget_none. intros I.
    apply in_map_iff in I as ([key v] & EK & I). cbn [fst] in EK. subst key.
    destruct (P _ _ I) as (_ & _ & D & _). apply D. reflexivity.
  Qed.

  Lemma clamp_one x s : float_of s = Some x -> feq (clamp x) f_one = true -> clamp x = f_one.
  Proof.
    intros E H. unfold clamp, fmax, fmin in *.
    destruct (flt f_one x) eqn:A.
    - destruct (flt f_one f_zero) eqn:B; [discriminate B|reflexivity].
    - destruct (flt x f_zero) eqn:B; [discriminate H|]. eapply ef_unique; eauto.
  Qed.
  Lemma clamp_idem x : clamp (clamp x) = clamp x.
  Proof.
    unfold clamp, fmax, fmin. destruct (flt f_one x) eqn:A.
    - reflexivity.
    - destruct (flt x f_zero) eqn:B; [reflexivity|]. rewrite A, B. reflexivity.
  Qed.

  Lemma range_read k r : writable float_of k r ->
    (do p <- split_accept_range (range_header show r);
     new_range float_of k (fst (fst p)) (snd (fst p)) (snd p)) = Ok r.
  Proof.
    intros W. pose proof (all_params_ok k r W) as (AP & AN). pose proof (no_q k r W) as NQ.
    destruct W as (PV & LV & (s & x & E & Q) & N & P & K).
    rewrite range_header_params. unfold split_accept_range.
    rewrite split_pieces.
    2: apply PV.
    2: { apply Forall_forall. intros p I. apply in_map_iff in I as (kv & <- & I).
         destruct (AP kv I) as ((_ & _ & A) & _ & (_ & _ & B)).
         rewrite in_app_iff. cbn [In]. intros [I'|[I'|I']]; [tauto|discriminate|tauto]. }
    rewrite (accept_params_pieces (all_params r) []) by (auto; exact AN).
    cbn [bind app]. cbn [fst snd]. rewrite trimmed_strip by apply PV.
    unfold new_range.
    assert (V : valid_value k (rg_value r) = true).
    { destruct k; [apply valid_media|apply valid_plain|apply valid_plain]; auto; discriminate. }
    assert (D : ddel (all_params r) (lit "q") = rg_params r).
    { unfold all_params. destruct (feq (rg_q r) f_one); cbn [app]; [apply ddel_absent; exact NQ|].
      unfold ddel. cbn [filter fst]. rewrite ProofAccept.eqs_refl. cbn [negb]. apply ddel_absent. exact NQ. }
    assert (T : exists y, float_of (match dget (all_params r) (lit "q") with
                                  | Some q => q | None => lit "1.0" end) = Some y /\ clamp y = rg_q r).
    { unfold all_params. destruct (feq (rg_q r) f_one) eqn:O; cbn [app].
      - rewrite NQ. exists f_one. split; [apply (ef_one _ _ F)|].
        rewrite Q in O. rewrite Q, (clamp_one x s E O). reflexivity.
      - cbn [dget]. rewrite ProofAccept.eqs_refl.
        exists (clamp x). rewrite Q. split; [apply (ef_read _ _ F s); exact E|apply clamp_idem]. }
    destruct T as (y & T1 & T2). rewrite V, T1, T2, D.
    assert (VP : valid_params k (rg_params r) = true).
    { destruct k; [reflexivity| |]; cbn [valid_params]; rewrite K; reflexivity. }
    rewrite VP. destruct r; reflexivity.
  Qed.

  Lemma range_header_comma k r : writable float_of k r -> ~ In 44 (range_header show r).
  Proof.
    intros W. pose proof (all_params_ok k r W) as (AP & _).
    destruct W as ((_ & A & _) & _). rewrite range_header_params, in_app_iff.
    intros [I|I]; [contradiction|].
    apply in_flat_map in I as (p & I & J). apply in_map_iff in I as (kv & <- & I).
    destruct (AP kv I) as ((_ & B & _) & _ & (_ & C & _)).
    cbn [In] in J. rewrite in_app_iff in J. cbn [In] in J.
    destruct J as [J|[J|[J|J]]]; [discriminate|tauto|discriminate|tauto].
  Qed.

  Lemma split_join (l : list str) : l <> [] -> Forall (fun s => ~ In 44 s) l ->
    split_on 44 (join [44] l) = l.
  Proof.
    induction l as [|a l IH]; intros N H; [contradiction|].
    inv H. destruct l as [|b l].
    - apply split_on_none. assumption.
    - change (join [44] (a :: b :: l)) with (a ++ 44 :: join [44] (b :: l)).
      rewrite split_on_app by assumption. f_equal. apply IH; [discriminate|assumption].
  Qed.

  Lemma written_read k l : l <> [] -> Forall (writable float_of k) l ->
    parse_accept float_of k (accept_header show l) = Ok l.
  Proof.
    intros N W. unfold parse_accept, accept_header. rewrite split_join.
    - clear N. induction W as [|r l W1 W IH]; [reflexivity|].
      cbn [map parse_ranges]. pose proof (range_read k r W1) as R.
      destruct (split_accept_range (range_header show r)) as [p|e]; cbn [bind] in *; [|discriminate].
      rewrite R. cbn [bind]. rewrite IH. reflexivity.
    - intros E. apply map_eq_nil in E. contradiction.
    - apply Forall_forall. intros s I. apply in_map_iff in I as (r & <- & I).
      eapply range_header_comma. eapply Forall_forall; eassumption.
  Qed.

  (** ** What was read can be written *)
  Lemma accept_params_inv ps : forall d d', accept_params ps d = Ok d' ->
    Forall (fun p => ~ In 44 p /\ ~ In 59 p) ps ->
    (NoDup (map fst d) /\ forall key v, In (key, v) d -> piece key /\ ~ In 61 key /\ piece v) ->
    (NoDup (map fst d') /\ forall key v, In (key, v) d' -> piece key /\ ~ In 61 key /\ piece v).
  Proof.
    induction ps as [|p ps IH]; intros d d' H FP I; cbn [accept_params] in H.
    - injection H as <-. exact I.
    - destruct (split1 61 p) as [[k v]|] eqn:E; [|discriminate].
      apply split1_some in E as [-> NK]. inv FP. destruct H2 as [C S].
      apply (IH _ _ H); [assumption|]. destruct I as [N I].
      split; [apply dset_NoDup; exact N|].
      assert (PK : piece (strip k) /\ ~ In 61 (strip k) /\ piece (strip v)).
      { rewrite in_app_iff in C, S. cbn [In] in C, S.
        split; [|split]; [apply strip_piece; tauto|intros D; apply strip_in in D; contradiction|
                          apply strip_piece; tauto]. }
      intros key w J.
      clear - PK I J. induction d as [|[k' v'] d IHd]; cbn [dset] in J.
      + destruct J as [J|[]]. injection J as <- <-. exact PK.
      + destruct (eqs (strip k) k').
        * destruct J as [J|J]; [injection J as <- <-|apply (I key w); right; exact J].
          first [exact PK | destruct (I k' v' (or_introl eq_refl)) as (A & B & _); tauto].
        * destruct J as [J|J]; [apply (I key w); left; exact J|].
          apply IHd; [|exact J]. intros a b Z. apply (I a b). right. exact Z.
  Qed.

  Lemma range_writable k t p r : ~ In 44 t -> split_accept_range t = Ok p ->
    new_range float_of k (fst (fst p)) (snd (fst p)) (snd p) = Ok r -> writable float_of k r.
  Proof.
    intros C H H2. unfold split_accept_range in H.
    pose proof (split_on_parts 59 t) as PS.
    assert (PC : Forall (fun q => ~ In 44 q) (split_on 59 t)).
    { apply Forall_forall. intros q I J. apply C. rewrite <- (join_split 59 t).
      clear - I J. induction (split_on 59 t) as [|a l IH]; [destruct I|].
      destruct I as [->|I].
      - destruct l; cbn [join]; [exact J|]. apply in_or_app. left. exact J.
      - destruct l as [|b l]; [destruct I|].
        change (join [59] (a :: b :: l)) with (a ++ 59 :: join [59] (b :: l)).
        apply in_or_app. right. right. apply IH. exact I. }
    destruct (split_on 59 t) as [|a ps] eqn:ES; [exfalso; exact (PyStrFacts.split_on_nonnil _ _ ES)|].
    destruct (accept_params ps []) as [d|e] eqn:EP; cbn [bind] in H; [|discriminate].
    injection H as <-. cbn [fst snd] in H2. unfold new_range in H2.
    destruct (valid_value k (strip a)) eqn:V; [|discriminate].
    destruct (float_of _) as [x|] eqn:EF in H2; [|discriminate].
    destruct (valid_params k _) eqn:VP; [|discriminate]. injection H2 as <-.
    inv PS. inv PC.
    destruct (accept_params_inv ps [] d EP) as [N I].
    { apply Forall_forall. intros q Q. split; [eapply Forall_forall in H4|eapply Forall_forall in H2]; eauto. }
    { split; [constructor|intros ? ? []]. }
    unfold writable. cbn [rg_value rg_q rg_params].
    split; [apply strip_piece; assumption|].
    split. { destruct k; [apply valid_media|eapply valid_plain|eapply valid_plain]; eauto; discriminate. }
    split; [eauto|].
    split; [apply ddel_NoDup; exact N|].
    split.
    - intros key v J. unfold ddel in J. apply filter_In in J as [J B]. cbn [fst] in B.
      destruct (I key v J) as (A1 & A2 & A3). repeat split; try apply A1; try apply A3; auto.
      intros ->. rewrite ProofAccept.eqs_refl in B. discriminate.
    - destruct k; [exact Logic.I| |]; cbn [valid_params] in VP;
        (match goal with |- ?x = [] => destruct x; [reflexivity|discriminate VP] end).
  Qed.

  Lemma parsed_writable k h l : parse_accept float_of k h = Ok l ->
    l <> [] /\ Forall (writable float_of k) l.
  Proof.
    unfold parse_accept. intros H.
    pose proof (split_on_parts 44 h) as PS. pose proof (PyStrFacts.split_on_nonnil 44 h) as NN.
    revert l H. induction (split_on 44 h) as [|t ts IH]; [contradiction|]. clear NN.
    intros l H. cbn [parse_ranges] in H.
    destruct (split_accept_range t) as [p|e] eqn:ET; cbn [bind] in H; [|discriminate].
    destruct (new_range float_of k _ _ _) as [r|e] eqn:EN in H; cbn [bind] in H; [|discriminate].
    destruct (parse_ranges float_of k ts) as [rs|e] eqn:ER; cbn [bind] in H; [|discriminate].
    injection H as <-. split; [discriminate|]. inv PS. constructor.
    - eapply range_writable; eassumption.
    - destruct ts as [|t' ts]; [injection ER as <-; constructor|].
      apply (IH H2); [discriminate|reflexivity].
  Qed.

  Lemma round_trip k h l : parse_accept float_of k h = Ok l ->
    parse_accept float_of k (accept_header show l) = Ok l.
  Proof. intros H. apply parsed_writable in H as [N W]. apply written_read; assumption. Qed.
End text.

(** ** Asking *)
Section asking.
  Variable fmul : fl -> fl -> fl.

  Lemma kind_option_spec k v o : proper_text k (v_text v) -> proper_text k (rg_value o) ->
    (admits k (rg_value o) (v_text v) /\ exists a, kind_option k v o = Ok a)
    \/ (~ admits k (rg_value o) (v_text v) /\ kind_option k v o = Raise NotAcceptable).
  Proof.
    destruct k; cbn [proper_text admits kind_option]; intros A B.
    - destruct (content_type_option_spec v o A B) as [[M (t & s & ot & os & _ & _ & E)]|[M E]]; eauto.
    - destruct (language_option_spec v o) as [[M (a & E & _)]|[M E]]; eauto.
    - destruct (charset_option_spec v o) as [[M (a & E & _)]|[M E]]; eauto.
  Qed.

  Lemma best_option_asked f l : forall best,
    (forall o, In o l -> (exists a, f o = Ok a) \/ f o = Raise NotAcceptable) ->
    exists b, best_option fmul f l best = Ok b /\
      (b <> None <-> best <> None \/ exists o a, In o l /\ f o = Ok a).
  Proof.
    induction l as [|o l IH]; intros best H; cbn [best_option].
    - exists best. split; [reflexivity|]. split; [auto|]. intros [B|(o & a & [] & _)]. exact B.
    - assert (HT : forall o', In o' l -> (exists a, f o' = Ok a) \/ f o' = Raise NotAcceptable)
        by (intros o' I; apply H; right; exact I).
      destruct (H o (or_introl eq_refl)) as [[a E]|E]; rewrite E.
      + match goal with |- context [best_option fmul f l ?B] => destruct (IH B HT) as (b & E2 & X) end.
        exists b. split; [exact E2|]. rewrite X. split.
        * intros _. right. exists o, a. split; [left; reflexivity|exact E].
        * intros _. left. destruct best; [destruct (acc_gt fmul a a0)|]; discriminate.
      + cbn [is_not_acceptable NotAcceptable]. destruct (IH best HT) as (b & E2 & X).
        exists b. split; [exact E2|]. rewrite X. split.
        * intros [B|(o' & a & I & E')]; [auto|]. right. exists o', a. split; [right; exact I|exact E'].
        * intros [B|(o' & a & [<-|I] & E')]; [auto|congruence|]. right. eauto.
  Qed.

  Lemma asked k l v : proper_text k (v_text v) -> (forall o, In o l -> proper_text k (rg_value o)) ->
    ((exists a, acceptability_of fmul k v l = Ok a) /\
     exists o, In o l /\ admits k (rg_value o) (v_text v))
    \/ (acceptability_of fmul k v l = Raise NotAcceptable /\
        forall o, In o l -> ~ admits k (rg_value o) (v_text v)).
  Proof.
    intros PV PO. unfold acceptability_of, value_acceptability.
    destruct (best_option_asked (kind_option k v) l None) as (b & E & X).
    { intros o I. destruct (kind_option_spec k v o PV (PO o I)) as [[_ A]|[_ A]]; auto. }
    rewrite E. cbn [bind]. destruct b as [m|].
    - left. split; [eauto|]. destruct X as [X _].
      destruct (X ltac:(discriminate)) as [C|(o & a & I & A)]; [congruence|].
      exists o. split; [exact I|].
      destruct (kind_option_spec k v o PV (PO o I)) as [[M _]|[_ C]]; [exact M|congruence].
    - right. split; [reflexivity|]. intros o I M.
      destruct (kind_option_spec k v o PV (PO o I)) as [[_ [a A]]|[C _]]; [|contradiction].
      destruct X as [_ X]. destruct X; [|reflexivity]. right. eauto.
  Qed.

  Lemma contains_spec k l v : proper_text k (v_text v) ->
    (forall o, In o l -> proper_text k (rg_value o)) ->
    exists b, accept_contains fmul k l v = Ok b /\
      (b = true <-> exists o, In o l /\ admits k (rg_value o) (v_text v)).
  Proof.
    intros PV PO. unfold accept_contains.
    destruct (asked k l v PV PO) as [[[a E] M]|[E M]]; rewrite E.
    - exists true. tauto.
    - cbn [is_not_acceptable NotAcceptable]. exists false. split; [reflexivity|].
      split; [discriminate|]. intros (o & I & A). destruct (M o I A).
  Qed.
  Lemma getitem_spec k l v : proper_text k (v_text v) ->
    (forall o, In o l -> proper_text k (rg_value o)) ->
    (accept_contains fmul k l v = Ok true /\
       exists o a, In o l /\ kind_option k v o = Ok a /\ accept_getitem fmul k l v = Ok a) \/
    (accept_contains fmul k l v = Ok false /\ accept_getitem fmul k l v = Raise KeyError).
  Proof.
    intros PV PO. unfold accept_contains, accept_getitem.
    destruct (asked k l v PV PO) as [[[a E] M]|[E M]]; rewrite E.
    - left. split; [reflexivity|]. apply value_ok in E as (o & I & A). eauto 6.
    - right. cbn [is_not_acceptable NotAcceptable]. auto.
  Qed.
End asking.

(** ** Exact matches *)
Lemma subtags_pos s : (1 <= subtags s)%Z.
Proof.
  unfold subtags. pose proof (PyStrFacts.split_on_nonnil 45 s). destruct (split_on 45 s); [congruence|].
  cbn [length]. lia.
Qed.
Lemma split_on_length c a b :
  (length (split_on c (a ++ c :: b)) = length (split_on c a) + length (split_on c b))%nat.
Proof.
  induction a as [|x a IH]; cbn [app split_on].
  - rewrite N.eqb_refl. reflexivity.
  - destruct (N.eqb x c).
    + cbn [length]. rewrite IH. reflexivity.
    + pose proof (PyStrFacts.split_on_nonnil c (a ++ c :: b)).
      pose proof (PyStrFacts.split_on_nonnil c a).
      destruct (split_on c (a ++ c :: b)), (split_on c a); cbn [length] in *; congruence || lia.
Qed.
Lemma eqs_sym_refl a b : eqs a b = true -> a = b.
Proof. apply eqs_eq. Qed.

Lemma exact_spec k v o a : proper_text k (v_text v) -> proper_text k (rg_value o) ->
  v_text v <> star -> kind_option k v o = Ok a ->
  (exact_match k a = true <-> rg_value o = v_text v).
Proof.
  destruct k; cbn [proper_text kind_option exact_match]; intros PV PO NS H.
  - destruct PV as (t & s & T), PO as (ot & os & OT).
    unfold content_type_option in H.
    rewrite (proj2 (two_parts_ok _ _ _) OT), (proj2 (two_parts_ok _ _ _) T) in H. cbn [bind fst snd] in H.
    destruct T as (-> & N1 & N2), OT as (-> & M1 & M2).
    destruct (eqs ot t) eqn:E1.
    + apply eqs_eq in E1. subst ot. cbn [bind] in H. destruct (eqs os s) eqn:E2.
      * apply eqs_eq in E2. subst os. injection H as <-. cbn. tauto.
      * apply ProofAccept.eqs_false in E2. destruct (eqs os star); [|discriminate]. injection H as <-.
        cbn. split; [discriminate|]. intros E. apply slashed_inj in E; tauto.
    + apply ProofAccept.eqs_false in E1. destruct (eqs ot star); [|discriminate]. cbn [bind] in H.
      assert (E0 : fst (a_match a) = 0%Z).
      { destruct (eqs os s); [|destruct (eqs os star); [|discriminate]]; injection H as <-; reflexivity. }
      rewrite E0. cbn. split; [discriminate|]. intros E. apply slashed_inj in E; tauto.
  - unfold language_option in H. destruct (eqs (v_text v) (rg_value o)) eqn:E.
    + apply eqs_eq in E. injection H as <-. cbn. rewrite E. tauto.
    + apply ProofAccept.eqs_false in E.
      destruct (starts (rg_value o ++ [45]) (v_text v)) eqn:S.
      * injection H as <-. cbn [a_match fst snd]. split; [|congruence].
        intros Z. exfalso. apply starts_spec in S as [r R].
        rewrite <- app_assoc in R. cbn [app] in R.
        pose proof (split_on_length 45 (rg_value o) r) as L. rewrite <- R in L.
        pose proof (subtags_pos r). unfold subtags in *. lia.
      * destruct (eqs (rg_value o) star); [|discriminate]. injection H as <-.
        cbn [a_match fst snd]. split; [|congruence].
        intros Z. pose proof (subtags_pos (v_text v)). lia.
  - unfold charset_option in H. destruct (eqs (rg_value o) star) eqn:E.
    + apply eqs_eq in E. injection H as <-. cbn. split; [discriminate|congruence].
    + destruct (eqs (v_text v) (rg_value o)) eqn:E2; [|discriminate].
      apply eqs_eq in E2. injection H as <-. cbn. rewrite E2. tauto.
Qed.

Lemma value_text k v : proper_text k (v_text v) -> value_header k v = Ok (v_text v).
Proof.
  destruct k; cbn [proper_text value_header]; auto.
  intros (t & s & T). rewrite (proj2 (two_parts_ok _ _ _) T). cbn [bind fst snd].
  destruct T as (-> & _). reflexivity.
Qed.
