(** Proofs about the tools for tests. *)
From Coq Require Import Arith List NArith ZArith Bool Lia ZifyBool ZifyN ZifyNat.
From Verif Require Import PyStr PyStrFacts Utf8 Utf8Facts ModelUrls SpecUrls ProofUrls ProofIri ModelHeaders ModelMultiDict ModelCombined
  ModelStream SpecStream ModelWsgi ModelRequest SpecRequest ProofRequest ProofCurrent ModelTest SpecTest.
Import ListNotations.
Open Scope N_scope.
Ltac inv H := inversion H; subst; clear H.

(** ** Multipart *)
Section multipart.
  Variable guess : str -> option str.
  (* what a writer appends to the stream *)
  Definition appends (x : str) (st st' : mstate) : Prop := ms_stream st' = ms_stream st ++ x.
  Lemma write_binary_stream u t x st : ms_stream (write_binary u t x st) = ms_stream st ++ x.
  Proof. unfold write_binary. destruct u; auto. destruct (ms_on_disk st); auto. Qed.
  Lemma write_spec u t s st : write u t s st = do b <- utf8_encode s; Ok (write_binary u t b st).
  Proof. reflexivity. Qed.
  Lemma write_chunks_stream u t cs : forall st, ms_stream (write_chunks u t cs st) = ms_stream st ++ file_content cs.
  Proof.
    induction cs as [|[|c r] cs IH]; intros st; cbn [write_chunks file_content]; try (rewrite app_nil_r; auto).
    rewrite IH, write_binary_stream, <- app_assoc. auto.
  Qed.
  (* the outcome depends on the stream only *)
  Definition same_stream (a b : res mstate) : Prop :=
    match a, b with
    | Ok x, Ok y => ms_stream x = ms_stream y
    | Raise e, Raise f => e = f
    | _, _ => False
    end.
  Lemma same_bind a b f g : same_stream a b -> (forall x y, ms_stream x = ms_stream y -> same_stream (f x) (g y)) ->
    same_stream (bind a f) (bind b g).
  Proof. destruct a, b; cbn; intros H K; auto; tauto. Qed.
  Lemma write_same u t u' t' s x y : ms_stream x = ms_stream y -> same_stream (write u t s x) (write u' t' s y).
  Proof.
    intros H. rewrite !write_spec. destruct (utf8_encode s) as [b|e]; cbn [bind same_stream]; auto.
    rewrite !write_binary_stream, H. auto.
  Qed.
  Lemma value_same u t u' t' b k v x y : ms_stream x = ms_stream y ->
    same_stream (write_value guess u t b k v x) (write_value guess u' t' b k v y).
  Proof.
    intros H. unfold write_value. apply same_bind; [apply write_same; auto|]. clear x y H. intros x y H.
    apply same_bind; [|intros; apply write_same; auto]. destruct v as [s|s|f].
    - apply same_bind; [apply write_same; auto|]. clear x y H. intros x y H.
      apply same_bind; [apply write_same; auto|]. intros; reflexivity.
    - apply same_bind; [apply write_same; rewrite !write_binary_stream, H; auto|]. clear x y H. intros x y H.
      cbn [same_stream]. rewrite !write_binary_stream, H. auto.
    - apply same_bind; [destruct (f_filename f); apply write_same; auto|]. clear x y H. intros x y H.
      apply same_bind; [apply write_same; auto|]. clear x y H. intros x y H.
      cbn [same_stream]. rewrite !write_chunks_stream, H. auto.
  Qed.
  Lemma values_same u t u' t' b l : forall x y, ms_stream x = ms_stream y ->
    same_stream (write_values guess u t b l x) (write_values guess u' t' b l y).
  Proof.
    induction l as [|[k v] l IH]; intros x y H; cbn [write_values]; auto.
    apply same_bind; [apply value_same; auto|]. auto.
  Qed.
  Lemma storage_free u t u' t' boundary lists :
    stream_encode_multipart guess u t boundary lists = stream_encode_multipart guess u' t' boundary lists.
  Proof.
    unfold stream_encode_multipart. pose proof (values_same u t u' t' boundary (flat_map (fun kl => map (fun v => (fst kl, v)) (snd kl)) lists) ms_empty ms_empty eq_refl) as H.
    destruct (write_values guess u t _ _ _) as [x|], (write_values guess u' t' _ _ _) as [y|]; cbn in H; try tauto; subst; auto.
    cbn [bind]. pose proof (write_same u t u' t' (lit "--" ++ boundary ++ lit "--" ++ CRLF) x y H) as K.
    destruct (write u t _ x) as [x'|], (write u' t' _ y) as [y'|]; cbn in K; try tauto; subst; auto. cbn [bind]. rewrite K. auto.
  Qed.

  (* where the stream stands *)
  Definition placed (u : bool) (t : N) (st : mstate) : Prop :=
    if u then
      if ms_on_disk st then t < N.of_nat (length (ms_stream st))
      else ms_total st = N.of_nat (length (ms_stream st)) /\ N.of_nat (length (ms_stream st)) <= t
    else ms_on_disk st = false.
  Lemma binary_placed u t x st : placed u t st -> placed u t (write_binary u t x st).
  Proof.
    unfold placed, write_binary. destruct u; [|cbn; auto]. destruct (ms_on_disk st) eqn:D; cbn [ms_on_disk ms_stream ms_total]; rewrite app_length.
    - lia.
    - intros [T L]. destruct (N.of_nat (length x) + ms_total st <=? t) eqn:E; cbn [negb]; lia.
  Qed.
  Lemma write_placed u t s st st' : write u t s st = Ok st' -> placed u t st -> placed u t st'.
  Proof. unfold write. destruct (utf8_encode s); cbn [bind]; intros H; inv H. apply binary_placed. Qed.
  Lemma chunks_placed u t cs : forall st, placed u t st -> placed u t (write_chunks u t cs st).
  Proof. induction cs as [|[|c r] cs IH]; intros st H; cbn [write_chunks]; auto. apply IH, binary_placed, H. Qed.
  Lemma value_placed u t b k v st st' : write_value guess u t b k v st = Ok st' -> placed u t st -> placed u t st'.
  Proof.
    unfold write_value. intros H P. destruct (write u t _ st) as [s1|] eqn:E1; [|discriminate]. cbn [bind] in H.
    apply write_placed in E1; auto. destruct v as [x|x|f].
    - destruct (write u t x s1) as [s2|]; [|discriminate]. cbn [bind] in H. destruct (write u t _ s2); discriminate.
    - destruct (write u t (CRLF ++ CRLF) _) as [s2|] eqn:E2; [|discriminate]. cbn [bind] in H.
      apply write_placed in E2; [|apply binary_placed; auto]. eapply write_placed in H; eauto. apply binary_placed; auto.
    - destruct (match f_filename f with Some n => _ | None => _ end) as [s2|] eqn:E2; [|discriminate]. cbn [bind] in H.
      assert (P2 : placed u t s2) by (destruct (f_filename f); apply write_placed in E2; auto).
      destruct (write u t _ s2) as [s3|] eqn:E3; [|discriminate]. cbn [bind] in H. apply write_placed in E3; auto.
      eapply write_placed in H; eauto. apply chunks_placed; auto.
  Qed.
  Lemma values_placed u t b l : forall st st', write_values guess u t b l st = Ok st' -> placed u t st -> placed u t st'.
  Proof.
    induction l as [|[k v] l IH]; intros st st' H P; cbn [write_values] in H; [inv H; auto|].
    destruct (write_value guess u t b k v st) as [s1|] eqn:E; [|discriminate]. cbn [bind] in H.
    eapply IH; [exact H|]. eapply value_placed; eauto.
  Qed.
  Lemma spooled u t boundary lists body n : stream_encode_multipart guess u t boundary lists = Ok (body, n) ->
    exists d, multipart_on_disk guess u t boundary lists = Ok d /\ (d = true <-> u = true /\ t < N.of_nat (length body)).
  Proof.
    unfold stream_encode_multipart, multipart_on_disk. intros H.
    destruct (write_values guess u t boundary _ ms_empty) as [s1|] eqn:E1; [|discriminate]. cbn [bind] in *.
    destruct (write u t _ s1) as [s2|] eqn:E2; [|discriminate]. cbn [bind] in *. injection H as <- <-.
    exists (ms_on_disk s2). split; auto.
    assert (P : placed u t s2).
    { eapply write_placed; eauto. eapply values_placed; eauto. unfold placed, ms_empty. destruct u; cbn; auto. split; auto. lia. }
    unfold placed in P. destruct u, (ms_on_disk s2); split; intros X; try congruence; try (split; auto; fail); try (destruct X; congruence).
    destruct X. lia.
  Qed.

  (** *** The parts of a body are determined *)
  Lemma cut_at_fun sep s b1 a1 b2 a2 : cut_at sep s b1 a1 -> cut_at sep s b2 a2 -> b1 = b2 /\ a1 = a2.
  Proof.
    intros [E1 M1] [E2 M2]. assert (L : length b1 = length b2) by (apply Nat.le_antisymm; [eapply M1|eapply M2]; eauto).
    subst s. assert (b1 = b2).
    { apply (f_equal (firstn (length b1))) in E2. rewrite firstn_app, Nat.sub_diag, firstn_all, firstn_O, app_nil_r in E2.
      rewrite L, firstn_app, Nat.sub_diag, firstn_all, firstn_O, app_nil_r in E2. auto. }
    subst b2. split; auto. apply app_inv_head in E2. apply app_inv_head in E2. auto.
  Qed.
  Lemma reads_fun boundary body p1 : reads boundary body p1 -> forall p2, reads boundary body p2 -> p1 = p2.
  Proof.
    induction 1 as [|s head rest content rest' parts H1 H2 H3 IH]; intros p2 R.
    - inversion R as [E|s head rest content rest' parts H1 H2 H3 E Ep]; subst; auto.
      apply app_inv_head in E. discriminate.
    - inversion R as [E|s0 head0 rest0 content0 rest0' parts0 K1 K2 K3 E Ep].
      + exfalso. apply app_inv_head in E. discriminate.
      + apply app_inv_head in E. injection E as E. subst s0.
        destruct (cut_at_fun _ _ _ _ _ _ H1 K1) as [<- <-]. destruct (cut_at_fun _ _ _ _ _ _ H2 K2) as [<- <-].
        f_equal. auto.
  Qed.

  (** *** What is written for files *)
  Lemma cut_head h1 h2 rest : ~ In 13 h1 -> ~ In 13 h2 -> h2 <> [] ->
    cut_at [13; 10; 13; 10] ((h1 ++ [13; 10] ++ h2) ++ [13; 10; 13; 10] ++ rest) (h1 ++ [13; 10] ++ h2) rest.
  Proof.
    intros N1 N2 Nn. split; auto. intros b a E.
    destruct (Nat.le_gt_cases (length (h1 ++ [13; 10] ++ h2)) (length b)) as [L|L]; auto. exfalso.
    assert (K : forall i, (i < 4)%nat -> nth_error ((h1 ++ [13; 10] ++ h2) ++ [13; 10; 13; 10] ++ rest) (length b + i) = nth_error [13; 10; 13; 10] i).
    { intros i Hi. rewrite E. rewrite nth_error_app2 by lia. replace (length b + i - length b)%nat with i by lia.
      rewrite nth_error_app1; auto. }
    pose proof (K 0%nat ltac:(lia)) as K0. pose proof (K 2%nat ltac:(lia)) as K2. clear K. cbn [nth_error] in K0, K2.
    rewrite !app_length in L. cbn [length] in L.
    rewrite nth_error_app1 in K0 by (rewrite !app_length; cbn [length]; lia).
    destruct (Nat.lt_ge_cases (length b) (length h1)) as [H|H].
    { rewrite nth_error_app1 in K0 by lia. apply N1. eapply nth_error_In. exact K0. }
    rewrite nth_error_app2 in K0 by lia.
    destruct (Nat.eq_dec (length b) (length h1)) as [Hq|Hq].
    { rewrite <- app_assoc in K2. rewrite nth_error_app2 in K2 by lia. replace (length b + 2 - length h1)%nat with 2%nat in K2 by lia.
      destruct h2 as [|c h2]; [congruence|]. cbn [app nth_error] in K2. inv K2. apply N2. left; auto. }
    destruct (Nat.eq_dec (length b) (S (length h1))) as [Hq2|Hq2].
    { replace (length b + 0 - length h1)%nat with 1%nat in K0 by lia. cbn [app nth_error] in K0. discriminate. }
    rewrite nth_error_app2 in K0 by (cbn [length]; lia). apply N2. eapply nth_error_In. exact K0.
  Qed.
  Lemma cut_content boundary content rest : ~ In 13 boundary ->
    (forall b a, content <> b ++ ([13; 10] ++ lit "--" ++ boundary) ++ a) ->
    cut_at ([13; 10] ++ lit "--" ++ boundary) (content ++ ([13; 10] ++ lit "--" ++ boundary) ++ rest) content rest.
  Proof.
    intros Nb Nc. split; auto. intros b a E. set (d := [13; 10] ++ lit "--" ++ boundary) in *.
    assert (Hd : forall i, nth_error d (S i) <> Some 13).
    { intros i Hi. unfold d in Hi. cbn [app nth_error] in Hi. destruct i as [|i]; cbn [nth_error] in Hi; [discriminate|].
      apply nth_error_In in Hi. apply in_app_iff in Hi as [Hi|Hi]; [|auto]. cbn in Hi. lia. }
    destruct (Nat.le_gt_cases (length content) (length b)) as [L|L]; auto. exfalso.
    destruct (Nat.le_gt_cases (length b + length d) (length content)) as [M|M].
    - apply (f_equal (firstn (length content))) in E. rewrite firstn_app, Nat.sub_diag, firstn_all, firstn_O, app_nil_r in E.
      rewrite firstn_app, (firstn_all2 b) in E by lia. rewrite firstn_app, (firstn_all2 d) in E by lia. eapply Nc. exact E.
    - assert (K : nth_error (content ++ d ++ rest) (length content) = Some 13).
      { rewrite nth_error_app2 by lia. rewrite Nat.sub_diag. reflexivity. }
      rewrite E in K. rewrite nth_error_app2 in K by lia. rewrite nth_error_app1 in K by lia.
      destruct (length content - length b)%nat as [|i] eqn:Ei; [lia|]. eapply Hd. exact K.
  Qed.
  Lemma utf8_text s : unicode_text s -> utf8_encode s = Ok (flat_map utf8_char s).
  Proof. intros H. apply scalar_text in H. unfold utf8_encode. rewrite H. auto. Qed.
  Lemma text_app a b : unicode_text a -> unicode_text b -> unicode_text (a ++ b).
  Proof. intros A B c Hc. apply in_app_iff in Hc as [Hc|Hc]; auto. Qed.
  Lemma text_ascii s : forallb (fun c => c <? 128) s = true -> unicode_text s.
  Proof. rewrite forallb_forall. intros H c Hc. specialize (H c Hc). lia. Qed.
  Lemma utf8_ascii_id s : forallb (fun c => c <? 128) s = true -> flat_map utf8_char s = s.
  Proof. intros H. pose proof (utf8_ascii s H) as E. rewrite (utf8_text s (text_ascii s H)) in E. inv E. rewrite H1. auto. Qed.
  Lemma utf8_no_cr c s : c < 128 -> unicode_text s -> ~ In c s -> ~ In c (flat_map utf8_char s).
  Proof.
    intros L U N H. apply in_flat_map in H as (x & Hx & H).
    assert (S : scalar x = true) by (apply scalar_text in U; rewrite forallb_forall in U; auto).
    destruct (utf8_char_cases x S) as [[La E]|La].
    - rewrite E in H. destruct H as [->|[]]. auto.
    - apply La in H. lia.
  Qed.
  Lemma write_text u t s st : unicode_text s -> write u t s st = Ok (write_binary u t (flat_map utf8_char s) st).
  Proof. intros H. unfold write. rewrite utf8_text; auto. Qed.

  Variable boundary : str.
  Hypothesis bound_ascii : forallb (fun c => c <? 128) boundary = true.
  Hypothesis bound_cr : ~ In 13 boundary.
  Definition part_text (p : str * str) : str :=
    lit "--" ++ boundary ++ [13; 10] ++ fst p ++ [13; 10; 13; 10] ++ snd p ++ [13; 10].
  Definition file_part (kf : str * file) : str * str :=
    (flat_map utf8_char (file_head guess (fst kf) (snd kf)), file_content (f_chunks (snd kf))).
  Lemma write_file u t key f st : sendable guess boundary key f ->
    exists st', write_value guess u t boundary key (VFile f) st = Ok st' /\
      ms_stream st' = ms_stream st ++ part_text (file_part (key, f)).
  Proof.
    intros [[Uk _] Hn [Ut _] _]. unfold write_value.
    assert (Ub : unicode_text boundary) by (apply text_ascii; auto).
    rewrite write_text; [|repeat apply text_app; auto; apply text_ascii; reflexivity]. cbn [bind].
    assert (T : (let ctype := match f_ctype f with
                              | Some t => Some t
                              | None => match f_filename f with
                                        | Some (c :: n) => guess (c :: n)
                                        | _ => None
                                        end
                              end in match ctype with Some t => t | None => lit "application/octet-stream" end) = file_type guess f).
    { unfold file_type. destruct (f_ctype f); auto. destruct (f_filename f) as [[|c n]|]; auto. }
    cbv zeta in T |- *. rewrite T. clear T.
    set (st1 := write_binary u t _ st).
    assert (exists st2, match f_filename f with
                        | Some n => write u t (lit "; filename=""" ++ n ++ lit """" ++ CRLF) st1
                        | None => write u t CRLF st1
                        end = Ok st2 /\
            ms_stream st2 = ms_stream st1 ++ flat_map utf8_char (match f_filename f with Some n => lit "; filename=""" ++ n ++ lit """" | None => [] end) ++ [13; 10]) as (st2 & -> & E2).
    { destruct (f_filename f) as [n|].
      - destruct (Hn n eq_refl) as [Un _]. rewrite write_text; [|repeat apply text_app; auto; apply text_ascii; reflexivity].
        eexists. split; [reflexivity|]. rewrite write_binary_stream. rewrite !flat_map_app. rewrite <- !app_assoc. reflexivity.
      - rewrite write_text by (apply text_ascii; reflexivity). eexists. split; [reflexivity|]. rewrite write_binary_stream. reflexivity. }
    cbn [bind]. rewrite write_text; [|repeat apply text_app; auto; apply text_ascii; reflexivity]. cbn [bind].
    rewrite write_text by (apply text_ascii; reflexivity). eexists. split; [reflexivity|].
    rewrite write_binary_stream, write_chunks_stream, write_binary_stream, E2. unfold st1. rewrite write_binary_stream.
    unfold part_text, file_part, file_head. cbn [fst snd]. rewrite !flat_map_app. rewrite (utf8_ascii_id boundary bound_ascii).
    change (flat_map utf8_char CRLF) with [13; 10]. change (flat_map utf8_char [13; 10]) with [13; 10].
    change (flat_map utf8_char (lit "--")) with (lit "--").
    rewrite <- !app_assoc. reflexivity.
  Qed.
  Lemma write_files u t l : forall st, Forall (fun kf => sendable guess boundary (fst kf) (snd kf)) l ->
    exists st', write_values guess u t boundary (map (fun kf => (fst kf, VFile (snd kf))) l) st = Ok st' /\
      ms_stream st' = ms_stream st ++ flat_map (fun kf => part_text (file_part kf)) l.
  Proof.
    induction l as [|[k f] l IH]; intros st H; cbn [map write_values flat_map fst snd].
    - eexists. split; [reflexivity|]. rewrite app_nil_r. auto.
    - inv H. destruct (write_file u t k f st) as (st1 & -> & E1); auto. cbn [bind].
      destruct (IH st1) as (st2 & -> & E2); auto. eexists. split; [reflexivity|]. rewrite E2, E1, <- app_assoc. auto.
  Qed.
  Lemma reads_files l : Forall (fun kf => sendable guess boundary (fst kf) (snd kf)) l ->
    reads boundary (flat_map (fun kf => part_text (file_part kf)) l ++ lit "--" ++ boundary ++ lit "--" ++ [13; 10]) (map file_part l).
  Proof.
    induction l as [|[k f] l IH]; intros H; cbn [flat_map map app]; [constructor|]. inv H. specialize (IH H3).
    destruct H2 as [[Uk [Ck _]] Hn [Ut [Ct _]] Hc]. cbn [fst snd] in *.
    set (tl := flat_map (fun kf => part_text (file_part kf)) l ++ lit "--" ++ boundary ++ lit "--" ++ [13; 10]) in *.
    assert (exists r, tl = lit "--" ++ boundary ++ r) as [r Er].
    { unfold tl. destruct l as [|kf l]; [eexists; reflexivity|]. cbn [flat_map]. unfold part_text at 1. rewrite <- !app_assoc. eexists. reflexivity. }
    change (file_part (k, f)) with (flat_map utf8_char (file_head guess k f), file_content (f_chunks f)).
    unfold part_text at 1. cbn [fst snd]. rewrite <- !app_assoc. fold tl.
    set (h1 := flat_map utf8_char (lit "Content-Disposition: form-data; name=""" ++ k ++ lit """" ++
         match f_filename f with Some n => lit "; filename=""" ++ n ++ lit """" | None => [] end)).
    set (h2 := lit "Content-Type: " ++ flat_map utf8_char (file_type guess f)).
    assert (Eh : flat_map utf8_char (file_head guess k f) = h1 ++ [13; 10] ++ h2).
    { unfold file_head, h1, h2. rewrite !flat_map_app. rewrite <- !app_assoc. reflexivity. }
    rewrite Eh. rewrite Er.
    eapply (reads_part boundary ((h1 ++ [13; 10] ++ h2) ++ [13; 10; 13; 10] ++ (file_content (f_chunks f) ++ ([13; 10] ++ lit "--" ++ boundary) ++ r))).
    - apply cut_head.
      + unfold h1. apply utf8_no_cr; [lia| |].
        * repeat apply text_app; auto; try (apply text_ascii; reflexivity). destruct (f_filename f) as [n|]; [|intros c []].
          destruct (Hn n eq_refl) as [Un _]. repeat apply text_app; auto; apply text_ascii; reflexivity.
        * intros Hi. apply in_app_iff in Hi as [Hi|Hi]; [cbn in Hi; lia|]. apply in_app_iff in Hi as [Hi|Hi]; [auto|].
          apply in_app_iff in Hi as [Hi|Hi]; [cbn in Hi; lia|]. destruct (f_filename f) as [n|]; [|destruct Hi].
          destruct (Hn n eq_refl) as [_ [Cn _]]. apply in_app_iff in Hi as [Hi|Hi]; [cbn in Hi; lia|].
          apply in_app_iff in Hi as [Hi|Hi]; [auto|]. cbn in Hi; lia.
      + unfold h2. intros Hi. apply in_app_iff in Hi as [Hi|Hi]; [cbn in Hi; lia|]. revert Hi. apply utf8_no_cr; auto. lia.
      + unfold h2. discriminate.
    - apply cut_content; auto.
    - rewrite <- Er. exact IH.
  Qed.
End multipart.

(** ** run_wsgi_app *)
Definition ending (fail : option exn) : list (list act * outcome) := match fail with Some e => [([], Fail e)] | None => [] end.
Lemma performs_writes ws : forall st, w_response st <> None -> performs (map AWrite ws) st = Ok (mk_wstate (w_response st) (w_buffer st ++ ws)).
Proof.
  induction ws as [|w ws IH]; intros [r b] H; cbn [map performs]; [rewrite app_nil_r; auto|].
  cbn [w_response w_buffer] in *. destruct r as [r|]; [|congruence]. cbn [perform w_response bind].
  rewrite IH by (cbn; congruence). cbn [w_response w_buffer]. rewrite <- app_assoc. auto.
Qed.
Lemma performs_start s h ws st : performs (AStart s h None :: map AWrite ws) st = Ok (mk_wstate (Some (s, h)) (w_buffer st ++ ws)).
Proof. cbn [performs perform bind]. rewrite performs_writes by (cbn; congruence). auto. Qed.
Lemma drain_chunks cs fail st : drain (map chunk_step cs ++ ending fail) st = (cs, fail, st).
Proof.
  induction cs as [|c cs IH]; cbn [map app drain chunk_step performs].
  - destruct fail; auto.
  - rewrite IH. auto.
Qed.
Lemma await_chunks cs steps : forall b, await (map chunk_step cs ++ steps) (mk_wstate None b) = await steps (mk_wstate None (b ++ cs)).
Proof.
  induction cs as [|c cs IH]; intros b; cbn [map app]; [rewrite app_nil_r; auto|].
  cbn [await w_response chunk_step performs bind w_buffer]. rewrite IH, <- app_assoc. auto.
Qed.
Lemma drain_before cs steps st : drain (map chunk_step cs ++ steps) st = let '(bs, e, st') := drain steps st in (cs ++ bs, e, st').
Proof.
  induction cs as [|c cs IH]; cbn [map app drain chunk_step performs].
  - destruct (drain steps st) as [[bs e] st']. auto.
  - rewrite IH. destruct (drain steps st) as [[bs e] st']. auto.
Qed.
Lemma run_unbuffered a s h sent fail : behaves a s h sent fail -> run_wsgi_app a false = (Ok (mk_seen s h sent fail), closes a).
Proof.
  intros H. destruct H as [s h ws cs fail cl|s h before ws c cs fail cl]; unfold run_wsgi_app, closes; cbn [r_call r_fail r_steps r_closable].
  - rewrite performs_start. cbn [w_buffer app]. fold (ending fail).
    assert (E : await (map chunk_step cs ++ ending fail) (mk_wstate (Some (s, h)) ws) = Ok (map chunk_step cs ++ ending fail, mk_wstate (Some (s, h)) ws)).
    { destruct (map chunk_step cs ++ ending fail); auto. }
    rewrite E. cbn [w_response w_buffer]. rewrite drain_chunks. auto.
  - cbn [performs]. rewrite await_chunks. cbn [app await w_response]. rewrite performs_start. cbn [bind w_buffer w_response].
    fold (ending fail).
    assert (E : forall st, w_response st <> None -> await (map chunk_step cs ++ ending fail) st = Ok (map chunk_step cs ++ ending fail, st)).
    { intros [r b] Hr. cbn in Hr. destruct r; [|congruence]. destruct (map chunk_step cs ++ ending fail); auto. }
    rewrite E by (cbn; congruence). cbn [w_response w_buffer]. rewrite drain_chunks. rewrite <- !app_assoc. auto.
Qed.
Lemma run_buffered a s h sent fail : behaves a s h sent fail -> never_writes a ->
  run_wsgi_app a true = (match fail with None => Ok (mk_seen s h sent None) | Some e => Raise e end, closes a).
Proof.
  intros H [W1 W2]. destruct H as [s h ws cs fail cl|s h before ws c cs fail cl]; unfold run_wsgi_app, closes; cbn [r_call r_fail r_steps r_closable] in *.
  - assert (ws = []) as -> by (destruct ws as [|w ws]; auto; exfalso; apply (W1 w); right; left; auto).
    rewrite performs_start. cbn [w_buffer app]. fold (ending fail). rewrite drain_chunks. destruct fail; auto.
  - assert (ws = []) as ->.
    { destruct ws as [|w ws]; auto. exfalso. eapply (W2 _ _ w).
      - apply in_app_iff. right. left. reflexivity.
      - right. left. auto. }
    cbn [performs]. rewrite drain_before. cbn [drain]. rewrite performs_start. cbn [w_buffer app]. fold (ending fail). rewrite drain_chunks.
    cbn [app]. destruct fail; auto.
Qed.
(* whatever the application does *)
Lemma performs_response l : forall st st', performs l st = Ok st' ->
  w_response st' = w_response st \/ exists s h, w_response st' = Some (s, h) /\ In (AStart s h None) l.
Proof.
  induction l as [|a l IH]; intros st st' H; cbn [performs] in H; [inv H; auto|].
  destruct (perform a st) as [st1|] eqn:E; cbn [bind] in H; [|discriminate]. apply IH in H.
  destruct H as [H|(s & h & H & Hi)]; [|right; exists s, h; split; [|right]; auto].
  destruct a as [s h [e|]|b]; cbn [perform] in E; [discriminate| |].
  - inv E. cbn [w_response] in H. right. exists s, h. split; auto. left; auto.
  - destruct (w_response st) as [r|] eqn:R; [|discriminate]. inv E. cbn [w_response] in H. auto.
Qed.
Lemma await_response steps : forall st rest st', await steps st = Ok (rest, st') ->
  w_response st' = w_response st \/ exists s h l o, w_response st' = Some (s, h) /\ In (l, o) steps /\ In (AStart s h None) l.
Proof.
  induction steps as [|[l o] steps IH]; intros st rest st' H; cbn [await] in H.
  - destruct (w_response st) eqn:R; inv H. auto.
  - destruct (w_response st) eqn:R; [inv H; auto|].
    destruct (performs l st) as [st1|] eqn:E; cbn [bind] in H; [|discriminate]. destruct o as [b| |e]; try discriminate.
    apply IH in H. cbn [w_response] in H. destruct H as [H|(s & h & l' & o' & H & Hi & Hs)].
    + apply performs_response in E. rewrite R in E. rewrite H. destruct E as [->|(s & h & E & Hi)]; auto.
      right. exists s, h, l, (Chunk b). split; auto. split; auto. left; auto.
    + right. exists s, h, l', o'. split; auto. split; auto. right; auto.
Qed.
Lemma drain_response steps : forall st bs e st', drain steps st = (bs, e, st') ->
  w_response st' = w_response st \/ exists s h l o, w_response st' = Some (s, h) /\ In (l, o) steps /\ In (AStart s h None) l.
Proof.
  induction steps as [|[l o] steps IH]; intros st bs e st' H; cbn [drain] in H; [inv H; auto|].
  destruct (performs l st) as [st1|] eqn:E; [|inv H; auto]. apply performs_response in E.
  assert (B : w_response st1 = w_response st \/ exists s h l' o', w_response st1 = Some (s, h) /\ In (l', o') ((l, o) :: steps) /\ In (AStart s h None) l').
  { destruct E as [E|(s & h & E & Hi)]; auto. right. exists s, h, l, o. split; auto. split; auto. left; auto. }
  destruct o as [b| |e0]; [|inv H; auto|inv H; auto].
  destruct (drain steps st1) as [[bs1 e1] st2] eqn:D. inv H. apply IH in D. destruct D as [D|(s & h & l' & o' & D & Hi & Hs)].
  - rewrite D. exact B.
  - right. exists s, h, l', o'. split; auto. split; auto. right; auto.
Qed.
Lemma run_started a buffered x n : run_wsgi_app a buffered = (Ok x, n) -> started a (x_status x) (x_headers x) /\ n = closes a.
Proof.
  unfold run_wsgi_app. destruct (performs (r_call a) _) as [st|] eqn:E; [|discriminate].
  destruct (r_fail a); [discriminate|].
  assert (S0 : forall s h, w_response st = Some (s, h) -> started a s h).
  { intros s h H. apply performs_response in E as [E|(s0 & h0 & E & Hi)]; [rewrite E in H; discriminate|]. rewrite E in H. inv H. left; auto. }
  destruct buffered.
  - destruct (drain (r_steps a) st) as [[bs e] st'] eqn:D. destruct e; [discriminate|]. destruct (w_response st') as [[s h]|] eqn:R; [|discriminate].
    intros H. inv H. cbn [x_status x_headers]. split; auto. apply drain_response in D as [D|(s0 & h0 & l & o & D & Hi & Hs)].
    + apply S0. congruence.
    + rewrite D in R. inv R. right. exists l, o. auto.
  - destruct (await (r_steps a) st) as [[rest st']|] eqn:W; [|discriminate]. destruct (w_response st') as [[s h]|] eqn:R; [|discriminate].
    destruct (drain rest st') as [[bs e] st2]. intros H. inv H. cbn [x_status x_headers]. split; auto.
    apply await_response in W as [W|(s0 & h0 & l & o & W & Hi & Hs)].
    + apply S0. congruence.
    + rewrite W in R. inv R. right. exists l, o. auto.
Qed.

(** ** Text in a multipart body *)
Lemma bind_raise {A B} (r : res A) (f : A -> res B) : (forall x, exists e, f x = Raise e) -> exists e, (do x <- r; f x) = Raise e.
Proof. intros H. destruct r; cbn [bind]; eauto. Qed.
Lemma text_fails guess u t boundary k s st : exists e, write_value guess u t boundary k (VText s) st = Raise e.
Proof.
  unfold write_value. apply bind_raise. intros st1.
  assert (exists e, (do st2 <- write u t s st1; do st3 <- write u t (CRLF ++ CRLF) st2; @Raise mstate TypeError) = Raise e) as [e ->].
  { apply bind_raise. intros st2. apply bind_raise. eauto. }
  cbn [bind]. eauto.
Qed.
Lemma texts_fail guess u t boundary k s l : In (k, VText s) l -> forall st, exists e, write_values guess u t boundary l st = Raise e.
Proof.
  induction l as [|[k' v] l IH]; intros H st; [destruct H|]. cbn [write_values]. destruct H as [H|H].
  - inv H. destruct (text_fails guess u t boundary k s st) as [e ->]. cbn [bind]. eauto.
  - apply bind_raise. auto.
Qed.
Lemma encode_text_fails guess u t boundary lists k vs s : In (k, vs) lists -> In (VText s) vs ->
  exists e, stream_encode_multipart guess u t boundary lists = Raise e.
Proof.
  intros H1 H2. unfold stream_encode_multipart.
  destruct (texts_fail guess u t boundary k s (flat_map (fun kl => map (fun v => (fst kl, v)) (snd kl)) lists)) with (st := ms_empty) as [e ->].
  - apply in_flat_map. exists (k, vs). split; auto. apply in_map_iff. exists (VText s). auto.
  - cbn [bind]. eauto.
Qed.
(** Files, each under its own key or several under one *)
Lemma encode_files guess u t boundary (lists : list (str * list file)) :
  forallb (fun c => c <? 128) boundary = true -> ~ In 13 boundary ->
  Forall (fun kf => sendable guess boundary (fst kf) (snd kf)) (flat_map (fun kl => map (fun f => (fst kl, f)) (snd kl)) lists) ->
  exists body parts, stream_encode_multipart guess u t boundary (map (fun kl => (fst kl, map VFile (snd kl))) lists) = Ok (body, N.of_nat (length body)) /\
    reads boundary body parts /\ Forall2 (part_of guess) (flat_map (fun kl => map (fun f => (fst kl, f)) (snd kl)) lists) parts.
Proof.
  intros Hb Hc H. set (l := flat_map _ lists) in *.
  assert (E : flat_map (fun kl => map (fun v => (fst kl, v)) (snd kl)) (map (fun kl => (fst kl, map VFile (snd kl))) lists) = map (fun kf : str * file => (fst kf, VFile (snd kf))) l).
  { unfold l. clear. induction lists as [|[k fs] lists IH]; auto. cbn [map flat_map fst snd]. rewrite map_app, IH. f_equal. rewrite !map_map. auto. }
  unfold stream_encode_multipart. rewrite E. destruct (write_files guess boundary Hb u t l ms_empty H) as (st & -> & S). cbn [bind].
  rewrite write_text by (repeat apply text_app; auto; apply (text_ascii guess); auto). cbn [bind].
  rewrite write_binary_stream, S. cbn [ms_empty ms_stream app].
  assert (flat_map utf8_char (lit "--" ++ boundary ++ lit "--" ++ CRLF) = lit "--" ++ boundary ++ lit "--" ++ [13; 10]) as ->.
  { rewrite !flat_map_app, (utf8_ascii_id guess boundary Hb). reflexivity. }
  eexists. exists (map (file_part guess) l). split; [reflexivity|]. split; [apply reads_files; auto|].
  clear - H. induction H as [|[k f] l Hf Hl IH]; constructor; auto. split; auto. cbn [fst snd file_part]. apply utf8_text; auto.
  destruct Hf as [[Uk _] Hn [Ut _] _]. cbn [fst snd] in *. unfold file_head. repeat apply text_app; auto; try (apply (text_ascii guess); reflexivity).
  destruct (f_filename f) as [n|]; [|intros c []]. destruct (Hn n eq_refl) as [Un _]. repeat apply text_app; auto; apply (text_ascii guess); reflexivity.
Qed.
