From Coq Require Import Arith List NArith ZArith Bool Lia ZifyBool ZifyN ZifyNat.
From Verif Require Import PyStr PyStrFacts Regex Utf8 Utf8Facts ModelHeaders SpecHeaders ProofHeaders ModelEtag SpecEtag ProofEtag
  ModelUrls ProofIri ModelRoute ModelUrlMap ModelWsgi ModelResponse SpecResponse.
Import ListNotations.
Open Scope N_scope.
Ltac inv H := inversion H; subst; clear H.

(** ** Status *)
Lemma first_word_some s w : first_word s = Some w -> exists a b, s = a ++ w ++ b /\ blank a /\
  Forall (fun c => is_space c = false) w /\ w <> [] /\ (b = [] \/ exists c b', b = c :: b' /\ is_space c = true).
Proof.
  unfold first_word. destruct (lstrip_by_spec is_space s) as (a & H1 & H2 & _).
  destruct (cut is_space (lstrip_by is_space s)) as [x y] eqn:E. apply cut_spec in E as (E1 & E2 & E3).
  cbn [fst]. destruct x as [|c x]; [discriminate|]. intros H; inv H.
  exists a, y. split; [congruence|]. split.
  - apply Forall_forall. intros d Hd. rewrite forallb_forall in H2. auto.
  - split; [|split; [discriminate|auto]]. apply Forall_forall. intros d Hd. rewrite forallb_forall in E2.
    specialize (E2 _ Hd). apply negb_true_iff in E2. auto.
Qed.
Lemma first_word_none s : first_word s = None <-> blank s.
Proof.
  unfold first_word. destruct (lstrip_by_spec is_space s) as (a & H1 & H2 & H3).
  destruct (cut is_space (lstrip_by is_space s)) as [x y] eqn:E. apply cut_spec in E as (E1 & E2 & E3).
  cbn [fst]. assert (Ha : blank a) by (apply Forall_forall; rewrite forallb_forall in H2; auto).
  destruct x as [|c x].
  - split; auto. intros _. rewrite H1, E1. apply Forall_app. split; auto. cbn [app].
    destruct E3 as [->|(c & r & -> & E3)]; [constructor|]. cbn [app] in E1. rewrite (H3 _ _ E1) in E3. discriminate.
  - split; [discriminate|]. intros Hb. rewrite H1, E1 in Hb. apply Forall_app in Hb as [_ Hb]. inv Hb.
    cbn [forallb] in E2. rewrite H4 in E2. discriminate.
Qed.
Lemma first_word_app a w b : blank a -> Forall (fun c => is_space c = false) w -> w <> [] ->
  (b = [] \/ exists c b', b = c :: b' /\ is_space c = true) -> first_word (a ++ w ++ b) = Some w.
Proof.
  intros Ha Hw Hn Hb. unfold first_word. rewrite lstrip_by_app by (apply forallb_forall; rewrite <- Forall_forall; auto).
  rewrite lstrip_by_id.
  - rewrite cut_app; auto.
    + cbn [fst]. destruct w; congruence.
    + apply forallb_forall. intros c Hc. rewrite Forall_forall in Hw. rewrite Hw; auto.
  - destruct w as [|d w]; [congruence|]. cbn [app]. intros c r H. inv H. inv Hw. auto.
Qed.

Lemma dec_nospace n : Forall (fun c => is_space c = false) (dec n).
Proof.
  apply Forall_forall. intros c Hc. pose proof (dec_digits n) as H. rewrite forallb_forall in H.
  apply is_ascii_digit_not_space. auto.
Qed.
Lemma zdec_nospace z : Forall (fun c => is_space c = false) (zdec z).
Proof. destruct z; unfold zdec; try constructor; auto using dec_nospace. Qed.
Lemma zdec_nonnil z : zdec z <> [].
Proof. destruct z; unfold zdec; try discriminate; apply dec_nonnil. Qed.
Lemma zdec_one_line z : one_line (zdec z).
Proof.
  split; intros H; pose proof (zdec_nospace z) as F; rewrite Forall_forall in F; apply F in H; vm_compute in H; discriminate.
Qed.

Lemma set_code_numbered z : numbered (st_line (set_status_code z)) (st_code (set_status_code z)).
Proof.
  unfold set_status_code. cbn [st_line st_code].
  exists [], (zdec z), (32 :: match phrase z with Some p => upper p | None => lit "UNKNOWN" end).
  repeat split; auto using zdec_nospace, py_int_zdec; [constructor|]. right. eauto.
Qed.
Lemma set_status_numbered old s st : set_status old s = (st, None) -> numbered (st_line st) (st_code st).
Proof.
  unfold set_status. destruct (first_word s) as [w|] eqn:E; [|discriminate].
  apply first_word_some in E as (a & b & -> & Ha & Hw & Hn & Hb).
  destruct (py_int w) as [z|] eqn:Ei; intros H; inv H; cbn [st_line st_code].
  - exists a, w, b. auto.
  - exists [], [48], (32 :: a ++ w ++ b). split; auto. split; [constructor|]. split; [repeat constructor|].
    split; [right; eauto|]. reflexivity.
Qed.
Lemma set_status_blank old s : snd (set_status old s) <> None <-> blank s.
Proof.
  rewrite <- first_word_none. unfold set_status. destruct (first_word s) as [w|]; [destruct (py_int w)|]; cbn [snd]; intuition congruence.
Qed.

(** ** What the calls leave alone *)
Definition same_settings (r r' : response) : Prop :=
  rs_passthrough r' = rs_passthrough r /\ rs_implicit r' = rs_implicit r /\ rs_autolength r' = rs_autolength r /\
  rs_autolocation r' = rs_autolocation r.
Lemma ss_refl r : same_settings r r.
Proof. unfold same_settings. auto. Qed.
Lemma ss_trans a b c : same_settings a b -> same_settings b c -> same_settings a c.
Proof. unfold same_settings. intros (-> & -> & -> & ->) (-> & -> & -> & ->). auto. Qed.
Lemma make_sequence_facts r : same_settings r (fst (make_sequence r)) /\ rs_status (fst (make_sequence r)) = rs_status r /\
  rs_headers (fst (make_sequence r)) = rs_headers r.
Proof.
  unfold make_sequence. destruct (rs_body r) as [l|l f c]; [unfold same_settings; auto|].
  destruct (encode_items l f) as [[bs [e|]] rest]; [unfold same_settings; auto|].
  destruct c; unfold same_settings; auto.
Qed.
Lemma ensure_facts r : same_settings r (fst (ensure_sequence r)) /\ rs_status (fst (ensure_sequence r)) = rs_status r /\
  rs_headers (fst (ensure_sequence r)) = rs_headers r.
Proof.
  unfold ensure_sequence. destruct (rs_body r) as [l|l f c] eqn:E; [unfold same_settings; auto|].
  destruct (rs_passthrough r || negb (rs_implicit r)); [unfold same_settings; auto|]. apply make_sequence_facts.
Qed.
Lemma length_fst r : fst (calculate_content_length r) = fst (ensure_sequence r).
Proof. unfold calculate_content_length. destruct (ensure_sequence r) as [r' [[]|]]; auto. Qed.
Lemma get_data_fst r : fst (get_data r) = fst (ensure_sequence r).
Proof.
  unfold get_data. destruct (ensure_sequence r) as [r' [e|]]; auto.
  destruct (encode_items (body_items (rs_body r')) None) as [[bs [e|]] rest]; auto.
Qed.
Lemma set_header_facts r k v : same_settings r (fst (set_header r k v)) /\ rs_status (fst (set_header r k v)) = rs_status r /\
  rs_body (fst (set_header r k v)) = rs_body r.
Proof. unfold set_header. destruct (h_set (rs_headers r) k (HStr v) []); unfold same_settings; auto. Qed.
Lemma set_header_ok r k v : one_line v -> exists h, set_header r k v = (with_headers r h, None) /\ set_effect k v (rs_headers r) h.
Proof.
  intros Hv. unfold set_header. destruct (h_set (rs_headers r) k (HStr v) []) as [h|e] eqn:E.
  - exists h. split; auto. apply set_is_set_effect; auto.
  - exfalso. unfold h_set in E. rewrite stored_nil in E. cbn [text] in E. apply validate_spec in Hv. rewrite Hv in E.
    destruct (set_loop (rs_headers r) k v); discriminate.
Qed.
Lemma set_data_facts r i : same_settings r (fst (set_data r i)) /\ rs_status (fst (set_data r i)) = rs_status r.
Proof.
  unfold set_data. destruct (encode_item i) as [b|e]; [|unfold same_settings; auto].
  destruct (rs_autolength (with_body r (BSeq [IBytes b]))); [|unfold same_settings; auto].
  pose proof (set_header_facts (with_body r (BSeq [IBytes b])) content_length (zdec (Z.of_nat (length b)))) as H.
  destruct H as (H1 & H2 & _). auto.
Qed.
Lemma freeze_facts r : same_settings r (fst (freeze r)) /\ rs_status (fst (freeze r)) = rs_status r.
Proof.
  unfold freeze. destruct (encode_items (body_items (rs_body r)) (body_fail (rs_body r))) as [[bs [e|]] rest].
  - destruct (rs_body r); unfold same_settings; auto.
  - pose proof (set_header_facts (with_body r (BSeq (map IBytes bs))) content_length (zdec (Z.of_nat (length (concat bs))))) as H.
    destruct H as (H1 & H2 & _). auto.
Qed.
Lemma write_facts r i : same_settings r (fst (stream_write r i)) /\ rs_status (fst (stream_write r i)) = rs_status r.
Proof.
  unfold stream_write. pose proof (ensure_facts r) as (H1 & H2 & _). destruct (ensure_sequence r) as [r' [e|]]; auto.
Qed.

(** make_conditional in three steps *)
Definition cond_date (now : str) (r : response) : response * option exn :=
  if h_contains (rs_headers r) (lit "date") then (r, None) else set_header r (lit "Date") now.
Definition cond_length (r : response) : response * option exn :=
  if rs_autolength r && negb (h_contains (rs_headers r) (lit "content-length"))
  then match calculate_content_length r with
       | (r', Ok (Some n)) => set_header r' content_length (zdec (Z.of_nat n))
       | (r', Ok None) => (r', None)
       | (r', Raise e) => (r', Some e)
       end
  else (r, None).
Definition cond_decide date md5 fuel env (r : response) : option (res bool) :=
  is_resource_modified date md5 fuel env (h_get (rs_headers r) (lit "etag")) None
    (match h_get (rs_headers r) (lit "last-modified") with Some s => date s | None => None end).
Lemma conditional_steps now date md5 fuel env r : get_or_head (ce_method env) ->
  make_conditional now date md5 fuel env r =
  match cond_date now r with
  | (r1, Some e) => Some (r1, Some e)
  | (r1, None) =>
      match cond_length r1 with
      | (r2, Some e) => Some (r2, Some e)
      | (r2, None) =>
          match cond_decide date md5 fuel env r2 with
          | None => None
          | Some (Raise e) => Some (r2, Some e)
          | Some (Ok true) => Some (r2, None)
          | Some (Ok false) => Some (with_status r2 (set_status_code 304), None)
          end
      end
  end.
Proof.
  intros H. apply method_get in H. unfold make_conditional. rewrite H. unfold finish.
  fold (cond_date now r). destruct (cond_date now r) as [r1 [e|]]; auto.
Qed.
Lemma conditional_other now date md5 fuel env r : ~ get_or_head (ce_method env) ->
  make_conditional now date md5 fuel env r = Some (r, None).
Proof.
  intros H. unfold make_conditional. destruct (eqs (ce_method env) (lit "GET") || eqs (ce_method env) (lit "HEAD")) eqn:E; auto.
  apply method_get in E. contradiction.
Qed.
Lemma cond_date_facts now r : same_settings r (fst (cond_date now r)) /\ rs_status (fst (cond_date now r)) = rs_status r /\
  rs_body (fst (cond_date now r)) = rs_body r.
Proof. unfold cond_date. destruct (h_contains (rs_headers r) (lit "date")); [unfold same_settings; auto|]. apply set_header_facts. Qed.
Lemma cond_length_facts r : same_settings r (fst (cond_length r)) /\ rs_status (fst (cond_length r)) = rs_status r.
Proof.
  unfold cond_length. destruct (rs_autolength r && negb (h_contains (rs_headers r) (lit "content-length"))); [|unfold same_settings; auto].
  pose proof (ensure_facts r) as (H1 & H2 & _). rewrite <- length_fst in *.
  destruct (calculate_content_length r) as [r' [[n|]|e]]; cbn [fst] in *; auto.
  destruct (set_header_facts r' content_length (zdec (Z.of_nat n))) as (H3 & H4 & _).
  split; [eapply ss_trans; eauto|congruence].
Qed.
Lemma conditional_facts now date md5 fuel env r r' e : make_conditional now date md5 fuel env r = Some (r', e) ->
  same_settings r r' /\ (rs_status r' = rs_status r \/ rs_status r' = set_status_code 304 /\ e = None).
Proof.
  destruct (eqs (ce_method env) (lit "GET") || eqs (ce_method env) (lit "HEAD")) eqn:E.
  - apply method_get in E. rewrite conditional_steps; auto.
    pose proof (cond_date_facts now r) as (A1 & A2 & _). destruct (cond_date now r) as [r1 [e1|]]; cbn [fst] in *.
    + intros H; inv H. auto.
    + pose proof (cond_length_facts r1) as (B1 & B2). destruct (cond_length r1) as [r2 [e2|]]; cbn [fst] in *.
      * intros H; inv H. split; [eapply ss_trans; eauto|left; congruence].
      * destruct (cond_decide date md5 fuel env r2) as [[[]|e3]|]; intros H; inv H.
        -- split; [eapply ss_trans; eauto|left; congruence].
        -- split; [eapply ss_trans; eauto|right; auto].
        -- split; [eapply ss_trans; eauto|left; congruence].
  - intros H. rewrite conditional_other in H; [|rewrite <- method_get; congruence]. inv H. unfold same_settings. auto.
Qed.

Lemma step_settings r o : same_settings r (r_step r o).
Proof.
  destruct o; cbn [r_step].
  - apply set_data_facts.
  - apply write_facts.
  - apply freeze_facts.
  - apply make_sequence_facts.
  - rewrite get_data_fst. apply ensure_facts.
  - rewrite length_fst. apply ensure_facts.
  - unfold same_settings; auto.
  - unfold same_settings; auto.
  - destruct (make_conditional now date md5 fuel env r) as [[r' e]|] eqn:E; [|unfold same_settings; auto].
    eapply conditional_facts; eauto.
Qed.
Lemma run_settings ops : forall r, same_settings r (r_run r ops).
Proof.
  induction ops as [|o ops IH]; intros r; [apply ss_refl|]. cbn [r_run fold_left].
  eapply ss_trans; [apply step_settings|apply IH].
Qed.

(** Assignments of codes and of lines that are not blank *)
Lemma statuses_numbered ops : forall r, numbered (st_line (rs_status r)) (st_code (rs_status r)) ->
  (forall s, In (RStatus s) ops -> ~ blank s) ->
  numbered (st_line (rs_status (r_run r ops))) (st_code (rs_status (r_run r ops))).
Proof.
  induction ops as [|o ops IH]; intros r Hr Hb; auto. cbn [r_run fold_left]. apply IH; [|intros; apply Hb; right; auto].
  destruct o; cbn [r_step].
  - destruct (set_data_facts r i) as (_ & ->). auto.
  - destruct (write_facts r i) as (_ & ->). auto.
  - destruct (freeze_facts r) as (_ & ->). auto.
  - destruct (make_sequence_facts r) as (_ & -> & _). auto.
  - rewrite get_data_fst. destruct (ensure_facts r) as (_ & -> & _). auto.
  - rewrite length_fst. destruct (ensure_facts r) as (_ & -> & _). auto.
  - apply set_code_numbered.
  - cbn [with_status rs_status]. destruct (set_status (rs_status r) s) as [st e] eqn:E. cbn [fst].
    pose proof (set_status_blank (rs_status r) s) as Hs. rewrite E in Hs. cbn [snd] in Hs.
    destruct e as [e|]; [exfalso; apply (Hb s); [left; auto|]; apply Hs; discriminate|].
    eapply set_status_numbered; eauto.
  - destruct (make_conditional now date md5 fuel env r) as [[r' e]|] eqn:E; auto.
    destruct (conditional_facts _ _ _ _ _ _ _ _ E) as (_ & [->|[-> _]]); auto. apply set_code_numbered.
Qed.

(** ** Lengths *)
Lemma plain_encode i : plain i -> exists b, encode_item i = Ok b /\ length b = item_len i.
Proof.
  destruct i as [s|b]; cbn; [|eauto]. intros H. exists s. split; auto. apply utf8_ascii.
  apply forallb_forall. unfold ascii_text in H. rewrite Forall_forall in H. intros c Hc. specialize (H _ Hc). lia.
Qed.
Lemma encode_plain l : forall f, Forall plain l -> exists bs, encode_items l f = (bs, f, []) /\ length (concat bs) = items_len l.
Proof.
  induction l as [|i l IH]; intros f H; cbn [encode_items]; [exists []; auto|]. inv H.
  destruct (plain_encode i) as (b & E1 & E2); auto. destruct (IH f H3) as (bs & E3 & E4).
  rewrite E1, E3. exists (b :: bs). split; auto. cbn [concat items_len fold_right]. rewrite app_length, E4, E2. auto.
Qed.
Lemma encode_bytes bs : forall f, encode_items (map IBytes bs) f = (bs, f, []).
Proof. induction bs as [|b bs IH]; intros f; cbn [map encode_items encode_item]; auto. rewrite IH. auto. Qed.
Lemma bytes_len bs : items_len (map IBytes bs) = length (concat bs).
Proof. induction bs as [|b bs IH]; auto. cbn [map concat items_len fold_right item_len]. unfold items_len in IH. rewrite IH, app_length. auto. Qed.
Lemma bytes_plain bs : Forall plain (map IBytes bs).
Proof. apply Forall_forall. intros i H. apply in_map_iff in H as (b & <- & _). exact I. Qed.

Definition lengths (r : response) : list str := h_getlist (rs_headers r) content_length.
Definition good (r : response) : Prop :=
  match rs_body r with
  | BSeq l => Forall plain l /\ (lengths r = [] \/ lengths r = [zdec (Z.of_nat (items_len l))])
  | BIter _ _ _ => lengths r = []
  end.
Lemma good_length r k l : rs_body r = BSeq l -> Forall plain l -> k = content_length ->
  good (fst (set_header r k (zdec (Z.of_nat (items_len l))))).
Proof.
  intros E Hl ->. destruct (set_header_ok r content_length (zdec (Z.of_nat (items_len l)))) as (h & E1 & E2); [apply zdec_one_line|].
  rewrite E1. unfold good, lengths. cbn [fst with_headers rs_body rs_headers]. rewrite E. split; auto. right.
  apply (set_get _ _ _ _ E2). reflexivity.
Qed.
Lemma make_sequence_good r : good r -> good (fst (make_sequence r)).
Proof.
  intros H. unfold make_sequence. destruct (rs_body r) as [l|l f c] eqn:E; auto.
  destruct (encode_items l f) as [[bs [e|]] rest]; unfold good, lengths in *; rewrite E in H; cbn [fst].
  - exact H.
  - destruct c; cbn [call_on_close with_body rs_body rs_headers]; split; auto using bytes_plain.
Qed.
Lemma ensure_good r : good r -> good (fst (ensure_sequence r)).
Proof.
  intros H. unfold ensure_sequence. destruct (rs_body r) as [l|l f c]; auto.
  destruct (rs_passthrough r || negb (rs_implicit r)); auto. apply make_sequence_good; auto.
Qed.
Lemma ensure_seq r r' : ensure_sequence r = (r', None) -> exists l, rs_body r' = BSeq l.
Proof.
  unfold ensure_sequence, make_sequence. destruct (rs_body r) as [l|l f c] eqn:E; [intros H; inv H; eauto|].
  destruct (rs_passthrough r || negb (rs_implicit r)); [discriminate|].
  destruct (encode_items l f) as [[bs [e|]] rest]; [discriminate|]. intros H; inv H. destruct c; cbn; eauto.
Qed.
Lemma set_data_good r i : rs_autolength r = true -> good r -> good (fst (set_data r i)).
Proof.
  intros Ea H. unfold set_data. destruct (encode_item i) as [b|e] eqn:E; auto. cbn [with_body rs_autolength]. rewrite Ea.
  replace (length b) with (items_len [IBytes b]) by (cbn; lia). apply good_length; auto. apply (bytes_plain [b]).
Qed.
Lemma freeze_good r : good r -> good (fst (freeze r)).
Proof.
  intros H. unfold freeze.
  destruct (encode_items (body_items (rs_body r)) (body_fail (rs_body r))) as [[bs [e|]] rest] eqn:E.
  - destruct (rs_body r) as [l|l f c] eqn:Eb; auto. unfold good, lengths in *. rewrite Eb in H. exact H.
  - rewrite <- bytes_len. apply good_length; auto. apply bytes_plain.
Qed.
Lemma items_app a b : items_len (a ++ b) = (items_len a + items_len b)%nat.
Proof. induction a as [|i a IH]; cbn [app items_len fold_right]; auto. unfold items_len in IH. rewrite IH. unfold items_len. lia. Qed.
Lemma pop_absent h k : exists h', h_pop_name h k true = Ok h' /\ h_getlist h' k = [].
Proof.
  unfold h_pop_name. destruct (getitem_cases h k) as [[v E]|E]; rewrite E.
  - eexists. split; eauto. apply (getlist_absent k); [|reflexivity]. eapply without_absent. apply without_filter.
  - eexists. split; eauto. apply (getlist_absent k); [|reflexivity]. apply getitem_missing; auto.
Qed.
Lemma write_good r i : plain i -> good r -> good (fst (stream_write r i)).
Proof.
  intros Hi H. apply ensure_good in H. unfold stream_write.
  destruct (ensure_sequence r) as [r' [e|]] eqn:E; auto. cbn [fst] in *.
  apply ensure_seq in E as (l & El). unfold good, lengths in *. rewrite El in *. destruct H as [H1 _].
  cbn [with_headers with_body rs_body rs_headers body_items]. split.
  - apply Forall_app. auto.
  - left. destruct (pop_absent (rs_headers r') content_length) as (h' & -> & Eh). auto.
Qed.
Lemma date_header_good r v : good r -> good (fst (set_header r (lit "Date") v)).
Proof.
  intros H. unfold set_header. destruct (h_set (rs_headers r) (lit "Date") (HStr v) []) as [h|e] eqn:E; auto.
  apply set_is_set_effect in E. apply set_get in E as [_ E]. unfold good, lengths in *. cbn [fst with_headers rs_body rs_headers].
  rewrite E; auto. intros F. vm_compute in F. discriminate.
Qed.
Lemma conditional_good now date md5 fuel env r r' e : good r -> make_conditional now date md5 fuel env r = Some (r', e) -> good r'.
Proof.
  intros G. destruct (eqs (ce_method env) (lit "GET") || eqs (ce_method env) (lit "HEAD")) eqn:E.
  2:{ intros H. rewrite conditional_other in H; [|rewrite <- method_get; congruence]. inv H. auto. }
  apply method_get in E. rewrite conditional_steps; auto.
  assert (G1 : good (fst (cond_date now r))).
  { unfold cond_date. destruct (h_contains (rs_headers r) (lit "date")); auto. apply date_header_good; auto. }
  destruct (cond_date now r) as [r1 [e1|]]; cbn [fst] in *; [intros H; inv H; auto|].
  assert (G2 : good (fst (cond_length r1))).
  { unfold cond_length. destruct (rs_autolength r1 && negb (h_contains (rs_headers r1) (lit "content-length"))); auto.
    unfold calculate_content_length. pose proof (ensure_good r1 G1) as G2.
    destruct (ensure_sequence r1) as [r2 [x|]] eqn:Es; cbn [fst] in G2.
    - destruct x; auto.
    - destruct (ensure_seq _ _ Es) as (l & El). rewrite El. cbn [body_items]. apply good_length; auto.
      unfold good in G2. rewrite El in G2. tauto. }
  destruct (cond_length r1) as [r2 [e2|]]; cbn [fst] in *; [intros H; inv H; auto|].
  destruct (cond_decide date md5 fuel env r2) as [[[]|e3]|]; intros H; inv H; auto.
Qed.
Lemma step_good r o : rs_autolength r = true -> plain_call o -> good r -> good (r_step r o).
Proof.
  intros Ea Ho H. destruct o; cbn [r_step].
  - apply set_data_good; auto.
  - apply write_good; auto.
  - apply freeze_good; auto.
  - apply make_sequence_good; auto.
  - rewrite get_data_fst. apply ensure_good; auto.
  - rewrite length_fst. apply ensure_good; auto.
  - exact H.
  - exact H.
  - destruct (make_conditional now date md5 fuel env r) as [[r' e]|] eqn:E; auto. eapply conditional_good; eauto.
Qed.
Lemma run_good ops : forall r, rs_autolength r = true -> Forall plain_call ops -> good r -> good (r_run r ops).
Proof.
  induction ops as [|o ops IH]; intros r Ea Ho H; auto. inv Ho. cbn [r_run fold_left]. apply IH; auto.
  - destruct (step_settings r o) as (_ & _ & -> & _). auto.
  - apply step_good; auto.
Qed.
Lemma fresh_good r : fresh r -> good r.
Proof.
  intros [H1 H2]. unfold good, lengths. assert (E : h_getlist (rs_headers r) content_length = []).
  { apply (getlist_absent content_length); [exact H1|reflexivity]. }
  destruct (rs_body r); auto.
Qed.

(** ** Sent headers *)
Lemma last_value_app a b k : last_value (a ++ b) k = match last_value b k with Some v => Some v | None => last_value a k end.
Proof.
  unfold last_value. rewrite fold_left_app. generalize (fold_left (fun acc (kv : str * str) => if eqs (lower (fst kv)) k then Some (snd kv) else acc) a None).
  induction b as [|x b IH]; intros o; cbn [fold_left]; auto.
  rewrite (IH (if eqs (lower (fst x)) k then Some (snd x) else o)), (IH (if eqs (lower (fst x)) k then Some (snd x) else None)).
  destruct (fold_left _ b None); auto. destruct (eqs (lower (fst x)) k); auto.
Qed.
Lemma last_value_none l k : last_value l (lower k) = None <-> h_getlist l k = [].
Proof.
  induction l as [|x l IH] using rev_ind; [split; auto|]. rewrite last_value_app, getlist_app.
  destruct x as [n v]. rewrite getlist_one. cbn [last_value fold_left fst snd].
  change (eqs (lower n) (lower k)) with (same n k). destruct (same n k) eqn:E.
  - split; [discriminate|]. intros H. apply app_eq_nil in H as [_ H]. discriminate.
  - rewrite app_nil_r. auto.
Qed.

Section Send.
  Variables (idna_part idna_decode_part : str -> res str) (ip_ok nfkc_ok : str -> bool).
  Notation wsgi_headers := (wsgi_headers idna_part idna_decode_part ip_ok nfkc_ok).
  Notation fix_location := (fix_location idna_part idna_decode_part ip_ok nfkc_ok).
  Notation iri_to_uri := (iri_to_uri idna_part ip_ok nfkc_ok).

  (** The three stages: Location, Content-Location, the length or the entity headers *)
  Definition located environ (r : response) (h1 : headers) : Prop :=
    match last_value (rs_headers r) (lit "location") with
    | None => h1 = rs_headers r
    | Some old => exists new, fix_location environ (rs_autolocation r) old = Ok new /\
        ((new = old /\ h1 = rs_headers r) \/ (new <> old /\ set_effect (lit "Location") new (rs_headers r) h1))
    end.
  Definition content_located (r : response) (h1 h2 : headers) : Prop :=
    match last_value (rs_headers r) (lit "content-location") with
    | None => h2 = h1
    | Some old => exists new, iri_to_uri old = Ok new /\ set_effect (lit "Content-Location") new h1 h2
    end.
  Definition finished (r : response) (h2 h3 : headers) : Prop :=
    let code := st_code (rs_status r) in
    (informational code \/ code = 204%Z) /\ set_effect content_length (lit "0") h2 h3 \/
    code = 304%Z /\ h3 = remove_entity_headers h2 [lit "expires"; lit "content-location"] \/
    ~ bodyless code /\
      (h3 = h2 /\ (is_seq (rs_body r) = false \/ rs_autolength r = false \/ lengths r <> []) \/
       exists l, rs_body r = BSeq l /\ lengths r = [] /\ rs_autolength r = true /\ set_effect content_length (zdec (Z.of_nat (items_len l))) h2 h3).

  Lemma setall_same h0 h h' : h_setall h0 (map (fun kv => (fst kv, HStr (snd kv))) h) = Ok h' -> h' = h.
  Proof.
    unfold h_setall. rewrite map_map.
    match goal with |- context [forallb ?f ?m] => destruct (forallb f m) end; [|discriminate].
    intros H; inv H. clear. induction h as [|[k v] h IH]; cbn [map fst snd unicodify]; auto. rewrite IH. auto.
  Qed.
  Lemma sent_stages environ r h3 : wsgi_headers environ r = Ok h3 ->
    exists h1 h2, located environ r h1 /\ content_located r h1 h2 /\ finished r h2 h3.
  Proof.
    unfold ModelResponse.wsgi_headers. set (h := rs_headers r). set (code := st_code (rs_status r)).
    intros H.
    assert (E1 : exists h1, located environ r h1 /\ match last_value h (lit "location") with
             | None => Ok h
             | Some old =>
                 do new <- fix_location environ (rs_autolocation r) old;
                 if eqs new old then Ok h else h_set h (lit "Location") (HStr new) []
             end = Ok h1).
    { unfold located. fold h. destruct (last_value h (lit "location")) as [old|]; [|eauto].
      destruct (fix_location environ (rs_autolocation r) old) as [new|e]; [|discriminate]. cbn [bind] in *.
      destruct (eqs new old) eqn:En.
      - apply eqs_eq in En. exists h. split; eauto.
      - destruct (h_set h (lit "Location") (HStr new) []) as [h1|e] eqn:Es; [|discriminate].
        exists h1. split; auto. exists new. split; auto. right. split; [|apply set_is_set_effect; auto].
        intros ->. rewrite eqs_refl in En. discriminate. }
    destruct E1 as (h1 & L1 & E1). rewrite E1 in H. cbn [bind] in H.
    assert (E2 : exists h2, content_located r h1 h2 /\ match last_value h (lit "content-location") with
             | None => Ok h1
             | Some old => do new <- iri_to_uri old; h_set h1 (lit "Content-Location") (HStr new) []
             end = Ok h2).
    { unfold content_located. fold h. destruct (last_value h (lit "content-location")) as [old|]; [|eauto].
      destruct (iri_to_uri old) as [new|e]; [|discriminate]. cbn [bind] in *.
      destruct (h_set h1 (lit "Content-Location") (HStr new) []) as [h2|e] eqn:Es; [|discriminate].
      exists h2. split; auto. exists new. split; auto. apply set_is_set_effect; auto. }
    destruct E2 as (h2 & L2 & E2). rewrite E2 in H. cbn [bind] in H.
    exists h1, h2. split; auto. split; auto. unfold finished. fold code.
    destruct (((100 <=? code) && (code <? 200))%Z || (code =? 204)%Z) eqn:Ec.
    { left. split; [unfold informational; lia|]. apply set_is_set_effect; auto. }
    destruct (code =? 304)%Z eqn:E3.
    - right; left. split; [lia|].
      destruct (h_setall h2 _) as [h4|e] eqn:E4; [|discriminate]. apply setall_same in E4. subst h4. cbn [bind] in H.
      destruct (last_value h (lit "content-length")); [|destruct (rs_body r); [rewrite andb_false_r in H|]]; inv H; auto.
    - right; right. split; [unfold bodyless, informational; lia|]. cbn [bind] in H.
      destruct (last_value h (lit "content-length")) as [v|] eqn:Ev.
      + inv H. left. split; auto. right; right. intros F. apply (last_value_none _ content_length) in F. unfold h in Ev.
        change (lower content_length) with (lit "content-length") in F. rewrite F in Ev. discriminate.
      + assert (F : lengths r = []) by (apply last_value_none; exact Ev).
        destruct (rs_body r) as [l|] eqn:Eb; [|inv H; left; split; auto].
        destruct (rs_autolength r) eqn:Ea; cbn [andb negb] in H.
        * right. exists l. repeat (split; auto). apply set_is_set_effect; auto.
        * inv H. left. auto.
  Qed.

  Lemma located_other environ r h1 k : located environ r h1 -> ~ same_name (lit "Location") k ->
    h_getlist h1 k = h_getlist (rs_headers r) k.
  Proof.
    unfold located. destruct (last_value (rs_headers r) (lit "location")) as [old|]; [|intros ->; auto].
    intros (new & _ & [[_ ->]|[_ H]]) Hk; auto. apply (set_get _ _ _ _ H). auto.
  Qed.
  Lemma content_located_other r h1 h2 k : content_located r h1 h2 -> ~ same_name (lit "Content-Location") k ->
    h_getlist h2 k = h_getlist h1 k.
  Proof.
    unfold content_located. destruct (last_value (rs_headers r) (lit "content-location")) as [old|]; [|intros ->; auto].
    intros (new & _ & H) Hk. apply (set_get _ _ _ _ H). auto.
  Qed.

  Lemma raw_bytes l : forall f cs, raw_items l f = (cs, None) -> length (concat cs) = items_len l /\ f = None.
  Proof.
    induction l as [|[s|b] l IH]; intros f cs; cbn [raw_items].
    - intros H; inv H. auto.
    - discriminate.
    - destruct (raw_items l f) as [r e] eqn:E. intros H; inv H. destruct (IH _ _ E) as [H ->]. split; auto.
      cbn [concat items_len fold_right item_len]. rewrite app_length, H. auto.
  Qed.
  Lemma bodyless_spec code : bodyless_status code = true <-> bodyless code.
  Proof. unfold bodyless_status, bodyless, informational. lia. Qed.
  Lemma iter_full method r : method <> lit "HEAD" -> ~ bodyless (st_code (rs_status r)) ->
    get_app_iter method r = if rs_passthrough r then ARaw (rs_body r) else AEncoded (rs_body r).
  Proof.
    intros Hm Hb. unfold get_app_iter. destruct (eqs method (lit "HEAD")) eqn:E; [apply eqs_eq in E; contradiction|].
    destruct (bodyless_status (st_code (rs_status r))) eqn:E2; [apply bodyless_spec in E2; contradiction|]. auto.
  Qed.
  Lemma sent_bytes method r l cs : rs_body r = BSeq l -> Forall plain l -> method <> lit "HEAD" ->
    ~ bodyless (st_code (rs_status r)) -> chunks (get_app_iter method r) = (cs, None) -> length (concat cs) = items_len l.
  Proof.
    intros El Hl Hm Hb. rewrite iter_full; auto. rewrite El. destruct (rs_passthrough r); cbn [chunks body_items body_fail].
    - intros H. apply raw_bytes in H. tauto.
    - destruct (encode_plain l None Hl) as (bs & -> & E). intros H; inv H. auto.
  Qed.

  Lemma length_sent (r : response) (ops : list rop) environ method line h it cs vs :
    fresh r -> rs_autolength r = true -> Forall plain_call ops ->
    serve idna_part idna_decode_part ip_ok nfkc_ok environ (r_run r ops) = Ok (line, h, it) ->
    dget environ (lit "REQUEST_METHOD") = Some method -> method <> lit "HEAD" ->
    ~ bodyless (st_code (rs_status (r_run r ops))) ->
    chunks it = (cs, None) -> values_of (lit "Content-Length") h vs ->
    (is_seq (rs_body (r_run r ops)) = true /\ vs = [zdec (Z.of_nat (length (concat cs)))]) \/
    (is_seq (rs_body (r_run r ops)) = false /\ vs = []).
  Proof.
    intros Hf Ha Ho Hs Hm Hh Hb Hc Hv.
    pose proof (run_good ops r Ha Ho (fresh_good r Hf)) as G.
    assert (Ha' : rs_autolength (r_run r ops) = true) by (destruct (run_settings ops r) as (_ & _ & -> & _); auto).
    set (r' := r_run r ops) in *. clearbody r'.
    unfold serve in Hs. destruct (wsgi_headers environ r') as [h3|e] eqn:E; [|discriminate]. cbn [bind] in Hs.
    rewrite Hm in Hs. inv Hs.
    apply sent_stages in E as (h1 & h2 & L1 & L2 & L3).
    assert (E2 : h_getlist h2 content_length = lengths r').
    { rewrite (content_located_other _ _ _ _ L2); [|vm_compute; discriminate].
      rewrite (located_other _ _ _ _ L1); [auto|vm_compute; discriminate]. }
    apply getlist_char in Hv. subst vs. unfold good in G.
    destruct L3 as [[F _]|[[F _]|[_ L3]]]; [exfalso; apply Hb; unfold bodyless; tauto..|].
    destruct (rs_body r') as [l|l f c] eqn:Eb.
    - destruct G as [G1 G2]. left. split; auto.
      rewrite (sent_bytes _ _ _ _ Eb G1 Hh Hb Hc).
      destruct L3 as [[-> L3]|(l' & El & _ & _ & L3)].
      + change (lit "Content-Length") with content_length. rewrite E2. destruct G2 as [G2|G2]; auto. cbn [is_seq] in L3. intuition congruence.
      + inv El. apply (set_get _ _ _ _ L3). reflexivity.
    - right. split; auto. destruct L3 as [[-> _]|(l' & El & _)]; [|discriminate].
      change (lit "Content-Length") with content_length. rewrite E2. auto.
  Qed.

  (** ** Bodyless responses *)
  Lemma bodyless_sent environ method r line h it :
    serve idna_part idna_decode_part ip_ok nfkc_ok environ r = Ok (line, h, it) ->
    dget environ (lit "REQUEST_METHOD") = Some method ->
    method = lit "HEAD" \/ bodyless (st_code (rs_status r)) -> chunks it = ([], None).
  Proof.
    unfold serve. intros H Hm Hb. destruct (wsgi_headers environ r) as [h3|e]; [|discriminate]. cbn [bind] in H.
    rewrite Hm in H. inv H. unfold get_app_iter.
    replace (eqs method (lit "HEAD") || bodyless_status (st_code (rs_status r))) with true; auto.
    symmetry. apply orb_true_iff. rewrite eqs_eq, bodyless_spec. auto.
  Qed.
  Lemma zero_sent environ r line h it :
    serve idna_part idna_decode_part ip_ok nfkc_ok environ r = Ok (line, h, it) ->
    informational (st_code (rs_status r)) \/ st_code (rs_status r) = 204%Z -> values_of (lit "Content-Length") h [lit "0"].
  Proof.
    unfold serve. intros H Hb. destruct (wsgi_headers environ r) as [h3|e] eqn:E; [|discriminate]. cbn [bind] in H.
    destruct (dget environ (lit "REQUEST_METHOD")); [|discriminate]. inv H.
    apply sent_stages in E as (h1 & h2 & _ & _ & [[_ L3]|[[F _]|[F _]]]).
    - apply set_get in L3 as [L3 _]. rewrite <- (L3 (lit "Content-Length")); [apply values_of_filter|reflexivity].
    - unfold informational in Hb. lia.
    - exfalso. apply F. unfold bodyless. tauto.
  Qed.
  Lemma sifted_out {A} (P : A -> Prop) a b x : sifted P a b -> In x b -> In x a /\ ~ P x.
  Proof. induction 1; cbn [In]; [tauto| |]; intros Hx; [tauto|]. destruct Hx as [<-|Hx]; tauto. Qed.
  Lemma not_modified_sent environ r line h it :
    serve idna_part idna_decode_part ip_ok nfkc_ok environ r = Ok (line, h, it) ->
    st_code (rs_status r) = 304%Z ->
    forall k v n, In (k, v) h -> In n entity_names -> same_name k n -> n = lit "Expires" \/ n = lit "Content-Location".
  Proof.
    unfold serve. intros H Hb. destruct (wsgi_headers environ r) as [h3|e] eqn:E; [|discriminate]. cbn [bind] in H.
    destruct (dget environ (lit "REQUEST_METHOD")); [|discriminate]. inv H.
    apply sent_stages in E as (h1 & h2 & _ & _ & [[F _]|[[_ ->]|[F _]]]).
    - unfold informational in F. lia.
    - intros k v n Hi Hn Hs. pose proof (remove_entity_spec h2 [lit "expires"; lit "content-location"]) as S.
      destruct (sifted_out _ _ _ _ S Hi) as [_ N]. cbn [fst] in N.
      assert (X : exists a, In a [lit "expires"; lit "content-location"] /\ same_name k a).
      { destruct (same k (lit "expires")) eqn:A1; [apply same_spec in A1; eexists; split; [left; reflexivity|auto]|].
        destruct (same k (lit "content-location")) eqn:A2; [apply same_spec in A2; eexists; split; [right; left; reflexivity|auto]|].
        exfalso. apply N. split; [eauto|]. intros (a & [<-|[<-|[]]] & Ha); apply same_spec in Ha; congruence. }
      destruct X as (a & Ha & Hk). unfold same_name in *. rewrite Hs in Hk.
      cbn [entity_names In] in Hn. cbn [In] in Ha.
      destruct Ha as [<-|[<-|[]]]; repeat (destruct Hn as [<-|Hn]; [vm_compute in Hk; try discriminate; auto|]); destruct Hn.
    - exfalso. apply F. unfold bodyless. tauto.
  Qed.
End Send.

Section Others.
  Variables (idna_part idna_decode_part : str -> res str) (ip_ok nfkc_ok : str -> bool).
  Lemma getlist_filter f (l : headers) k : (forall n v, same_name n k -> f (n, v) = true) ->
    h_getlist (filter f l) k = h_getlist l k.
  Proof.
    intros H. induction l as [|[n v] l IH]; auto. cbn [filter]. rewrite (getlist_cons (n, v) l), getlist_one.
    destruct (same n k) eqn:E.
    - apply same_spec in E. rewrite H by auto. rewrite getlist_cons, getlist_one. apply same_spec in E. rewrite E, IH. auto.
    - destruct (f (n, v)); auto. rewrite getlist_cons, getlist_one, E, IH. auto.
  Qed.
  Lemma others_sent environ r line h it k vs :
    serve idna_part idna_decode_part ip_ok nfkc_ok environ r = Ok (line, h, it) ->
    ~ same_name k (lit "Location") -> ~ same_name k (lit "Content-Location") -> ~ same_name k (lit "Content-Length") ->
    (st_code (rs_status r) = 304%Z -> forall n, In n entity_names -> ~ same_name k n) ->
    values_of k (rs_headers r) vs -> values_of k h vs.
  Proof.
    unfold serve. intros H N1 N2 N3 N4 Hv.
    destruct (wsgi_headers idna_part idna_decode_part ip_ok nfkc_ok environ r) as [h3|e] eqn:E; [|discriminate].
    cbn [bind] in H. destruct (dget environ (lit "REQUEST_METHOD")); [|discriminate]. inv H.
    apply sent_stages in E as (h1 & h2 & L1 & L2 & L3).
    apply getlist_char in Hv. subst vs.
    rewrite <- (located_other _ _ _ _ _ _ _ _ L1), <- (content_located_other _ _ _ _ _ _ _ L2); [|unfold same_name in *; auto..].
    assert (Q : h_getlist h k = h_getlist h2 k); [|rewrite <- Q; apply values_of_filter].
    destruct L3 as [[_ L3]|[[F ->]|[_ [[-> _]|(q & _ & _ & _ & L3)]]]]; auto.
    - apply set_get in L3 as [_ L3]. apply L3. unfold same_name in *. auto.
    - unfold remove_entity_headers. apply getlist_filter. intros n v Hn. cbn [fst].
      apply orb_true_iff. left. apply negb_true_iff. destruct (is_entity_header n) eqn:En; auto.
      apply entity_spec in En as (m & Hm & Hs). exfalso. apply (N4 F m Hm). unfold same_name in *. congruence.
    - apply set_get in L3 as [_ L3]. apply L3. unfold same_name in *. auto.
  Qed.
End Others.

(** ** make_conditional *)
Lemma h_get_getlist l k : h_get l k = match h_getlist l k with [] => None | v :: _ => Some v end.
Proof.
  unfold h_get. destruct (getitem_cases l k) as [[v E]|E]; rewrite E.
  - apply getitem_ok in E as [t H]. rewrite (getlist_char _ _ _ H). auto.
  - apply getitem_missing in E. rewrite (getlist_absent k k); [auto|auto|reflexivity].
Qed.
Lemma set_header_other r k v k' : ~ same_name k k' -> h_getlist (rs_headers (fst (set_header r k v))) k' = h_getlist (rs_headers r) k'.
Proof.
  intros H. unfold set_header. destruct (h_set (rs_headers r) k (HStr v) []) as [h|e] eqn:E; auto.
  apply set_is_set_effect in E. apply set_get in E as [_ E]. cbn [fst with_headers rs_headers]. auto.
Qed.
Lemma cond_date_other now r k : ~ same_name (lit "Date") k -> h_getlist (rs_headers (fst (cond_date now r))) k = h_getlist (rs_headers r) k.
Proof. intros H. unfold cond_date. destruct (h_contains (rs_headers r) (lit "date")); auto. apply set_header_other; auto. Qed.
Lemma cond_length_other r k : ~ same_name content_length k -> h_getlist (rs_headers (fst (cond_length r))) k = h_getlist (rs_headers r) k.
Proof.
  intros H. unfold cond_length. destruct (rs_autolength r && negb (h_contains (rs_headers r) (lit "content-length"))); auto.
  pose proof (ensure_facts r) as (_ & _ & Hh). rewrite <- length_fst in Hh.
  destruct (calculate_content_length r) as [r' [[n|]|e]]; cbn [fst] in *; rewrite <- ?Hh; auto. apply set_header_other; auto.
Qed.
Definition decide_on date md5 fuel env (h : headers) : option (res bool) :=
  is_resource_modified date md5 fuel env (h_get h (lit "etag")) None
    (match h_get h (lit "last-modified") with Some s => date s | None => None end).
Lemma conditional_decision now date md5 fuel env r r' : get_or_head (ce_method env) ->
  make_conditional now date md5 fuel env r = Some (r', None) ->
  exists b, decide_on date md5 fuel env (rs_headers r) = Some (Ok b) /\
    rs_status r' = (if b then rs_status r else set_status_code 304) /\
    (forall k, ~ same_name (lit "Date") k -> ~ same_name (lit "Content-Length") k ->
       h_getlist (rs_headers r') k = h_getlist (rs_headers r) k).
Proof.
  intros Hm. rewrite conditional_steps; auto.
  pose proof (cond_date_facts now r) as (_ & A2 & _). pose proof (cond_date_other now r) as A3.
  destruct (cond_date now r) as [r1 [e1|]]; cbn [fst] in *; [discriminate|].
  pose proof (cond_length_facts r1) as (_ & B2). pose proof (cond_length_other r1) as B3.
  destruct (cond_length r1) as [r2 [e2|]]; cbn [fst] in *; [discriminate|].
  assert (Hk : forall k, ~ same_name (lit "Date") k -> ~ same_name (lit "Content-Length") k ->
     h_getlist (rs_headers r2) k = h_getlist (rs_headers r) k) by (intros k H1 H2; rewrite B3, A3; auto).
  assert (Hd : cond_decide date md5 fuel env r2 = decide_on date md5 fuel env (rs_headers r)).
  { unfold cond_decide, decide_on. rewrite !h_get_getlist.
    rewrite (Hk (lit "etag")), (Hk (lit "last-modified")); [auto|vm_compute; discriminate..]. }
  rewrite Hd. destruct (decide_on date md5 fuel env (rs_headers r)) as [[[]|e3]|]; intros H; inv H.
  - exists true. split; auto. split; [congruence|auto].
  - exists false. split; auto.
Qed.

(** Which validators decide; both lemmas speak of the headers alone *)
Lemma conditional_tags now date md5 fuel env r r' h l m t rest :
  get_or_head (ce_method env) -> ce_inm env = Some h -> tag_list h l -> Forall plain_tag l -> (length h <= fuel)%nat ->
  values_of (lit "ETag") (rs_headers r) (write_tag (m, t) :: rest) ->
  make_conditional now date md5 fuel env r = Some (r', None) ->
  (tag_matches l (weak_mark m) t /\ rs_status r' = set_status_code 304) \/
  (~ tag_matches l (weak_mark m) t /\ rs_status r' = rs_status r).
Proof.
  intros Hm Hi Hl Hp Hf He H. destruct (conditional_decision _ _ _ _ _ _ _ Hm H) as (b & Hb & Hs & _).
  unfold decide_on in Hb. rewrite (h_get_getlist _ (lit "etag")) in Hb.
  assert (E : h_getlist (rs_headers r) (lit "etag") = write_tag (m, t) :: rest).
  { rewrite <- (getlist_char _ _ _ He). reflexivity. }
  rewrite E in Hb.
  destruct (decision_tags date md5 fuel env h l m t
              (match h_get (rs_headers r) (lit "last-modified") with Some s => date s | None => None end)) as (b' & Hb' & Hd); auto.
  rewrite Hb' in Hb. inv Hb. destruct b.
  - right. split; auto. intros F. apply Hd in F. discriminate.
  - left. split; auto. apply Hd. auto.
Qed.
Lemma conditional_star now date md5 fuel env r r' m t rest :
  get_or_head (ce_method env) -> ce_inm env = Some [42] -> (1 <= fuel)%nat ->
  values_of (lit "ETag") (rs_headers r) (write_tag (m, t) :: rest) ->
  make_conditional now date md5 fuel env r = Some (r', None) -> rs_status r' = set_status_code 304.
Proof.
  intros Hm Hi Hf He H. destruct (conditional_decision _ _ _ _ _ _ _ Hm H) as (b & Hb & Hs & _).
  unfold decide_on in Hb. rewrite (h_get_getlist _ (lit "etag")) in Hb.
  assert (E : h_getlist (rs_headers r) (lit "etag") = write_tag (m, t) :: rest).
  { rewrite <- (getlist_char _ _ _ He). reflexivity. }
  rewrite E in Hb. rewrite decision_star in Hb; auto. inv Hb. auto.
Qed.
Lemma conditional_dates now date md5 fuel env r r' :
  get_or_head (ce_method env) ->
  (ce_inm env = None \/ ce_inm env = Some [] \/ absent (lit "ETag") (rs_headers r)) ->
  make_conditional now date md5 fuel env r = Some (r', None) ->
  let unchanged := exists h since v vs m, ce_ims env = Some h /\ date h = Some since /\
     values_of (lit "Last-Modified") (rs_headers r) (v :: vs) /\ date v = Some m /\ (m / 1000000 * 1000000 <= since)%Z in
  (unchanged /\ rs_status r' = set_status_code 304) \/ (~ unchanged /\ rs_status r' = rs_status r).
Proof.
  intros Hm Hi H unchanged. destruct (conditional_decision _ _ _ _ _ _ _ Hm H) as (b & Hb & Hs & _).
  unfold decide_on in Hb.
  set (lm := match h_get (rs_headers r) (lit "last-modified") with Some s => date s | None => None end) in *.
  destruct (decision_date date md5 fuel env (h_get (rs_headers r) (lit "etag")) lm Hm) as (b' & Hb' & Hd).
  { destruct Hi as [Hi|[Hi|Hi]]; auto. right; right. rewrite h_get_getlist.
    rewrite (getlist_absent (lit "ETag")); [auto|auto|reflexivity]. }
  rewrite Hb' in Hb. inv Hb.
  assert (U : unchanged <-> b = false).
  { rewrite Hd. unfold unchanged, lm. rewrite h_get_getlist.
    assert (E : forall vs, values_of (lit "Last-Modified") (rs_headers r) vs <-> h_getlist (rs_headers r) (lit "last-modified") = vs).
    { intros vs. split; [intros X; apply getlist_char in X; exact X|]. intros <-.
      change (h_getlist (rs_headers r) (lit "last-modified")) with (h_getlist (rs_headers r) (lit "Last-Modified")). apply values_of_filter. }
    split.
    - intros (h & since & v & vs & m & H1 & H2 & H3 & H4 & H5). apply E in H3. rewrite H3. exists h, since, m. auto.
    - intros (h & since & m & H1 & H2 & H3 & H4).
      destruct (h_getlist (rs_headers r) (lit "last-modified")) as [|v vs] eqn:El; [discriminate|].
      exists h, since, v, vs, m. repeat (split; auto). apply E. auto. }
  destruct b; [right|left]; split; auto; [rewrite U; discriminate|rewrite U; auto].
Qed.
(** With a sequence body nothing can go wrong *)
Lemma conditional_total now date md5 fuel env r l : one_line now -> rs_body r = BSeq l ->
  (ce_inm env = None \/ exists h, ce_inm env = Some h /\ (forall u, h <> u ++ [10]) /\ (length h <= fuel)%nat) ->
  exists r', make_conditional now date md5 fuel env r = Some (r', None) /\ rs_body r' = BSeq l.
Proof.
  intros Hn Hl Hi. destruct (eqs (ce_method env) (lit "GET") || eqs (ce_method env) (lit "HEAD")) eqn:E.
  2:{ exists r. rewrite conditional_other; [auto|rewrite <- method_get; congruence]. }
  apply method_get in E. rewrite conditional_steps; auto.
  assert (A : exists r1, cond_date now r = (r1, None) /\ rs_body r1 = BSeq l).
  { unfold cond_date. destruct (h_contains (rs_headers r) (lit "date")); eauto.
    destruct (set_header_ok r (lit "Date") now Hn) as (h & -> & _). eauto. }
  destruct A as (r1 & -> & H1).
  assert (B : exists r2, cond_length r1 = (r2, None) /\ rs_body r2 = BSeq l).
  { unfold cond_length. destruct (rs_autolength r1 && negb (h_contains (rs_headers r1) (lit "content-length"))); eauto.
    unfold calculate_content_length, ensure_sequence. rewrite H1.
    destruct (set_header_ok r1 content_length (zdec (Z.of_nat (items_len (body_items (rs_body r1)))))) as (h & X & _); [apply zdec_one_line|].
    rewrite X. eauto. }
  destruct B as (r2 & -> & H2).
  assert (C : exists b, cond_decide date md5 fuel env r2 = Some (Ok b)).
  { unfold cond_decide, is_resource_modified. apply method_get in E. rewrite E. cbn [negb].
    destruct (h_get (rs_headers r2) (lit "etag")) as [[|c t]|]; cbn [option_map]; eauto.
    destruct Hi as [Hi|(h & Hi & Hu & Hf)]; rewrite Hi; eauto.
    destruct (parse_etags_terminates h Hu fuel Hf) as (e & ->). destruct (et_bool e); eauto. }
  destruct C as ([] & ->); eauto.
Qed.
