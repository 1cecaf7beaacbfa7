From Coq Require Import Arith List NArith ZArith Bool Lia ZifyBool ZifyN ZifyNat.
From Verif Require Import PyStr PyStrFacts Regex Utf8 Utf8Facts ModelHeaders SpecHeaders ProofHeaders ModelEtag SpecEtag ProofEtag
  ModelUrls ProofIri ModelRoute ModelUrlMap ModelWsgi ModelResponse SpecResponse ProofResponse SpecLength.
Import ListNotations.
Open Scope N_scope.
Ltac inv H := inversion H; subst; clear H.

Lemma counted_len l n : counted l n <-> n = items_len l.
Proof.
  split.
  - intros H. induction H; cbn; auto; rewrite IHcounted; reflexivity.
  - intros ->. induction l as [|[s|b] l IH]; cbn [items_len fold_right item_len]; constructor; exact IH.
Qed.

(** The invariant of C45 without any condition on the texts. *)
Definition fair (r : response) : Prop :=
  match rs_body r with
  | BSeq l => lengths r = [] \/ lengths r = [zdec (Z.of_nat (items_len l))]
  | BIter _ _ _ => lengths r = []
  end.
Lemma fair_length r l : rs_body r = BSeq l -> fair (fst (set_header r content_length (zdec (Z.of_nat (items_len l))))).
Proof.
  intros E. destruct (set_header_ok r content_length (zdec (Z.of_nat (items_len l)))) as (h & E1 & E2); [apply zdec_one_line|].
  rewrite E1. unfold fair, lengths. cbn [fst with_headers rs_body rs_headers]. rewrite E. right.
  apply (set_get _ _ _ _ E2). reflexivity.
Qed.
Lemma make_sequence_fair r : fair r -> fair (fst (make_sequence r)).
Proof.
  intros H. unfold make_sequence. destruct (rs_body r) as [l|l f c] eqn:E; auto.
  destruct (encode_items l f) as [[bs [e|]] rest]; unfold fair, lengths in *; rewrite E in H; cbn [fst].
  - exact H.
  - destruct c; cbn [call_on_close with_body rs_body rs_headers]; auto.
Qed.
Lemma ensure_fair r : fair r -> fair (fst (ensure_sequence r)).
Proof.
  intros H. unfold ensure_sequence. destruct (rs_body r) as [l|l f c]; auto.
  destruct (rs_passthrough r || negb (rs_implicit r)); auto. apply make_sequence_fair; auto.
Qed.
Lemma set_data_fair r i : rs_autolength r = true -> fair r -> fair (fst (set_data r i)).
Proof.
  intros Ea H. unfold set_data. destruct (encode_item i) as [b|e] eqn:E; auto. cbn [with_body rs_autolength]. rewrite Ea.
  replace (length b) with (items_len [IBytes b]) by (cbn; lia). apply fair_length; auto.
Qed.
Lemma freeze_fair r : fair r -> fair (fst (freeze r)).
Proof.
  intros H. unfold freeze.
  destruct (encode_items (body_items (rs_body r)) (body_fail (rs_body r))) as [[bs [e|]] rest] eqn:E.
  - destruct (rs_body r) as [l|l f c] eqn:Eb; auto. unfold fair, lengths in *. rewrite Eb in H. exact H.
  - rewrite <- bytes_len. apply fair_length; auto.
Qed.
Lemma write_fair r i : fair r -> fair (fst (stream_write r i)).
Proof.
  intros H. apply ensure_fair in H. unfold stream_write.
  destruct (ensure_sequence r) as [r' [e|]] eqn:E; auto. cbn [fst] in *.
  apply ensure_seq in E as (l & El). unfold fair, lengths in *. rewrite El in *.
  cbn [with_headers with_body rs_body rs_headers body_items].
  left. destruct (pop_absent (rs_headers r') content_length) as (h' & -> & Eh). auto.
Qed.
Lemma date_header_fair r v : fair r -> fair (fst (set_header r (lit "Date") v)).
Proof.
  intros H. unfold set_header. destruct (h_set (rs_headers r) (lit "Date") (HStr v) []) as [h|e] eqn:E; auto.
  apply set_is_set_effect in E. apply set_get in E as [_ E]. unfold fair, lengths in *. cbn [fst with_headers rs_body rs_headers].
  rewrite E; auto. intros F. vm_compute in F. discriminate.
Qed.
Lemma conditional_fair now date md5 fuel env r r' e : fair r -> make_conditional now date md5 fuel env r = Some (r', e) -> fair r'.
Proof.
  intros G. destruct (eqs (ce_method env) (lit "GET") || eqs (ce_method env) (lit "HEAD")) eqn:E.
  2:{ intros H. rewrite conditional_other in H; [|rewrite <- method_get; congruence]. inv H. auto. }
  apply method_get in E. rewrite conditional_steps; auto.
  assert (G1 : fair (fst (cond_date now r))).
  { unfold cond_date. destruct (h_contains (rs_headers r) (lit "date")); auto. apply date_header_fair; auto. }
  destruct (cond_date now r) as [r1 [e1|]]; cbn [fst] in *; [intros H; inv H; auto|].
  assert (G2 : fair (fst (cond_length r1))).
  { unfold cond_length. destruct (rs_autolength r1 && negb (h_contains (rs_headers r1) (lit "content-length"))); auto.
    unfold calculate_content_length. pose proof (ensure_fair r1 G1) as G2.
    destruct (ensure_sequence r1) as [r2 [x|]] eqn:Es; cbn [fst] in G2.
    - destruct x; auto.
    - destruct (ensure_seq _ _ Es) as (l & El). rewrite El. cbn [body_items]. apply fair_length; auto. }
  destruct (cond_length r1) as [r2 [e2|]]; cbn [fst] in *; [intros H; inv H; auto|].
  destruct (cond_decide date md5 fuel env r2) as [[[]|e3]|]; intros H; inv H; auto.
Qed.
Lemma run_fair ops : forall r, rs_autolength r = true -> fair r -> fair (r_run r ops).
Proof.
  induction ops as [|o ops IH]; intros r Ea H; auto. cbn [r_run fold_left]. apply IH.
  - destruct (step_settings r o) as (_ & _ & -> & _). auto.
  - destruct o; cbn [r_step].
    + apply set_data_fair; auto.
    + apply write_fair; auto.
    + apply freeze_fair; auto.
    + apply make_sequence_fair; auto.
    + rewrite get_data_fst. apply ensure_fair; auto.
    + rewrite length_fst. apply ensure_fair; auto.
    + exact H.
    + exact H.
    + destruct (make_conditional now date md5 fuel env r) as [[r' e]|] eqn:E; auto. eapply conditional_fair; eauto.
Qed.
Lemma unannounced_fair r : unannounced r -> fair r.
Proof.
  intros H1. unfold fair, lengths. assert (E : h_getlist (rs_headers r) content_length = []).
  { apply (getlist_absent content_length); [exact H1|reflexivity]. }
  destruct (rs_body r); auto.
Qed.

(** Encoding makes texts longer exactly if they are not ASCII. *)
Lemma char_len c : (1 <= length (utf8_char c))%nat /\ (length (utf8_char c) = 1%nat <-> c < 128).
Proof.
  unfold utf8_char. destruct (N.ltb_spec c 128); [cbn; lia|].
  destruct (c <? 2048); [cbn; lia|]. destruct (c <? 65536); cbn; lia.
Qed.
Lemma text_len s : (length s <= length (flat_map utf8_char s))%nat /\ (length (flat_map utf8_char s) = length s <-> ascii_text s).
Proof.
  induction s as [|c s [IH1 IH2]]; [cbn; split; [lia|split; [constructor|auto]]|].
  cbn [flat_map]. rewrite app_length. destruct (char_len c) as [C1 C2]. cbn [length]. split; [lia|]. split.
  - intros H. constructor; [apply C2; lia|apply IH2; lia].
  - intros H. inv H. apply C2 in H2. apply IH2 in H3. lia.
Qed.
Lemma encode_len l : forall f cs rest, encode_items l f = (cs, None, rest) ->
  (items_len l <= length (concat cs))%nat /\ (length (concat cs) = items_len l <-> Forall plain l).
Proof.
  induction l as [|i l IH]; intros f cs rest; cbn [encode_items].
  - intros H; inv H. cbn. split; [lia|split; auto].
  - destruct (encode_item i) as [b|] eqn:E; [|discriminate]. destruct (encode_items l f) as [[bs e] rest'] eqn:El.
    intros H; inv H. destruct (IH _ _ _ El) as [IH1 IH2].
    assert (K : (item_len i <= length b)%nat /\ (length b = item_len i <-> plain i)).
    { destruct i as [s|b']; cbn in E |- *.
      - unfold utf8_encode in E. destruct (forallb scalar s); inv E. apply text_len.
      - inv E. split; [lia|tauto]. }
    destruct K as [K1 K2]. cbn [concat]. rewrite app_length. cbn [items_len fold_right]. fold (items_len l). split; [lia|]. split.
    + intros H. constructor; [apply K2; lia|apply IH2; lia].
    + intros H. inv H. apply K2 in H2. apply IH2 in H3. lia.
Qed.
Lemma raw_plain l : forall f cs, raw_items l f = (cs, None) -> Forall plain l.
Proof.
  induction l as [|[s|b] l IH]; intros f cs; cbn [raw_items]; [constructor|discriminate|].
  destruct (raw_items l f) as [r e] eqn:E. intros H; inv H. constructor; [exact I|]. eapply IH; eauto.
Qed.

Section Send.
  Variables (idna_part idna_decode_part : str -> res str) (ip_ok nfkc_ok : str -> bool).
  Lemma length_exact (r : response) (ops : list rop) environ method line h it cs vs :
    unannounced r -> rs_autolength r = true ->
    serve idna_part idna_decode_part ip_ok nfkc_ok environ (r_run r ops) = Ok (line, h, it) ->
    dget environ (lit "REQUEST_METHOD") = Some method -> method <> lit "HEAD" ->
    ~ bodyless (st_code (rs_status (r_run r ops))) ->
    chunks it = (cs, None) -> values_of (lit "Content-Length") h vs ->
    match rs_body (r_run r ops) with
    | BSeq l => exists n, counted l n /\ vs = [zdec (Z.of_nat n)] /\ (n <= length (concat cs))%nat /\
                  (n = length (concat cs) <-> Forall plain l)
    | BIter _ _ _ => vs = []
    end.
  Proof.
    intros Hf Ha Hs Hm Hh Hb Hc Hv.
    pose proof (run_fair ops r Ha (unannounced_fair r Hf)) as G.
    assert (Ha' : rs_autolength (r_run r ops) = true) by (destruct (run_settings ops r) as (_ & _ & -> & _); auto).
    set (r' := r_run r ops) in *. clearbody r'.
    unfold serve in Hs. destruct (wsgi_headers idna_part idna_decode_part ip_ok nfkc_ok environ r') as [h3|e] eqn:E; [|discriminate]. cbn [bind] in Hs.
    rewrite Hm in Hs. inv Hs.
    apply sent_stages in E as (h1 & h2 & L1 & L2 & L3).
    assert (E2 : h_getlist h2 content_length = lengths r').
    { rewrite (content_located_other _ _ _ _ _ _ _ L2); [|vm_compute; discriminate].
      rewrite (located_other _ _ _ _ _ _ _ _ L1); [auto|vm_compute; discriminate]. }
    apply getlist_char in Hv. subst vs. unfold fair in G.
    destruct L3 as [[F _]|[[F _]|[_ L3]]]; [exfalso; apply Hb; unfold bodyless; tauto..|].
    destruct (rs_body r') as [l|l f c] eqn:Eb.
    - exists (items_len l). split; [apply counted_len; auto|]. split.
      + destruct L3 as [[-> L3]|(l' & El & _ & _ & L3)].
        * change (lit "Content-Length") with content_length. rewrite E2. destruct G as [G|G]; auto. cbn [is_seq] in L3. intuition congruence.
        * inv El. apply (set_get _ _ _ _ L3). reflexivity.
      + rewrite iter_full in Hc by auto. rewrite Eb in Hc. destruct (rs_passthrough r'); cbn [chunks body_items body_fail] in Hc.
        * pose proof (raw_plain _ _ _ Hc) as P. apply raw_bytes in Hc as [Hc _]. split; [lia|]. split; auto.
        * destruct (encode_items l None) as [[bs e'] rest] eqn:Ee. inv Hc. destruct (encode_len _ _ _ _ Ee) as [A B].
          split; auto. rewrite <- B. split; auto.
    - destruct L3 as [[-> _]|(l' & El & _)]; [|discriminate].
      change (lit "Content-Length") with content_length. rewrite E2. auto.
  Qed.
End Send.
