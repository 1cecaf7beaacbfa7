(** * Lemmas about repr() of responses *)
From Coq Require Import Arith List NArith ZArith Bool Lia ZifyBool ZifyN ZifyNat.
From Verif Require Import PyStr PyStrFacts Utf8 Utf8Facts ModelHeaders SpecHeaders ModelEtag ModelResponse SpecResponse ProofResponse ModelRepr.
Import ListNotations.
Open Scope N_scope.

Lemma raw_encoded l : forall cs, raw_items l None = (cs, None) -> encode_items l None = (cs, None, []).
Proof.
  induction l as [|[s|b] l IH]; intros cs H; cbn in H |- *; [injection H as <-; reflexivity|discriminate|].
  destruct (raw_items l None) as [r e]. injection H as <- ->. rewrite (IH r eq_refl). reflexivity.
Qed.
Lemma encode_ok l : (exists cs, encode_items l None = (cs, None, [])) <-> (forall s, In (IText s) l -> forallb scalar s = true).
Proof.
  induction l as [|i l [IH1 IH2]]; cbn [encode_items].
  - split; [intros _ s []|eauto].
  - split.
    + intros (cs & H) s Hs. destruct (encode_item i) as [b|] eqn:E; [|discriminate]. destruct (encode_items l None) as [[bs e] rest] eqn:F.
      injection H as H1 H2 H3. subst e rest. destruct Hs as [->|Hs]; [|apply IH1; eauto].
      cbn in E. unfold utf8_encode in E. destruct (forallb scalar s); [reflexivity|discriminate].
    + intros H. destruct IH2 as (cs & ->); [intros; apply H; right; assumption|].
      destruct i as [s|b]; cbn [encode_item]; [|eauto]. unfold utf8_encode. rewrite (H s (or_introl eq_refl)). eauto.
Qed.
Lemma encode_none l : forall bs rest, encode_items l None = (bs, None, rest) -> rest = [].
Proof.
  induction l as [|i l IH]; intros bs rest; cbn [encode_items]; [intros H; injection H as <- <-; reflexivity|].
  destruct (encode_item i); [|discriminate]. destruct (encode_items l None) as [[bs' e] rest'] eqn:E. intros H. injection H as <- -> ->. eapply IH. reflexivity.
Qed.
Section Send.
  Variables (idna_part idna_decode_part : str -> res str) (ip_ok nfkc_ok : str -> bool).
  Lemma repr_counts cls r environ method line h it cs l :
    serve idna_part idna_decode_part ip_ok nfkc_ok environ r = Ok (line, h, it) ->
    dget environ (lit "REQUEST_METHOD") = Some method -> method <> lit "HEAD" ->
    ~ bodyless (st_code (rs_status r)) -> rs_body r = BSeq l -> chunks it = (cs, None) ->
    r_repr cls r = (r, Ok (lit "<" ++ cls ++ lit " " ++ zdec (Z.of_nat (length (concat cs))) ++ lit " bytes [" ++ line ++ lit "]>")).
  Proof.
    intros Hs Hm Hh Hb Hr Hc. unfold serve in Hs.
    destruct (wsgi_headers idna_part idna_decode_part ip_ok nfkc_ok environ r) as [h3|e]; [|discriminate]. cbn [bind] in Hs.
    rewrite Hm in Hs. injection Hs as <- <- <-. unfold get_app_iter in Hc.
    destruct (eqs method (lit "HEAD")) eqn:E; [apply eqs_eq in E; contradiction|].
    destruct (bodyless_status (st_code (rs_status r))) eqn:Bs.
    { exfalso. apply Hb. unfold bodyless_status in Bs. unfold bodyless, informational. lia. }
    cbn [orb] in Hc. rewrite Hr in Hc.
    assert (Q : encode_items l None = (cs, None, [])).
    { destruct (rs_passthrough r); cbn [chunks body_items body_fail] in Hc; [apply raw_encoded; exact Hc|].
      destruct (encode_items l None) as [[bs e] rest] eqn:F. injection Hc as -> ->. rewrite (encode_none l _ _ F). reflexivity. }
    unfold r_repr. rewrite Hr, Q. cbn [bind]. rewrite <- !app_assoc. reflexivity.
  Qed.
End Send.
