(** More about claim C47: the status line and the status code agree exactly unless the line
    is blank. *)
From Coq Require Import Arith List NArith ZArith Bool Lia.
From Verif Require Import PyStr PyStrFacts ModelHeaders SpecEtag ModelResponse SpecResponse ProofResponse.
Import ListNotations.
Open Scope N_scope.

(** Whatever is called, line and code agree exactly as long as the line is not blank; a blank
    line is there only if one was assigned, by a call that raised IndexError. *)
Theorem C47_exact : forall (ops : list rop) (r : response),
  numbered (st_line (rs_status r)) (st_code (rs_status r)) ->
  let st := rs_status (r_run r ops) in
  (numbered (st_line st) (st_code st) <-> ~ blank (st_line st)) /\
  (blank (st_line st) -> exists old, In (RStatus (st_line st)) ops /\ snd (set_status old (st_line st)) = Some IndexError).
Proof.
  intros ops r Hr st.
  assert (NB : forall l z, numbered l z -> ~ blank l).
  { intros l z (a & w & b & -> & A & W & B & P) X. destruct w as [|c w]; [discriminate P|].
    inversion W as [|? ? Wc _]; subst. unfold blank in X. rewrite Forall_forall in X.
    specialize (X c). rewrite X in Wc; [discriminate|]. apply in_app_iff. right. left. auto. }
  assert (G : forall ops r, (numbered (st_line (rs_status r)) (st_code (rs_status r)) \/ blank (st_line (rs_status r))) ->
    let st := rs_status (r_run r ops) in
    (numbered (st_line st) (st_code st) \/ blank (st_line st)) /\
    (blank (st_line st) -> st_line st = st_line (rs_status r) \/ In (RStatus (st_line st)) ops)).
  { clear. induction ops as [|o ops IH]; intros r H; [cbn; auto|]. cbn [r_run fold_left]. cbv zeta.
    change (fold_left r_step ops (r_step r o)) with (r_run (r_step r o) ops).
    assert (K : (numbered (st_line (rs_status (r_step r o))) (st_code (rs_status (r_step r o))) \/ blank (st_line (rs_status (r_step r o)))) /\
                (blank (st_line (rs_status (r_step r o))) -> st_line (rs_status (r_step r o)) = st_line (rs_status r) \/ o = RStatus (st_line (rs_status (r_step r o))))).
    { assert (S : rs_status (r_step r o) = rs_status r \/ (exists z, rs_status (r_step r o) = set_status_code z) \/
                  (exists s, o = RStatus s /\ rs_status (r_step r o) = fst (set_status (rs_status r) s))).
      { destruct o; cbn [r_step].
        - destruct (set_data_facts r i) as (_ & ->). auto.
        - destruct (write_facts r i) as (_ & ->). auto.
        - destruct (freeze_facts r) as (_ & ->). auto.
        - destruct (make_sequence_facts r) as (_ & -> & _). auto.
        - rewrite get_data_fst. destruct (ensure_facts r) as (_ & -> & _). auto.
        - rewrite length_fst. destruct (ensure_facts r) as (_ & -> & _). auto.
        - right. left. eexists. reflexivity.
        - right. right. exists s. auto.
        - destruct (make_conditional now date md5 fuel env r) as [[r' e]|] eqn:E; auto.
          destruct (conditional_facts _ _ _ _ _ _ _ _ E) as (_ & [->|[-> _]]); eauto. }
      destruct S as [->|[[z ->]|(s & -> & ->)]].
      - auto.
      - split; [left; apply set_code_numbered|]. intros B. exfalso. unfold set_status_code in B. cbn [st_line] in B.
        pose proof (set_code_numbered z) as (a & w & b & E & A & W & B' & P). unfold set_status_code in E. cbn [st_line] in E.
        rewrite E in B. destruct w as [|c w]; [discriminate P|]. inversion W as [|? ? Wc _]; subst.
        unfold blank in B. rewrite Forall_forall in B. rewrite B in Wc; [discriminate|]. apply in_app_iff. right. left. auto.
      - destruct (set_status (rs_status r) s) as [st e] eqn:E. cbn [fst]. destruct e as [e|].
        + unfold set_status in E. destruct (first_word s) as [w|] eqn:F; [destruct (py_int w); discriminate E|].
          injection E as <- <-. cbn [st_line st_code]. apply first_word_none in F. auto.
        + pose proof (set_status_numbered _ _ _ E) as N. split; auto. intros B. exfalso.
          destruct N as (a & w & b & X & A & W & B' & P). rewrite X in B. destruct w as [|c w]; [discriminate P|].
          inversion W as [|? ? Wc _]; subst. unfold blank in B. rewrite Forall_forall in B. rewrite B in Wc; [discriminate|].
          apply in_app_iff. right. left. auto. }
    destruct K as [K1 K2]. destruct (IH (r_step r o) K1) as [I1 I2]. split; auto.
    intros B. destruct (I2 B) as [E|I]; [|right; right; auto]. rewrite E in B |- *.
    destruct (K2 B) as [->|K]; auto. right. left. rewrite K at 1. reflexivity. }
  destruct (G ops r (or_introl Hr)) as [G1 G2]. fold st in G1, G2. split.
  - split; [apply NB|]. tauto.
  - intros B. exists (rs_status r). destruct (G2 B) as [E|I].
    + exfalso. rewrite E in B. exact (NB _ _ Hr B).
    + split; auto. unfold set_status. apply first_word_none in B. rewrite B. reflexivity.
Qed.
Print Assumptions C47_exact.
Example C47_exact_example :
  let r := Response [] (set_status_code 200) (BSeq []) false [] true true true in
  numbered (st_line (rs_status r)) (st_code (rs_status r)) /\
  rs_status (r_run r [RStatus (lit "404 x"); RStatus (lit " ")]) = Status (lit " ") 404 /\
  rs_status (r_run r [RStatus (lit " "); RStatus (lit "404 x")]) = Status (lit "404 x") 404.
Proof. split; [apply set_code_numbered|]. vm_compute. auto. Qed.
