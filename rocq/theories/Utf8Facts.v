(** Facts about the UTF-8 codec. *)
From Coq Require Import Arith List NArith ZArith Bool Lia ZifyBool ZifyN ZifyNat.
From Verif Require Import PyStr PyStrFacts Utf8.
Import ListNotations.
Open Scope N_scope.

Ltac nsolve := Z.to_euclidean_division_equations; lia.

Lemma utf8_next_char c s : scalar c = true ->
  exists b bs, utf8_char c = b :: bs /\ utf8_next b (bs ++ s) = Good c (S (length bs)).
Proof.
  unfold scalar, between. intros H. unfold utf8_char.
  destruct (c <? 128) eqn:E1.
  { exists c, []. split; auto. unfold utf8_next. rewrite E1. auto. }
  destruct (c <? 2048) eqn:E2.
  { eexists _, _. split; [reflexivity|]. unfold utf8_next. cbn [app].
    replace (192 + c / 64 <? 128) with false by nsolve.
    replace (192 + c / 64 <? 194) with false by nsolve.
    replace (192 + c / 64 <? 224) with true by nsolve.
    unfold cont, between. replace ((128 <=? 128 + c mod 64) && (128 + c mod 64 <=? 191)) with true by nsolve.
    f_equal. nsolve. }
  destruct (c <? 65536) eqn:E3.
  { eexists _, _. split; [reflexivity|]. unfold utf8_next. cbn [app].
    replace (224 + c / 4096 <? 128) with false by nsolve.
    replace (224 + c / 4096 <? 194) with false by nsolve.
    replace (224 + c / 4096 <? 224) with false by nsolve.
    replace (224 + c / 4096 <? 240) with true by nsolve.
    assert (S2 : second_ok (224 + c / 4096) (128 + c / 64 mod 64) = true).
    { unfold second_ok, cont, between.
      replace (224 + c / 4096 =? 240) with false by nsolve.
      replace (224 + c / 4096 =? 244) with false by nsolve.
      destruct (224 + c / 4096 =? 224) eqn:Ea; [nsolve|].
      destruct (224 + c / 4096 =? 237) eqn:Eb; nsolve. }
    rewrite S2. unfold cont, between.
    replace ((128 <=? 128 + c mod 64) && (128 + c mod 64 <=? 191)) with true by nsolve.
    f_equal. nsolve. }
  eexists _, _. split; [reflexivity|]. unfold utf8_next. cbn [app].
  replace (240 + c / 262144 <? 128) with false by nsolve.
  replace (240 + c / 262144 <? 194) with false by nsolve.
  replace (240 + c / 262144 <? 224) with false by nsolve.
  replace (240 + c / 262144 <? 240) with false by nsolve.
  replace (240 + c / 262144 <? 245) with true by nsolve.
  assert (S2 : second_ok (240 + c / 262144) (128 + c / 4096 mod 64) = true).
  { unfold second_ok, cont, between.
    replace (240 + c / 262144 =? 224) with false by nsolve.
    replace (240 + c / 262144 =? 237) with false by nsolve.
    destruct (240 + c / 262144 =? 240) eqn:Ea; [nsolve|].
    destruct (240 + c / 262144 =? 244) eqn:Eb; nsolve. }
  rewrite S2. unfold cont, between.
  replace ((128 <=? 128 + c / 64 mod 64) && (128 + c / 64 mod 64 <=? 191)) with true by nsolve.
  replace ((128 <=? 128 + c mod 64) && (128 + c mod 64 <=? 191)) with true by nsolve.
  f_equal. nsolve.
Qed.

Lemma utf8_dec_skip err a s : utf8_dec err (length a) (a ++ s) = utf8_dec err 0 s.
Proof. induction a as [|c a IH]; cbn [length app utf8_dec]; auto. Qed.

Lemma utf8_dec_char err c s : scalar c = true ->
  utf8_dec err 0 (utf8_char c ++ s) = (do r <- utf8_dec err 0 s; Ok (c :: r)).
Proof.
  intros H. destruct (utf8_next_char c s H) as (b & bs & E & N). rewrite E. cbn [app utf8_dec]. rewrite N.
  replace (S (length bs) - 1)%nat with (length bs) by lia. rewrite utf8_dec_skip. auto.
Qed.

Lemma utf8_dec_chars err l s : forallb scalar l = true ->
  utf8_dec err 0 (flat_map utf8_char l ++ s) = (do r <- utf8_dec err 0 s; Ok (l ++ r)).
Proof.
  induction l as [|c l IH]; intros H; cbn [flat_map app].
  - destruct (utf8_dec err 0 s); auto.
  - cbn [forallb] in H. apply andb_true_iff in H as [Hc Hl]. rewrite <- app_assoc, utf8_dec_char, IH by auto.
    destruct (utf8_dec err 0 s); auto.
Qed.

(** Decoding inverts encoding, whatever the error handler. *)
Lemma utf8_roundtrip err s b : utf8_encode s = Ok b -> utf8_decode err b = Ok s.
Proof.
  unfold utf8_encode. destruct (forallb scalar s) eqn:E; [|discriminate]. intros H; inv H.
  unfold utf8_decode. rewrite <- (app_nil_r (flat_map utf8_char s)), utf8_dec_chars by auto.
  cbn [utf8_dec bind]. rewrite app_nil_r. auto.
Qed.

(** A good step consumed exactly the bytes of its code point. *)
Lemma utf8_next_good b s c n : utf8_next b s = Good c n -> is_bytes (b :: s) = true ->
  scalar c = true /\ exists bs r, s = bs ++ r /\ utf8_char c = b :: bs /\ n = S (length bs).
Proof.
  unfold utf8_next, is_bytes. intros H Hb. cbn [forallb] in Hb. apply andb_true_iff in Hb as [Hb Hs].
  destruct (b <? 128) eqn:E1.
  { inv H. split; [unfold scalar, between; lia|]. exists [], s. unfold utf8_char. rewrite E1. auto. }
  destruct (b <? 194) eqn:E2; [discriminate|].
  destruct (b <? 224) eqn:E3.
  { destruct s as [|b2 s]; [discriminate|]. destruct (cont b2) eqn:Ec; inv H.
    unfold cont, between in Ec. split; [unfold scalar, between; lia|]. exists [b2], s. split; auto. split; auto.
    unfold utf8_char.
    replace ((b - 192) * 64 + (b2 - 128) <? 128) with false by lia.
    replace ((b - 192) * 64 + (b2 - 128) <? 2048) with true by lia.
    f_equal; [nsolve|]. f_equal. nsolve. }
  destruct (b <? 240) eqn:E4.
  { destruct s as [|b2 [|b3 s]]; try discriminate; destruct (second_ok b b2) eqn:S2; try discriminate.
    destruct (cont b3) eqn:Ec; inv H. unfold cont, between in Ec.
    assert (R : 128 <= b2 <= 191 /\ (b = 224 -> 160 <= b2) /\ (b = 237 -> b2 <= 159)).
    { unfold second_ok, cont, between in S2. destruct (b =? 224) eqn:A; [lia|]. destruct (b =? 237) eqn:B; [lia|].
      destruct (b =? 240) eqn:C; [lia|]. destruct (b =? 244) eqn:D; lia. }
    split; [unfold scalar, between; nsolve|].
    exists [b2; b3], s. split; auto. split; auto. unfold utf8_char.
    set (v := (b - 224) * 4096 + (b2 - 128) * 64 + (b3 - 128)).
    replace (v <? 128) with false by (unfold v; lia).
    replace (v <? 2048) with false by (unfold v; lia).
    replace (v <? 65536) with true by (unfold v; lia).
    unfold v. f_equal; [nsolve|]. f_equal; [nsolve|]. f_equal. nsolve. }
  destruct (b <? 245) eqn:E5; [|discriminate].
  destruct s as [|b2 [|b3 [|b4 s]]]; try discriminate; destruct (second_ok b b2) eqn:S2; try discriminate;
    destruct (cont b3) eqn:Ec3; try discriminate.
  destruct (cont b4) eqn:Ec4; inv H. unfold cont, between in Ec3, Ec4.
  assert (R : 128 <= b2 <= 191 /\ (b = 240 -> 144 <= b2) /\ (b = 244 -> b2 <= 143)).
  { unfold second_ok, cont, between in S2. destruct (b =? 224) eqn:A; [lia|]. destruct (b =? 237) eqn:B; [lia|].
    destruct (b =? 240) eqn:C; [lia|]. destruct (b =? 244) eqn:D; lia. }
  split; [unfold scalar, between; nsolve|].
  exists [b2; b3; b4], s. split; auto. split; auto. unfold utf8_char.
  set (v := (b - 240) * 262144 + (b2 - 128) * 4096 + (b3 - 128) * 64 + (b4 - 128)).
  replace (v <? 128) with false by (unfold v; lia).
  replace (v <? 2048) with false by (unfold v; lia).
  replace (v <? 65536) with false by (unfold v; lia).
  unfold v. f_equal; [nsolve|]. f_equal; [nsolve|]. f_equal; [nsolve|]. f_equal. nsolve.
Qed.

Lemma utf8_dec_strict_inv n : forall s r, (length s <= n)%nat -> is_bytes s = true ->
  utf8_dec Strict 0 s = Ok r -> utf8_encode r = Ok s.
Proof.
  unfold utf8_encode. induction n as [|n IH]; intros s r Hl Hb H.
  - destruct s; [|cbn [length] in Hl; lia]. inv H. auto.
  - destruct s as [|b s]; [inv H; auto|]. cbn [utf8_dec] in H.
    destruct (utf8_next b s) as [c k|k] eqn:E; [|discriminate].
    apply utf8_next_good in E as (Hc & bs & t & -> & Ec & ->); auto.
    replace (S (length bs) - 1)%nat with (length bs) in H by lia. rewrite utf8_dec_skip in H.
    destruct (utf8_dec Strict 0 t) as [r'|] eqn:Er; cbn [bind] in H; inv H.
    apply IH in Er.
    + cbn [forallb flat_map]. rewrite Hc. cbn [andb].
      destruct (forallb scalar r'); [|discriminate]. inv Er. rewrite Ec. reflexivity.
    + cbn [length] in Hl. rewrite app_length in Hl. lia.
    + unfold is_bytes in *. cbn [forallb] in Hb. rewrite forallb_app in Hb. rewrite !andb_true_iff in Hb. tauto.
Qed.

(** Encoding inverts strict decoding. *)
Lemma utf8_strict_inv b s : is_bytes b = true -> utf8_decode Strict b = Ok s -> utf8_encode s = Ok b.
Proof. intros Hb H. eapply utf8_dec_strict_inv; eauto. Qed.

Lemma utf8_char_bytes c : scalar c = true -> forallb (fun b => b <? 256) (utf8_char c) = true.
Proof.
  unfold scalar, between, utf8_char. intros H.
  destruct (c <? 128) eqn:E1; [cbn [forallb]; lia|].
  destruct (c <? 2048) eqn:E2; [cbn [forallb]; nsolve|].
  destruct (c <? 65536) eqn:E3; cbn [forallb]; nsolve.
Qed.
Lemma utf8_encode_bytes s b : utf8_encode s = Ok b -> is_bytes b = true.
Proof.
  unfold utf8_encode, is_bytes. destruct (forallb scalar s) eqn:E; [|discriminate]. intros H; inv H.
  induction s as [|c s IH]; auto. cbn [forallb flat_map] in *. apply andb_true_iff in E as [Hc Hs].
  rewrite forallb_app, utf8_char_bytes, IH; auto.
Qed.
Lemma utf8_encode_inj s t b : utf8_encode s = Ok b -> utf8_encode t = Ok b -> s = t.
Proof.
  intros H1 H2. apply (utf8_roundtrip Strict) in H1. apply (utf8_roundtrip Strict) in H2. congruence.
Qed.
Lemma utf8_ascii s : forallb (fun c => c <? 128) s = true -> utf8_encode s = Ok s.
Proof.
  intros H. unfold utf8_encode.
  assert (E : forallb scalar s = true /\ flat_map utf8_char s = s).
  { induction s as [|c s IH]; auto. cbn [forallb flat_map] in *. apply andb_true_iff in H as [Hc Hs].
    destruct (IH Hs) as [I1 I2]. rewrite I1, I2. unfold utf8_char. rewrite Hc. split; auto. unfold scalar, between. lia. }
  destruct E as [-> ->]. auto.
Qed.
(** Bytes above 127 only come from characters above 127. *)
Lemma utf8_char_high c b : scalar c = true -> In b (utf8_char c) -> b < 128 -> b = c /\ utf8_char c = [c].
Proof.
  unfold scalar, between, utf8_char. intros H Hi Hb.
  destruct (c <? 128) eqn:E1; [destruct Hi as [<-|[]]; auto|].
  destruct (c <? 2048) eqn:E2.
  { destruct Hi as [<-|[<-|[]]]; exfalso; revert Hb; nsolve. }
  destruct (c <? 65536) eqn:E3.
  { destruct Hi as [<-|[<-|[<-|[]]]]; exfalso; revert Hb; nsolve. }
  destruct Hi as [<-|[<-|[<-|[<-|[]]]]]; exfalso; revert Hb; nsolve.
Qed.
Lemma utf8_in_ascii s bs c : utf8_encode s = Ok bs -> c < 128 -> (In c bs <-> In c s).
Proof.
  unfold utf8_encode. destruct (forallb scalar s) eqn:E; [|discriminate]. intros H Hc; inv H.
  rewrite in_flat_map. rewrite forallb_forall in E. split.
  - intros (x & Hx & Hi). apply utf8_char_high in Hi as [-> _]; auto.
  - intros Hi. exists c. split; auto. unfold utf8_char. replace (c <? 128) with true by lia. left; auto.
Qed.
