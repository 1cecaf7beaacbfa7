(** Proofs about authentication headers. *)
From Coq Require Import Arith List NArith ZArith Bool Lia ZifyBool ZifyN ZifyNat.
From Verif Require Import PyStr PyStrFacts Utf8 Utf8Facts ModelQuote SpecQuote ProofQuote ModelUrls SpecUrls ProofUrls ProofIri
  ModelCookie SpecCookie ProofCookie ModelAuth SpecAuth.
Import ListNotations.
Open Scope N_scope.

(** ** Base64 *)
Lemma all64 (P : N -> bool) : forallb P (map N.of_nat (seq 0 64)) = true -> forall v, v < 64 -> P v = true.
Proof.
  intros H v Hv. rewrite forallb_forall in H. apply H. apply in_map_iff. exists (N.to_nat v).
  split; [lia|]. apply in_seq. lia.
Qed.
Lemma b64val_char v : v < 64 -> b64val (b64_char v) = Some v.
Proof.
  intros H.
  assert (E : match b64val (b64_char v) with Some w => w =? v | None => false end = true).
  { apply (all64 (fun v => match b64val (b64_char v) with Some w => w =? v | None => false end)); [vm_compute; reflexivity|auto]. }
  destruct (b64val (b64_char v)) as [w|]; [|discriminate]. apply N.eqb_eq in E. subst. auto.
Qed.
Lemma b64_char_range v : v < 64 -> b64_char v <> 61 /\ 43 <= b64_char v < 123.
Proof.
  intros H.
  assert (E : negb (b64_char v =? 61) && (43 <=? b64_char v) && (b64_char v <? 123) = true).
  { apply (all64 (fun v => negb (b64_char v =? 61) && (43 <=? b64_char v) && (b64_char v <? 123))); [vm_compute; reflexivity|auto]. }
  lia.
Qed.
Lemma b64val_spec c v : b64val c = Some v -> v < 64 /\ c = b64_char v.
Proof.
  intros H. assert (R : v < 64 /\ c < 128).
  { unfold b64val, between in H.
    destruct ((65 <=? c) && (c <=? 90)) eqn:E1; [inv H; lia|].
    destruct ((97 <=? c) && (c <=? 122)) eqn:E2; [inv H; lia|].
    destruct ((48 <=? c) && (c <=? 57)) eqn:E3; [inv H; lia|].
    destruct (c =? 43) eqn:E4; [inv H; lia|]. destruct (c =? 47) eqn:E5; [inv H; lia|]. discriminate. }
  destruct R as [R1 R2]. split; auto.
  assert (E : match b64val c with Some w => c =? b64_char w | None => true end = true).
  { assert (G : forallb (fun c => match b64val c with Some w => c =? b64_char w | None => true end) (map N.of_nat (seq 0 128)) = true)
      by (vm_compute; reflexivity).
    rewrite forallb_forall in G. apply G. apply in_map_iff. exists (N.to_nat c). split; [lia|]. apply in_seq. lia. }
  rewrite H in E. apply N.eqb_eq in E. auto.
Qed.
Lemma b64val_none c : b64val c = None -> ~ in_alphabet c.
Proof.
  intros H Hi. unfold in_alphabet in Hi.
  assert (G : forallb (fun c => match b64val c with Some _ => true | None => false end) b64_alphabet = true) by (vm_compute; reflexivity).
  rewrite forallb_forall in G. apply G in Hi. rewrite H in Hi. discriminate.
Qed.

Lemma a2b_char q left pads v s : v < 64 ->
  a2b q left pads (b64_char v :: s) =
    if q =? 0 then a2b 1 v 0 s
    else if q =? 1 then option_map (cons (left * 4 + v / 16)) (a2b 2 (v mod 16) 0 s)
    else if q =? 2 then option_map (cons (left * 16 + v / 4)) (a2b 3 (v mod 4) 0 s)
    else option_map (cons (left * 64 + v)) (a2b 0 0 0 s).
Proof.
  intros H. cbn [a2b]. destruct (b64_char_range v H) as [H1 _].
  replace (b64_char v =? 61) with false by lia. rewrite b64val_char by auto. auto.
Qed.

Lemma base64_decode_len n : forall s, (length s <= n)%nat -> bytes_text s -> b64decode (base64 s) = Some s.
Proof.
  unfold b64decode. induction n as [|n IH]; intros s Hn Hb.
  - destruct s; [auto|cbn [length] in Hn; lia].
  - destruct s as [|a [|b [|c r]]].
    + auto.
    + assert (a < 256) by (apply Hb; left; auto). cbn [base64].
      rewrite !a2b_char by nsolve. cbn [N.eqb Pos.eqb a2b]. cbn. f_equal. f_equal. nsolve.
    + assert (a < 256) by (apply Hb; left; auto). assert (b < 256) by (apply Hb; right; left; auto). cbn [base64].
      rewrite !a2b_char by nsolve. cbn. f_equal. f_equal; [|f_equal]; nsolve.
    + assert (a < 256) by (apply Hb; left; auto). assert (b < 256) by (apply Hb; right; left; auto).
      assert (c < 256) by (apply Hb; right; right; left; auto).
      change (base64 (a :: b :: c :: r)) with
        (b64_char (a / 4) :: b64_char (a mod 4 * 16 + b / 16) :: b64_char (b mod 16 * 4 + c / 64)
         :: b64_char (c mod 64) :: base64 r).
      rewrite !a2b_char by nsolve. change (1 =? 0) with false. change (2 =? 0) with false. change (3 =? 0) with false.
      change (0 =? 0) with true. change (1 =? 1) with true. change (2 =? 1) with false. change (3 =? 1) with false.
      change (2 =? 2) with true. change (3 =? 2) with false. cbv iota.
      rewrite IH; [|cbn [length] in Hn; lia|intros x Hx; apply Hb; right; right; right; auto].
      cbn [option_map]. f_equal. f_equal; [|f_equal; [|f_equal]]; nsolve.
Qed.
Lemma base64_decode s : bytes_text s -> b64decode (base64 s) = Some s.
Proof. apply (base64_decode_len (length s)). auto. Qed.

Lemma base64_nonblank s : bytes_text s -> forall c r, base64 s = c :: r -> is_bspace c = false.
Proof.
  intros Hb c r E.
  assert (exists v, v < 64 /\ c = b64_char v) as (v & Hv & ->).
  { destruct s as [|a [|b [|d s]]]; cbn [base64] in E; [discriminate| | |]; injection E as E1 E2;
      assert (a < 256) by (apply Hb; left; auto); exists (a / 4); (split; [nsolve|auto]). }
  apply b64_char_range in Hv. unfold is_bspace, between. lia.
Qed.
Lemma base64_nil s : base64 s = [] -> s = [].
Proof. destruct s as [|a [|b [|d s]]]; cbn [base64]; auto; discriminate. Qed.

(** Number of characters of the alphabet, modulo four. *)
Lemma a2b_bad_length s : (forall c, In c s -> in_alphabet c) -> forall q left pads, q < 4 ->
  (q + N.of_nat (length s)) mod 4 <> 0 -> a2b q left pads s = None.
Proof.
  induction s as [|c s IH]; intros Hs q left pads Hq Hl; cbn [a2b].
  - cbn [length] in Hl. destruct (q =? 0) eqn:E; auto. exfalso. apply Hl. assert (q = 0) by lia. subst. auto.
  - assert (Hc : in_alphabet c) by (apply Hs; left; auto).
    destruct (b64val c) as [v|] eqn:Ev; [|apply b64val_none in Ev; contradiction].
    destruct (b64val_spec c v Ev) as [Hv ->]. destruct (b64_char_range v Hv) as [H1 _].
    replace (b64_char v =? 61) with false by lia.
    assert (Hs' : forall c, In c s -> in_alphabet c) by (intros; apply Hs; right; auto).
    cbn [length] in Hl.
    destruct (q =? 0) eqn:E0; [apply IH; auto; [lia|nsolve]|].
    destruct (q =? 1) eqn:E1; [rewrite IH; auto; [lia|nsolve]|].
    destruct (q =? 2) eqn:E2; [rewrite IH; auto; [lia|nsolve]|].
    rewrite IH; auto; [lia|]. assert (q = 3) by lia. subst. nsolve.
Qed.

(** What the lenient decoder returns. *)
Lemma sextets_nil_pre l : sextets [] l -> l = [].
Proof. intros H; inversion H; auto. Qed.
Lemma a2b_sound s : forall q left pads out, a2b q left pads s = Some out -> q < 4 ->
  exists t rest l, s = t ++ rest /\ sextets t l /\
    match q with
    | 0 => out = sextet_bytes l
    | 1 => forall p, p = left -> p < 64 -> out = sextet_bytes (p :: l)
    | 2 => forall p x, x < 64 -> p mod 16 = left -> p < 64 -> (x * 4 + p / 16) :: out = sextet_bytes (x :: p :: l)
    | _ => forall p x y, x < 64 -> y < 64 -> p mod 4 = left -> p < 64 ->
        (x * 4 + y / 16) :: (y mod 16 * 16 + p / 4) :: out = sextet_bytes (x :: y :: p :: l)
    end.
Proof.
  induction s as [|c s IH]; intros q left pads out H Hq; cbn [a2b] in H.
  - destruct (q =? 0) eqn:E; inv H. assert (q = 0) by lia. subst. exists [], [], []. repeat split. constructor.
  - destruct (c =? 61) eqn:Ec.
    + assert (c = 61) by lia. subst c.
      assert (Na : ~ in_alphabet 61).
      { apply b64val_none. vm_compute. auto. }
      destruct (2 <=? q) eqn:E2.
      * destruct (4 <=? q + (pads + 1)) eqn:E4.
        -- inv H. exists [], (61 :: s), []. split; auto. split; [constructor|].
           assert (q = 2 \/ q = 3) as [->| ->] by lia; auto.
        -- destruct (IH _ _ _ _ H Hq) as (t & rest & l & -> & Ht & Hr). exists (61 :: t), rest, l.
           split; auto. split; [apply sx_skip; auto|auto].
      * destruct (IH _ _ _ _ H Hq) as (t & rest & l & -> & Ht & Hr). exists (61 :: t), rest, l.
        split; auto. split; [apply sx_skip; auto|auto].
    + destruct (b64val c) as [v|] eqn:Ev.
      * destruct (b64val_spec c v Ev) as [Hv ->].
        destruct (q =? 0) eqn:E0.
        { assert (q = 0) by lia. subst. destruct (IH _ _ _ _ H) as (t & rest & l & -> & Ht & Hr); [lia|].
          exists (b64_char v :: t), rest, (v :: l). split; auto. split; [apply sx_char; auto|]. apply (Hr v); auto. }
        destruct (q =? 1) eqn:E1.
        { assert (q = 1) by lia. subst. destruct (a2b 2 _ _ s) as [o|] eqn:Eo; inv H.
          destruct (IH _ _ _ _ Eo) as (t & rest & l & -> & Ht & Hr); [lia|].
          exists (b64_char v :: t), rest, (v :: l). split; auto. split; [apply sx_char; auto|].
          intros p -> Hp. apply (Hr v left); auto. }
        destruct (q =? 2) eqn:E2.
        { assert (q = 2) by lia. subst. destruct (a2b 3 _ _ s) as [o|] eqn:Eo; inv H.
          destruct (IH _ _ _ _ Eo) as (t & rest & l & -> & Ht & Hr); [lia|].
          exists (b64_char v :: t), rest, (v :: l). split; auto. split; [apply sx_char; auto|].
          intros p x Hx Hp Hp2. subst left. apply (Hr v x p); auto. }
        assert (q = 3) by lia. subst. destruct (a2b 0 _ _ s) as [o|] eqn:Eo; inv H.
        destruct (IH _ _ _ _ Eo) as (t & rest & l & -> & Ht & Hr); [lia|].
        exists (b64_char v :: t), rest, (v :: l). split; auto. split; [apply sx_char; auto|].
        intros p x y Hx Hy Hp Hp2. subst left. cbn [sextet_bytes]. rewrite Hr. auto.
      * destruct (IH _ _ _ _ H Hq) as (t & rest & l & -> & Ht & Hr). exists (c :: t), rest, l.
        split; auto. split; [apply sx_skip; auto; apply b64val_none; auto|auto].
Qed.
Lemma b64decode_sound s out : b64decode s = Some out ->
  exists t rest l, s = t ++ rest /\ sextets t l /\ out = sextet_bytes l.
Proof. intros H. apply a2b_sound in H; [|lia]. exact H. Qed.

(** ** Splitting off the scheme *)
Definition nonblank (sp : N -> bool) (s : str) : Prop := s <> [] /\ forall c, In c s -> sp c = false.
Lemma split_ws1_app sp ws0 a ws r : (forall c, In c ws0 -> sp c = true) -> nonblank sp a ->
  ws <> [] -> (forall c, In c ws -> sp c = true) ->
  r <> [] -> (forall c t, r = c :: t -> sp c = false) ->
  split_ws1 sp (ws0 ++ a ++ ws ++ r) = Some (a, r).
Proof.
  intros H0 [Ha1 Ha2] Hw1 Hw2 Hr1 Hr2. unfold split_ws1.
  rewrite lstrip_by_app by (apply forallb_forall; auto).
  rewrite lstrip_by_id by (intros c t E; destruct a as [|d a]; [congruence|]; inv E; apply Ha2; left; auto).
  rewrite cut_app.
  - rewrite lstrip_by_app by (apply forallb_forall; auto). rewrite lstrip_by_id by auto.
    destruct r; [congruence|]. auto.
  - apply forallb_forall. intros c Hc. rewrite Ha2; auto.
  - right. destruct ws as [|c ws]; [congruence|]. exists c, (ws ++ r). split; auto. apply Hw2. left; auto.
Qed.
Lemma split_ws1_spec sp s a r : split_ws1 sp s = Some (a, r) ->
  exists ws0 ws, s = ws0 ++ a ++ ws ++ r /\ (forall c, In c ws0 -> sp c = true) /\ (forall c, In c a -> sp c = false) /\
    ws <> [] /\ (forall c, In c ws -> sp c = true) /\ r <> [] /\ (forall c t, r = c :: t -> sp c = false).
Proof.
  unfold split_ws1. destruct (cut sp (lstrip_by sp s)) as [x y] eqn:E.
  destruct (is_nil (lstrip_by sp y)) eqn:En; [discriminate|]. intros H; inv H.
  apply cut_spec in E as (E & Hx & Hy). destruct (lstrip_by_spec sp s) as (w0 & E0 & Hw0 & _).
  destruct (lstrip_by_spec sp y) as (w & Ew & Hw & Hr).
  exists w0, w. rewrite <- Ew, <- E. split; auto. split; [apply forallb_forall; auto|].
  split. { intros c Hc. rewrite forallb_forall in Hx. apply Hx in Hc. destruct (sp c); auto. }
  split.
  { destruct Hy as [->|(c & t & -> & Hc)]; [cbn in En; discriminate|].
    cbn [lstrip_by] in Ew. rewrite Hc in Ew. intros ->. cbn [app] in Ew.
    specialize (Hr c t). cbn [lstrip_by] in Hr. rewrite Hc in Hr. rewrite <- Ew in Hr. specialize (Hr eq_refl). congruence. }
  split; [apply forallb_forall; auto|]. split; [intros Z; rewrite Z in En; discriminate|auto].
Qed.

Lemma same_letters_blower s t : same_letters s t -> blower s = blower t.
Proof.
  induction 1 as [|c d s t H _ IH]; auto. unfold blower in *. cbn [map]. rewrite IH. f_equal.
  unfold is_ascii_upper, between. destruct H as [->|[[H ->]|[H ->]]]; auto.
  - replace ((65 <=? c) && (c <=? 90)) with true by lia. replace ((65 <=? c + 32) && (c + 32 <=? 90)) with false by lia. auto.
  - replace ((65 <=? d + 32) && (d + 32 <=? 90)) with false by lia. replace ((65 <=? d) && (d <=? 90)) with true by lia. lia.
Qed.
Lemma blank_spec c : blank c -> is_bspace c = true.
Proof. unfold blank, is_bspace, between. lia. Qed.
Lemma same_letters_chars s t : same_letters s t -> (forall c, In c t -> 65 <= c <= 90 \/ 97 <= c <= 122) ->
  forall c, In c s -> 65 <= c <= 90 \/ 97 <= c <= 122.
Proof.
  induction 1 as [|x y s t H _ IH]; intros Ht c Hc; [destruct Hc|].
  destruct Hc as [<-|Hc].
  - specialize (Ht y (or_introl eq_refl)). destruct H as [->|H]; auto; lia.
  - apply IH; auto. intros; apply Ht; right; auto.
Qed.

Lemma latin1_encode_id s : bytes_text s -> latin1_encode s = Ok s.
Proof. intros H. unfold latin1_encode. apply is_bytes_text in H. unfold is_bytes in H. rewrite H. auto. Qed.

Lemma letters_basic c : In c (lit "basic") -> 65 <= c <= 90 \/ 97 <= c <= 122.
Proof. intros H. cbn in H. lia. Qed.
Lemma letters_digest c : In c (lit "digest") -> 65 <= c <= 90 \/ 97 <= c <= 122.
Proof. intros H. cbn in H. lia. Qed.

Lemma header_split name scheme ws info : same_letters scheme name -> name <> [] ->
  (forall c, In c name -> 65 <= c <= 90 \/ 97 <= c <= 122) ->
  ws <> [] -> (forall c, In c ws -> blank c) -> bytes_text info -> info <> [] ->
  (forall c t, info = c :: t -> is_bspace c = false) ->
  bytes_text (scheme ++ ws ++ info) /\ split_ws1 is_bspace (scheme ++ ws ++ info) = Some (scheme, info) /\
  scheme ++ ws ++ info <> [].
Proof.
  intros Hs Hn Hl Hw1 Hw2 Hb Hi1 Hi2.
  pose proof (same_letters_chars _ _ Hs Hl) as Hc.
  assert (scheme <> []) by (intros ->; inversion Hs; subst; congruence).
  split; [|split].
  - intros c Hx. rewrite !in_app_iff in Hx. destruct Hx as [Hx|[Hx|Hx]]; auto.
    + apply Hc in Hx. lia.
    + apply Hw2 in Hx. unfold blank in Hx. lia.
  - apply (split_ws1_app is_bspace []); try assumption.
    + intros c [].
    + split; auto. intros c Hx. apply Hc in Hx. unfold is_bspace, between. lia.
    + intros c Hx. apply blank_spec. auto.
  - destruct scheme; congruence || discriminate.
Qed.

Lemma basic_result scheme ws info : same_letters scheme (lit "basic") -> ws <> [] -> (forall c, In c ws -> blank c) ->
  bytes_text info -> info <> [] -> (forall c t, info = c :: t -> is_bspace c = false) ->
  parse_authorization_header (Some (scheme ++ ws ++ info)) =
  Ok match b64decode info with
     | None => None
     | Some b => match split1 58 b with None => None | Some (u, p) => Some (ABasic u p) end
     end.
Proof.
  intros Hs Hw1 Hw2 Hb Hi1 Hi2.
  destruct (header_split (lit "basic") scheme ws info Hs ltac:(discriminate) letters_basic Hw1 Hw2 Hb Hi1 Hi2) as (B & S & N).
  unfold parse_authorization_header. destruct (scheme ++ ws ++ info) as [|c h] eqn:E; [congruence|].
  rewrite latin1_encode_id by auto. cbn [bind]. rewrite S. rewrite (same_letters_blower _ _ Hs).
  change (eqs (blower (lit "basic")) (lit "basic")) with true. cbv iota.
  destruct (b64decode info) as [b|]; auto. destruct (split1 58 b) as [[u p]|]; auto.
Qed.

Lemma base64_bytes n : forall s, (length s <= n)%nat -> bytes_text s -> forall c, In c (base64 s) -> c < 256.
Proof.
  induction n as [|n IH]; intros s Hn Hb c Hc.
  - destruct s; [destruct Hc|cbn [length] in Hn; lia].
  - assert (R : forall v, v < 64 -> b64_char v < 256) by (intros v Hv; apply b64_char_range in Hv; lia).
    destruct s as [|a [|b [|d r]]]; [destruct Hc| | |].
    + assert (a < 256) by (apply Hb; left; auto). cbn [base64 In] in Hc.
      decompose [or] Hc; subst; try (apply R; nsolve); try lia.
    + assert (a < 256) by (apply Hb; left; auto). assert (b < 256) by (apply Hb; right; left; auto). cbn [base64 In] in Hc.
      decompose [or] Hc; subst; try (apply R; nsolve); try lia.
    + assert (a < 256) by (apply Hb; left; auto). assert (b < 256) by (apply Hb; right; left; auto).
      assert (d < 256) by (apply Hb; right; right; left; auto).
      change (In c (b64_char (a / 4) :: b64_char (a mod 4 * 16 + b / 16) :: b64_char (b mod 16 * 4 + d / 64)
         :: b64_char (d mod 64) :: base64 r)) in Hc. cbn [In] in Hc.
      destruct Hc as [<-|[<-|[<-|[<-|Hc]]]]; try (apply R; nsolve).
      apply (IH r); auto; [cbn [length] in Hn; lia|intros x Hx; apply Hb; right; right; right; auto].
Qed.

Lemma basic_roundtrip scheme ws user password :
  same_letters scheme (lit "basic") -> ws <> [] -> (forall c, In c ws -> blank c) ->
  bytes_text user -> bytes_text password -> ~ In 58 user ->
  parse_authorization_header (Some (scheme ++ ws ++ base64 (user ++ 58 :: password))) = Ok (Some (ABasic user password)).
Proof.
  intros Hs Hw1 Hw2 Hu Hp Hc.
  assert (B : bytes_text (user ++ 58 :: password)).
  { intros c Hi. apply in_app_iff in Hi as [Hi|[<-|Hi]]; auto. lia. }
  rewrite basic_result; auto.
  - rewrite base64_decode by auto. rewrite split1_app by auto. auto.
  - intros c Hi. eapply base64_bytes; eauto.
  - intros E. apply base64_nil in E. destruct user; discriminate.
  - apply base64_nonblank; auto.
Qed.
Lemma basic_no_colon scheme ws b :
  same_letters scheme (lit "basic") -> ws <> [] -> (forall c, In c ws -> blank c) ->
  bytes_text b -> ~ In 58 b -> b <> [] ->
  parse_authorization_header (Some (scheme ++ ws ++ base64 b)) = Ok None.
Proof.
  intros Hs Hw1 Hw2 Hb Hc Hn. rewrite basic_result; auto.
  - rewrite base64_decode by auto. rewrite (proj2 (split1_none 58 b)); auto.
  - intros c Hi. eapply base64_bytes; eauto.
  - intros E. apply base64_nil in E. auto.
  - apply base64_nonblank; auto.
Qed.
Lemma alphabet_char c : in_alphabet c -> exists v, v < 64 /\ c = b64_char v.
Proof.
  intros H. destruct (b64val c) as [v|] eqn:E; [|apply b64val_none in E; contradiction].
  apply b64val_spec in E as [H1 H2]. eauto.
Qed.
Lemma basic_bad_length scheme ws info :
  same_letters scheme (lit "basic") -> ws <> [] -> (forall c, In c ws -> blank c) ->
  (forall c, In c info -> in_alphabet c) -> (N.of_nat (length info)) mod 4 <> 0 ->
  parse_authorization_header (Some (scheme ++ ws ++ info)) = Ok None.
Proof.
  intros Hs Hw1 Hw2 Ha Hl.
  assert (C : forall c, In c info -> 43 <= c < 123).
  { intros c Hi. apply Ha, alphabet_char in Hi as (v & Hv & ->). apply b64_char_range; auto. }
  rewrite basic_result; auto.
  - unfold b64decode. rewrite a2b_bad_length; [auto|auto|lia|]. rewrite N.add_0_l. auto.
  - intros c Hi. apply C in Hi. lia.
  - intros ->. apply Hl. auto.
  - intros c t ->. specialize (C c (or_introl eq_refl)). unfold is_bspace, between. lia.
Qed.

Lemma auth_total h : bytes_text h -> exists r, parse_authorization_header (Some h) = Ok r.
Proof.
  intros Hb. unfold parse_authorization_header. destruct h as [|c h]; [eauto|].
  rewrite latin1_encode_id by auto. cbn [bind].
  destruct (split_ws1 is_bspace (c :: h)) as [[a i]|]; [|eauto].
  destruct (eqs (blower a) (lit "basic")).
  - destruct (b64decode i) as [b|]; [|eauto]. destruct (split1 58 b) as [[u p]|]; eauto.
  - destruct (eqs (blower a) (lit "digest")); [|eauto].
    destruct (forallb _ _); [|eauto]. destruct (_ && _); eauto.
Qed.

Lemma basic_sound h u p : parse_authorization_header (Some h) = Ok (Some (ABasic u p)) ->
  exists pre scheme ws t rest l,
    h = pre ++ scheme ++ ws ++ t ++ rest /\ lowercase scheme (lit "basic") /\
    (forall c, In c (pre ++ ws) -> blank c) /\ ws <> [] /\
    sextets t l /\ u ++ 58 :: p = sextet_bytes l /\ ~ In 58 u.
Proof.
  unfold parse_authorization_header. destruct h as [|c h]; [discriminate|].
  destruct (latin1_encode (c :: h)) as [v|] eqn:El; cbn [bind]; [|discriminate].
  unfold latin1_encode in El. destruct (forallb _ (c :: h)); inv El.
  destruct (split_ws1 is_bspace (c :: h)) as [[a i]|] eqn:Es; [|discriminate].
  destruct (eqs (blower a) (lit "basic")) eqn:Eb.
  - destruct (b64decode i) as [b|] eqn:Ed; [|discriminate]. destruct (split1 58 b) as [[u' p']|] eqn:E1; [|discriminate].
    intros H; inv H. apply split1_some in E1 as [-> Hn]. apply b64decode_sound in Ed as (t & rest & l & -> & Ht & Eo).
    apply split_ws1_spec in Es as (ws0 & ws & -> & H0 & Ha & Hw1 & Hw2 & _).
    exists ws0, a, ws, t, rest, l. split; auto. split; [apply eqs_eq in Eb; rewrite <- Eb; apply blower_spec|].
    split; [|auto]. intros x Hx. apply in_app_iff in Hx as [Hx|Hx]; [apply H0 in Hx|apply Hw2 in Hx];
      unfold is_bspace, between in Hx; unfold blank; lia.
  - destruct (eqs (blower a) (lit "digest")); [|discriminate].
    destruct (forallb _ _); [|discriminate]. destruct (_ && _); discriminate.
Qed.

(** ** Digest *)
Lemma dhas_spec {V} (d : dict V) k : dhas d k = true <-> exists v, dget d k = Some v.
Proof. unfold dhas. destruct (dget d k); split; eauto; [discriminate|intros [v H]; discriminate]. Qed.
Lemma falsy_spec o : falsy o = false <-> exists v, o = Some (Some v) /\ v <> [].
Proof.
  destruct o as [[[|c v]|]|]; cbn [falsy]; split; try discriminate; try (intros (v' & H & N); inv H; congruence); eauto.
  intros _. exists (c :: v). split; auto. discriminate.
Qed.
Lemma digest_complete h d : parse_authorization_header (Some h) = Ok (Some (ADigest d)) ->
  (forall k, In k [lit "username"; lit "realm"; lit "nonce"; lit "uri"; lit "response"] -> exists v, dget d k = Some v) /\
  ((exists v, dget d (lit "qop") = Some v) ->
   forall k, In k [lit "nc"; lit "cnonce"] -> exists v, dget d k = Some (Some v) /\ v <> []).
Proof.
  unfold parse_authorization_header. destruct h as [|c h]; [discriminate|].
  destruct (latin1_encode (c :: h)) as [v|]; cbn [bind]; [|discriminate].
  destruct (split_ws1 is_bspace v) as [[a i]|]; [|discriminate].
  destruct (eqs (blower a) (lit "basic")).
  - destruct (b64decode i) as [b|]; [|discriminate]. destruct (split1 58 b) as [[u p]|]; discriminate.
  - destruct (eqs (blower a) (lit "digest")); [|discriminate].
    destruct (forallb _ _) eqn:F; [|discriminate]. destruct (_ && _) eqn:G; [discriminate|].
    intros H; inv H. split.
    + intros k Hk. rewrite forallb_forall in F. apply dhas_spec. auto.
    + intros Hq k Hk. apply dhas_spec in Hq. rewrite Hq in G. cbn [andb] in G.
      apply orb_false_iff in G as [G1 G2]. destruct Hk as [<-|[<-|[]]]; apply falsy_spec; auto.
Qed.

Lemma dict_dump_chars d : forall allow, (forall c kv, In kv d -> In c (fst kv) -> c < 256) ->
  (forall c kv v, In kv d -> snd kv = Some v -> In c v -> c < 256) ->
  bytes_text (dump_header_dict allow d).
Proof.
  intros allow Hk Hv c Hc. unfold dump_header_dict in Hc. apply in_join in Hc as [Hc|(x & Hx & Hc)].
  - destruct Hc as [<-|[<-|[]]]; lia.
  - apply in_map_iff in Hx as ([k v] & <- & Hin). unfold dump_item in Hc. cbn [fst snd] in Hc.
    destruct v as [v|]; [|eapply (Hk c (k, None)); eauto].
    apply in_app_iff in Hc as [Hc|[<-|Hc]]; [eapply (Hk c (k, Some v)); eauto|lia|].
    assert (Hvv : forall x, In x v -> x < 256) by (intros x Hx; eapply (Hv x (k, Some v)); eauto; reflexivity).
    destruct (quote_seen_cases allow v) as [(E & _)|(E & _)]; rewrite E in Hc; auto.
    destruct Hc as [<-|Hc]; [lia|]. apply in_app_iff in Hc as [Hc|[<-|[]]]; [|lia].
    unfold ProofQuote.esc in Hc. apply in_flat_map in Hc as (y & Hy & Hc). specialize (Hvv y Hy).
    unfold ProofQuote.esc_c in Hc. destruct (y =? 92), (y =? 34); cbn [In] in Hc; lia.
Qed.

Lemma digest_result scheme ws info : same_letters scheme (lit "digest") -> ws <> [] -> (forall c, In c ws -> blank c) ->
  bytes_text info -> info <> [] -> (forall c t, info = c :: t -> is_bspace c = false) ->
  (complete_digest (parse_dict_header info) ->
   parse_authorization_header (Some (scheme ++ ws ++ info)) = Ok (Some (ADigest (parse_dict_header info)))) /\
  (~ complete_digest (parse_dict_header info) ->
   parse_authorization_header (Some (scheme ++ ws ++ info)) = Ok None).
Proof.
  intros Hs Hw1 Hw2 Hb Hi1 Hi2.
  destruct (header_split (lit "digest") scheme ws info Hs ltac:(discriminate) letters_digest Hw1 Hw2 Hb Hi1 Hi2) as (B & S & N).
  unfold parse_authorization_header. destruct (scheme ++ ws ++ info) as [|c h] eqn:E; [congruence|].
  rewrite latin1_encode_id by auto. cbn [bind]. rewrite S. rewrite (same_letters_blower _ _ Hs).
  change (eqs (blower (lit "digest")) (lit "basic")) with false. change (eqs (blower (lit "digest")) (lit "digest")) with true.
  cbv iota. set (d := parse_dict_header info). split.
  - intros [H1 H2].
    replace (forallb (dhas d) _) with true.
    2: { symmetry. apply forallb_forall. intros k Hk. apply dhas_spec. auto. }
    destruct (dhas d (lit "qop")) eqn:Q; auto. apply dhas_spec in Q.
    assert (F1 : falsy (dget d (lit "nc")) = false) by (apply falsy_spec, H2; auto; left; auto).
    assert (F2 : falsy (dget d (lit "cnonce")) = false) by (apply falsy_spec, H2; auto; right; left; auto).
    rewrite F1, F2. auto.
  - intros Hn. destruct (forallb (dhas d) _) eqn:F; auto.
    destruct (dhas d (lit "qop") && _) eqn:G; auto. exfalso. apply Hn. split.
    + intros k Hk. rewrite forallb_forall in F. apply dhas_spec. auto.
    + intros Hq k Hk. apply dhas_spec in Hq. rewrite Hq in G. cbn [andb] in G.
      apply orb_false_iff in G as [G1 G2]. destruct Hk as [<-|[<-|[]]]; apply falsy_spec; auto.
Qed.

(** ** WWW-Authenticate *)
Definition per_key (kv : str * option str) : bool := negb (existsb (eqs (fst kv)) require_quoting).
Lemma dict_header_per_key (d : dict (option str)) :
  NoDup (map fst d) -> Forall (fun kv => is_token (fst kv)) d ->
  parse_dict_header (join [44; 32] (map (fun kv => dump_item (per_key kv) kv) d)) =
  map (fun kv => (fst kv, option_map reread (snd kv))) d.
Proof.
  intros Hd Hk. rewrite Forall_forall in Hk.
  assert (Ht : forall kv, In kv d -> forallb is_token_char (fst kv) = true /\ fst kv <> []).
  { intros kv H. apply key_token. apply Hk. auto. }
  unfold parse_dict_header.
  rewrite (parse_http_list_join _ _ (fun kv => item_seen (per_key kv) kv)).
  - rewrite fold_parse_items, map_map.
    rewrite (map_ext_in _ (fun kv => (fst kv, option_map reread (snd kv)))).
    + apply (fold_dset_nodup (map _ d) []). cbn [app]. rewrite map_map. cbn [fst]. auto.
    + intros kv H. apply parse_item_seen. apply Ht; auto.
  - intros. apply item_scan. apply Ht; auto.
  - intros. apply item_strip_safe; apply Ht; auto.
  - intros x ->. destruct (Ht x (or_introl eq_refl)) as [_ H].
    unfold item_seen. destruct (snd x); auto. destruct (fst x); discriminate || congruence.
Qed.

Lemma lower_title s : forall b, lower (title b s) = lower s.
Proof.
  induction s as [|c s IH]; intros b; auto. cbn [title]. unfold lower in *. cbn [map]. rewrite IH. f_equal.
  unfold lower_c, is_ascii_upper, is_ascii_lower, between.
  destruct ((65 <=? c) && (c <=? 90)) eqn:E1.
  - destruct b; [|rewrite E1; auto]. replace ((65 <=? c + 32) && (c + 32 <=? 90)) with false by lia.
    replace ((192 <=? c + 32) && (c + 32 <=? 222) && negb (c + 32 =? 215)) with false by lia. auto.
  - destruct ((97 <=? c) && (c <=? 122)) eqn:E2; [|rewrite E1; auto].
    destruct b; [rewrite E1; auto|].
    replace ((65 <=? c - 32) && (c - 32 <=? 90)) with true by lia.
    replace ((192 <=? c) && (c <=? 222) && negb (c =? 215)) with false by lia. lia.
Qed.
Lemma title_token s : forall b, forallb is_token_char s = true -> forallb is_token_char (title b s) = true.
Proof.
  induction s as [|c s IH]; intros b H; auto. cbn [forallb] in H. apply andb_true_iff in H as [Hc H].
  cbn [title forallb]. rewrite IH by auto. rewrite andb_true_r.
  unfold is_token_char, is_ascii_alnum, is_ascii_alpha, is_ascii_upper, is_ascii_lower, is_ascii_digit, between in *.
  destruct ((65 <=? c) && (c <=? 90)) eqn:E1; [destruct b; lia|].
  destruct ((97 <=? c) && (c <=? 122)) eqn:E2; [destruct b; lia|]. rewrite ?E1, ?E2. rewrite ?E1, ?E2 in Hc. exact Hc.
Qed.
Lemma title_nil s b : title b s = [] -> s = [].
Proof. destruct s; [auto|discriminate]. Qed.
Lemma token_nospace s : forallb is_token_char s = true -> forall c, In c s -> is_space c = false.
Proof. intros H c Hc. rewrite forallb_forall in H. apply H in Hc. apply token_char_ne in Hc. tauto. Qed.

Definition params (d : dict str) : dict (option str) := map (fun kv => (fst kv, Some (snd kv))) (ddel d auth_type_key).

Lemma www_header_eq d :
  www_to_header d =
  title false (match dget d auth_type_key with Some (c :: r) => c :: r | _ => lit "basic" end) ++ 32 ::
  join [44; 32] (map (fun kv => dump_item (per_key kv) kv) (params d)).
Proof. unfold www_to_header, params. rewrite map_map. auto. Qed.

Lemma strip_trailing_space s : strip_safe s -> s <> [] -> strip (s ++ [32]) = s.
Proof.
  intros H Hn. unfold strip, strip_by. rewrite lstrip_by_id.
  - rewrite rstrip_by_app by auto. rewrite rstrip_by_id; auto.
    intros c r ->. destruct H as [H|(a & b & m & Ha & Hb & [[H _]|H])].
    + destruct r; discriminate.
    + destruct r as [|x r]; inv H; auto. destruct r; discriminate.
    + rewrite app_comm_cons in H. apply app_inj_tail in H as [_ ->]. auto.
  - intros c r E. destruct s as [|x s]; [congruence|]. inv E.
    destruct H as [H|(a & b & m & Ha & Hb & [[H _]|H])]; inv H; auto.
Qed.

Lemma www_roundtrip_exact d scheme :
  dget d auth_type_key = Some scheme -> is_token scheme ->
  NoDup (map fst d) -> (forall k v, In (k, v) d -> k <> auth_type_key -> is_token k) ->
  parse_www_authenticate_header (www_to_header d) =
  map (fun kv => (fst kv, Some (reread (snd kv)))) (ddel d auth_type_key) ++ [(auth_type_key, Some (lower scheme))].
Proof.
  intros Hg Ht Hd Hk. rewrite www_header_eq, Hg.
  apply key_token in Ht as [Ht Hne]. destruct scheme as [|c0 sch]; [congruence|]. set (scheme := c0 :: sch) in *.
  assert (T : forallb is_token_char (title false scheme) = true) by (apply title_token; auto).
  assert (Tn : title false scheme <> []) by (intros E; apply title_nil in E; discriminate).
  assert (Pd : NoDup (map fst (params d))).
  { unfold params. rewrite map_map. cbn [fst]. apply ddel_NoDup. auto. }
  assert (Hin : forall kv, In kv (ddel d auth_type_key) -> In kv d /\ fst kv <> auth_type_key).
  { intros [k v] Hi. unfold ddel in Hi. apply filter_In in Hi as [Hi E]. split; auto. cbn [fst] in *. intros ->. rewrite eqs_refl in E. discriminate. }
  assert (Pk : Forall (fun kv => is_token (fst kv)) (params d)).
  { apply Forall_forall. intros kv Hi. unfold params in Hi. apply in_map_iff in Hi as ([k v] & <- & Hi). cbn [fst].
    apply Hin in Hi as [Hi Hn]. eapply Hk; eauto. }
  assert (Pv : map (fun kv => (fst kv, option_map reread (snd kv))) (params d) =
               map (fun kv => (fst kv, Some (reread (snd kv)))) (ddel d auth_type_key)).
  { unfold params. rewrite map_map. auto. }
  assert (Pa : ~ In auth_type_key (map fst (map (fun kv : str * str => (fst kv, Some (reread (snd kv)))) (ddel d auth_type_key)))).
  { rewrite map_map. cbn [fst]. intros Hi. apply in_map_iff in Hi as ([k v] & E & Hi). apply Hin in Hi as [_ Hi]. auto. }
  assert (Ln : lower scheme <> []) by (unfold scheme; discriminate).
  unfold parse_www_authenticate_header.
  destruct (is_nil (title false scheme ++ _)) eqn:En; [destruct (title false scheme); [congruence|discriminate]|].
  destruct (params d) as [|p ps] eqn:Ep.
  - cbn [map join]. replace (split_ws1 is_space (title false scheme ++ [32])) with (@None (str * str)).
    + rewrite strip_trailing_space by (auto using token_strip_safe). rewrite lower_title.
      unfold www_init. destruct (is_nil (lower scheme)) eqn:El; [destruct (lower scheme); [congruence|discriminate]|].
      rewrite <- Pv. auto.
    + unfold split_ws1. rewrite lstrip_by_id.
      * rewrite cut_app; auto.
        -- apply forallb_forall. intros c Hc. rewrite (token_nospace _ T c Hc). auto.
        -- right. exists 32, []. auto.
      * intros c r E. apply (token_nospace _ T). destruct (title false scheme); [congruence|]. inv E. left; auto.
  - set (info := join [44; 32] (map (fun kv => dump_item (per_key kv) kv) (p :: ps))).
    assert (Hinfo : exists c r, info = c :: r /\ is_space c = false).
    { assert (Hp : is_token (fst p)) by (rewrite Forall_forall in Pk; apply Pk; left; auto).
      apply key_token in Hp as [Hp1 Hp2].
      assert (exists r0, dump_item (per_key p) p = fst p ++ r0) as [r0 Er].
      { unfold dump_item. destruct (snd p); [eexists; reflexivity|exists []; rewrite app_nil_r; auto]. }
      destruct (fst p) as [|c k] eqn:Ek; [congruence|].
      assert (exists r1, info = c :: r1) as [r1 E1].
      { unfold info. destruct ps as [|q ps].
        - cbn [map join]. rewrite Er. cbn [app]. eauto.
        - cbn [map]. change (join [44; 32] (dump_item (per_key p) p :: dump_item (per_key q) q :: map (fun kv => dump_item (per_key kv) kv) ps))
            with (dump_item (per_key p) p ++ [44; 32] ++ join [44; 32] (dump_item (per_key q) q :: map (fun kv => dump_item (per_key kv) kv) ps)).
          rewrite Er. cbn [app]. eauto. }
      exists c, r1. split; auto. eapply token_nospace; eauto. left; auto. }
    destruct Hinfo as (c & r & Ei & Hc).
    assert (Sp : split_ws1 is_space ([] ++ title false scheme ++ [32] ++ info) = Some (title false scheme, info)).
    { apply split_ws1_app; try discriminate.
      - intros x [].
      - split; auto. apply token_nospace; auto.
      - intros x [<-|[]]. auto.
      - rewrite Ei. discriminate.
      - intros x t E. rewrite Ei in E. inv E. auto. }
    cbn [app] in Sp. rewrite Sp. unfold info. rewrite dict_header_per_key by auto. rewrite lower_title.
    unfold www_init. destruct (is_nil (lower scheme)) eqn:El; [destruct (lower scheme); [congruence|discriminate]|].
    rewrite Pv. apply dset_notin. apply dget_none. auto.
Qed.

Lemma dump_dict_start d allow : d <> [] -> Forall (fun kv => is_token (fst kv)) d ->
  exists c r, dump_header_dict allow d = c :: r /\ is_token_char c = true.
Proof.
  intros Hn Pk. destruct d as [|p ps]; [congruence|]. inversion Pk as [|x y Hp _]; subst.
  apply key_token in Hp as [Hp1 Hp2].
  assert (exists r0, dump_item allow p = fst p ++ r0) as [r0 Er].
  { unfold dump_item. destruct (snd p); [eexists; reflexivity|exists []; rewrite app_nil_r; auto]. }
  destruct (fst p) as [|c k] eqn:Ek; [congruence|]. cbn [forallb] in Hp1. apply andb_true_iff in Hp1 as [Hp1 _].
  unfold dump_header_dict. destruct ps as [|q ps].
  - cbn [map join]. rewrite Er. cbn [app]. eauto.
  - cbn [map]. change (join [44; 32] (dump_item allow p :: dump_item allow q :: map (dump_item allow) ps))
      with (dump_item allow p ++ [44; 32] ++ join [44; 32] (dump_item allow q :: map (dump_item allow) ps)).
    rewrite Er. cbn [app]. eauto.
Qed.

Lemma digest_roundtrip scheme ws d :
  same_letters scheme (lit "digest") -> ws <> [] -> (forall c, In c ws -> blank c) ->
  d <> [] -> NoDup (map fst d) -> Forall (fun kv => is_token (fst kv)) d ->
  (forall k v, In (k, Some v) d -> bytes_text v /\ ~ wears_quotes v) ->
  (complete_digest d ->
   parse_authorization_header (Some (scheme ++ ws ++ dump_header_dict true d)) = Ok (Some (ADigest d))) /\
  (~ complete_digest d ->
   parse_authorization_header (Some (scheme ++ ws ++ dump_header_dict true d)) = Ok None).
Proof.
  intros Hs Hw1 Hw2 Hne Hd Hk Hv.
  assert (R : parse_dict_header (dump_header_dict true d) = d).
  { apply dict_header_roundtrip; auto. apply Forall_forall. intros [k o] Hi v E. cbn [snd] in E. subst. eapply Hv; eauto. }
  destruct (dump_dict_start d true Hne Hk) as (c & r & Ec & Hc). apply token_char_ne in Hc.
  assert (B : bytes_text (dump_header_dict true d)).
  { apply dict_dump_chars.
    - intros x kv Hi Hx. rewrite Forall_forall in Hk. apply Hk in Hi as [_ Hi]. rewrite Forall_forall in Hi. apply Hi in Hx.
      unfold rfc_tchar in Hx. change (lit "!#$%&'*+-.^_`|~") with [33; 35; 36; 37; 38; 39; 42; 43; 45; 46; 94; 95; 96; 124; 126] in Hx.
      cbn [In] in Hx. lia.
    - intros x [k o] v Hi E Hx. cbn [snd] in E. subst. destruct (Hv k v Hi) as [Hb _]. auto. }
  pose proof (digest_result scheme ws (dump_header_dict true d) Hs Hw1 Hw2 B) as G. rewrite R in G. apply G.
  - rewrite Ec. discriminate.
  - intros x t E. rewrite Ec in E. inv E. destruct (is_bspace x) eqn:Eb; auto. exfalso.
    destruct Hc as (_ & _ & _ & _ & _ & _ & Hc). unfold is_bspace, between in Eb. unfold is_space, between in Hc. lia.
Qed.

(** ** The challenges of set_basic and set_digest *)
Lemma www_value d scheme k v :
  dget d auth_type_key = Some scheme -> is_token scheme ->
  NoDup (map fst d) -> (forall k v, In (k, v) d -> k <> auth_type_key -> is_token k) ->
  k <> auth_type_key -> dget d k = Some v -> ~ wears_quotes v ->
  dget (parse_www_authenticate_header (www_to_header d)) k = Some (Some v).
Proof.
  intros Hg Ht Hd Hk Hn Hv Hw. rewrite (www_roundtrip_exact d scheme) by auto.
  rewrite <- (dget_ddel_neq d auth_type_key k) in Hv by auto.
  induction (ddel d auth_type_key) as [|[k' v'] l IH]; [discriminate|].
  cbn [map app fst snd dget] in *. destruct (eqs k k') eqn:E.
  - inv Hv. rewrite reread_id; auto.
  - auto.
Qed.
Lemma www_none d scheme k :
  dget d auth_type_key = Some scheme -> is_token scheme ->
  NoDup (map fst d) -> (forall k v, In (k, v) d -> k <> auth_type_key -> is_token k) ->
  k <> auth_type_key -> dget d k = None ->
  dget (parse_www_authenticate_header (www_to_header d)) k = None.
Proof.
  intros Hg Ht Hd Hk Hn Hv. rewrite (www_roundtrip_exact d scheme) by auto.
  rewrite <- (dget_ddel_neq d auth_type_key k) in Hv by auto.
  induction (ddel d auth_type_key) as [|[k' v'] l IH].
  - cbn [map app dget]. destruct (eqs k auth_type_key) eqn:E; auto. apply eqs_eq in E. contradiction.
  - cbn [map app fst snd dget] in *. destruct (eqs k k'); [discriminate|auto].
Qed.
Lemma www_type d scheme :
  dget d auth_type_key = Some scheme -> is_token scheme ->
  NoDup (map fst d) -> (forall k v, In (k, v) d -> k <> auth_type_key -> is_token k) ->
  dget (parse_www_authenticate_header (www_to_header d)) auth_type_key = Some (Some (lower scheme)).
Proof.
  intros Hg Ht Hd Hk. rewrite (www_roundtrip_exact d scheme) by auto.
  assert (Hn : dget (ddel d auth_type_key) auth_type_key = None) by apply dget_ddel_eq.
  induction (ddel d auth_type_key) as [|[k' v'] l IH].
  - cbn [map app dget]. rewrite eqs_refl. auto.
  - cbn [map app fst snd dget] in *. destruct (eqs auth_type_key k'); [discriminate|auto].
Qed.

Ltac tok := split; [discriminate|apply Forall_forall; intros ? Hx_; cbn in Hx_; right; right; left; lia].
Lemma set_digest_facts realm nonce qop opaque algorithm stale :
  let d := set_digest realm nonce qop opaque algorithm stale in
  NoDup (map fst d) /\ (forall k v, In (k, v) d -> k <> auth_type_key -> is_token k).
Proof.
  cbv zeta. unfold set_digest. split.
  - destruct stale, opaque, algorithm; vm_compute; repeat (constructor; [cbn [In]; intros K; decompose [or] K; try discriminate; auto|]); constructor.
  - intros k v Hi Hk.
    assert (Hin : In k [auth_type_key; lit "realm"; lit "nonce"; lit "qop"; lit "stale"; lit "opaque"; lit "algorithm"]).
    { destruct stale, opaque, algorithm; vm_compute in Hi; vm_compute; decompose [or] Hi; try contradiction;
        match goal with H : (_, _) = (k, v) |- _ => injection H as <- <- end; tauto. }
    destruct Hin as [<-|[<-|[<-|[<-|[<-|[<-|[<-|[]]]]]]]]; [congruence| | | | | |]; tok.
Qed.

Lemma set_digest_roundtrip realm nonce qop opaque algorithm stale :
  ~ wears_quotes realm -> ~ wears_quotes nonce ->
  (forall o, opaque = Some o -> ~ wears_quotes o) -> (forall a, algorithm = Some a -> ~ wears_quotes a) ->
  let r := parse_www_authenticate_header (www_to_header (set_digest realm nonce qop opaque algorithm stale)) in
  dget r auth_type_key = Some (Some (lit "digest")) /\
  dget r (lit "realm") = Some (Some realm) /\ dget r (lit "nonce") = Some (Some nonce) /\
  dget r (lit "opaque") = option_map Some opaque /\ dget r (lit "algorithm") = option_map Some algorithm /\
  get_stale r = if stale then Some true else None.
Proof.
  intros H1 H2 H3 H4 r.
  destruct (set_digest_facts realm nonce qop opaque algorithm stale) as [F1 F2].
  assert (Ht : is_token (lit "digest")) by tok.
  assert (Hg : dget (set_digest realm nonce qop opaque algorithm stale) auth_type_key = Some (lit "digest")).
  { unfold set_digest. destruct stale, opaque, algorithm; reflexivity. }
  unfold r. split; [|split; [|split; [|split; [|split]]]].
  - rewrite (www_type _ (lit "digest")); auto.
  - eapply www_value; eauto; [discriminate|]. unfold set_digest. destruct stale, opaque, algorithm; reflexivity.
  - eapply www_value; eauto; [discriminate|]. unfold set_digest. destruct stale, opaque, algorithm; reflexivity.
  - destruct opaque as [o|]; cbn [option_map].
    + eapply www_value; eauto; [discriminate|]. unfold set_digest. destruct stale, algorithm; reflexivity.
    + eapply www_none; eauto; [discriminate|]. unfold set_digest. destruct stale, algorithm; reflexivity.
  - destruct algorithm as [o|]; cbn [option_map].
    + eapply www_value; eauto; [discriminate|]. unfold set_digest. destruct stale, opaque; reflexivity.
    + eapply www_none; eauto; [discriminate|]. unfold set_digest. destruct stale, opaque; reflexivity.
  - unfold get_stale. destruct stale.
    + rewrite (www_value _ (lit "digest") (lit "stale") (lit "TRUE")); auto; [discriminate| |].
      * unfold set_digest. destruct opaque, algorithm; reflexivity.
      * intros [E|[m E]]; [discriminate|]. discriminate.
    + erewrite www_none; eauto; [discriminate|]. unfold set_digest. destruct opaque, algorithm; reflexivity.
Qed.

(** ** C72 *)
Lemma quote_forced v : exists b, quote_header_value false v = 34 :: b ++ [34] /\ qbody b.
Proof.
  destruct (quote_form false v) as [[E _]|H]; [|exact H].
  exfalso. unfold quote_header_value, quote_header_value_x in E. cbn [andb] in E.
  assert (L : lt (length v) (length (34 :: replace [34] [92; 34] (replace [92] [92; 92] v) ++ [34]))).
  { cbn [length]. rewrite app_length. cbn [length].
    assert (R : forall (a b : N) (s : str), le (length s) (length (replace [a] [92; b] s))).
    { clear. intros a b s. rewrite replace1. induction s as [|c s IH]; cbn; [lia|]. rewrite app_length. destruct (c =? a); cbn; lia. }
    pose proof (R 92 92 v). pose proof (R 34 34 (replace [92] [92; 92] v)). lia. }
  rewrite E in L. lia.
Qed.
Lemma challenge_params d : exists params scheme,
  www_to_header d = scheme ++ 32 :: join [44; 32] params /\
  Forall2 (fun kv p => written_param (fst kv) (snd kv) p) (ddel d (lit "__auth_type__")) params.
Proof.
  unfold www_to_header. do 2 eexists. split; [reflexivity|]. change (lit "__auth_type__") with auth_type_key. induction (ddel d auth_type_key) as [|[k v] l IH]; cbn [map]; constructor; auto.
  cbn [fst snd]. destruct (existsb (eqs k) require_quoting) eqn:E; cbn [negb].
  - destruct (quote_forced v) as (b & -> & Hb). apply wp_quoted. auto.
  - destruct (quote_form true v) as [[-> Ht]|(b & -> & Hb)]; [apply wp_token; auto|apply wp_quoted; auto].
    intros Hi. assert (existsb (eqs k) require_quoting = true); [|congruence]. apply existsb_exists. exists k. split; [|apply eqs_eq; auto].
    unfold require_quoting. cbn [In] in *. intuition.
Qed.
