(** Lemmas about byte ranges. *)
From Coq Require Import Arith List NArith ZArith Bool Lia ZifyBool ZifyN.
From Verif Require Import PyStr PyStrFacts ModelQuote SpecQuote ProofQuote ModelHeaders ModelRange SpecRange.
Import ListNotations.
Open Scope N_scope.
Ltac inv H := inversion H; subst; clear H.

Lemma valid_spec s e n : is_byte_range_valid s e n = true <-> valid_content s e n.
Proof.
  destruct s, e, n; cbn; try (split; [discriminate|tauto]); try lia; try tauto.
  destruct (_ <=? _)%Z eqn:E; lia.
Qed.

Lemma rfl_cases r n s e : range_for_length r (Some n) = Some (s, e) ->
  r_units r = lit "bytes" /\ exists b f, r_ranges r = [(b, f)] /\
  (0 <= s < e)%Z /\ (e <= n)%Z /\
  (forall p, (s <= p < e)%Z <-> requested b f n p /\ (0 <= p < n)%Z).
Proof.
  unfold range_for_length. destruct (eqs (r_units r) (lit "bytes")) eqn:Eu; [|discriminate].
  apply eqs_eq in Eu. destruct (r_ranges r) as [|[b f] [|? ?]]; try discriminate.
  intros H. split; auto. exists b, f. split; auto. revert H.
  destruct f as [f|]; cbn [is_byte_range_valid requested].
  - destruct (f <=? b)%Z eqn:E1; [discriminate|].
    destruct ((0 <=? b)%Z && (b <? n)%Z) eqn:E2; [|discriminate].
    intros H; inv H. split; [lia|]. split; [lia|]. intros p. lia.
  - destruct (b <? 0)%Z eqn:E3.
    + destruct (n <=? b + n)%Z eqn:E1; [discriminate|].
      destruct ((0 <=? b + n)%Z && (b + n <? n)%Z) eqn:E2; [|discriminate].
      intros H; inv H. split; [lia|]. split; [lia|]. intros p. lia.
    + destruct (n <=? b)%Z eqn:E1; [discriminate|].
      destruct ((0 <=? b)%Z && (b <? n)%Z) eqn:E2; [|discriminate].
      intros H; inv H. split; [lia|]. split; [lia|]. intros p. lia.
Qed.

Lemma rfl_complete b f n p :
  (match f with Some _ => (0 <= b)%Z | None => (- n <= b)%Z end) ->
  requested b f n p -> (0 <= p < n)%Z ->
  exists s e, range_for_length (Rng (lit "bytes") [(b, f)]) (Some n) = Some (s, e).
Proof.
  intros Hb Hr Hp. unfold range_for_length. cbn [r_units r_ranges]. rewrite eqs_refl.
  destruct f as [f|]; cbn [is_byte_range_valid requested] in *.
  - replace (f <=? b)%Z with false by lia.
    replace ((0 <=? b)%Z && (b <? n)%Z) with true by lia. eauto.
  - destruct (b <? 0)%Z eqn:E.
    + replace (n <=? b + n)%Z with false by lia.
      replace ((0 <=? b + n)%Z && (b + n <? n)%Z) with true by lia. eauto.
    + replace (n <=? b)%Z with false by lia.
      replace ((0 <=? b)%Z && (b <? n)%Z) with true by lia. eauto.
Qed.

Lemma make_content_range_ok r n s e : range_for_length r (Some n) = Some (s, e) ->
  make_content_range r (Some n) = Ok (Some (CR (Some (r_units r)) (Some s) (Some e) (Some n))).
Proof.
  intros H. unfold make_content_range. rewrite H.
  destruct (rfl_cases _ _ _ _ H) as (_ & b & f & _ & H1 & H2 & _).
  unfold content_range_new.
  replace (is_byte_range_valid (Some s) (Some e) (Some n)) with true; auto.
  symmetry. apply valid_spec. cbn. lia.
Qed.

(** ** Range header *)
Lemma split1_cons_ne c x s : x <> c -> split1 c (x :: s) = match split1 c s with Some (a, b) => Some (x :: a, b) | None => None end.
Proof. intros H. cbn [split1]. replace (x =? c) with false; auto. symmetry. apply N.eqb_neq. auto. Qed.

Lemma digits_forallb s : digits s <-> s <> [] /\ forallb is_ascii_digit s = true.
Proof.
  unfold digits. rewrite forallb_forall, Forall_forall. unfold is_ascii_digit, between.
  split; intros [H1 H2]; split; auto; intros c Hc; specialize (H2 c Hc); lia.
Qed.

Lemma digits_not_in c s : digits s -> ~ (48 <= c <= 57) -> ~ In c s.
Proof. intros [_ H] Hc Hi. rewrite Forall_forall in H. apply Hc. auto. Qed.

Lemma digits_int s : digits s -> py_int s = Some (Z.of_N (digits_val s)).
Proof. intros H. apply digits_forallb in H as [? ?]. apply py_int_digits; auto. Qed.

Lemma zdec_nonneg z : (0 <= z)%Z -> zdec z = dec (Z.to_N z).
Proof. intros H. destruct z; auto. lia. Qed.
Lemma dec_is_digits n : digits (dec n).
Proof. apply digits_forallb. split; [apply dec_nonnil|apply dec_digits]. Qed.
Lemma zdec_digits z : (0 <= z)%Z -> digits (zdec z).
Proof. intros H. rewrite zdec_nonneg by auto. apply dec_is_digits. Qed.
Lemma digits_val_zdec z : (0 <= z)%Z -> Z.of_N (digits_val (zdec z)) = z.
Proof. intros H. rewrite zdec_nonneg, dec_val by auto. lia. Qed.
Lemma zdec_neg z : (z < 0)%Z -> zdec z = 45 :: zdec (- z).
Proof. intros H. destruct z; try lia. reflexivity. Qed.

Lemma item_no_space s m : item_means s m -> Forall (fun c => is_space c = false) s.
Proof.
  assert (Hd : forall a, digits a -> Forall (fun c => is_space c = false) a).
  { intros a [_ H]. eapply Forall_impl; [|exact H]. cbn beta. intros c Hc.
    apply is_ascii_digit_not_space. unfold is_ascii_digit, between. lia. }
  intros H; inv H.
  - apply Forall_app; split; auto.
  - apply Forall_app; split; auto.
  - constructor; auto.
Qed.
Lemma item_no_comma s m : item_means s m -> ~ In 44 s.
Proof.
  intros H; inv H; rewrite ?in_app_iff; cbn [In]; intros Hi.
  - destruct Hi as [Hi|[Hi|Hi]]; try lia; revert Hi; apply digits_not_in; auto; lia.
  - destruct Hi as [Hi|[Hi|[]]]; try lia; revert Hi; apply digits_not_in; auto; lia.
  - destruct Hi as [Hi|Hi]; try lia; revert Hi; apply digits_not_in; auto; lia.
Qed.

Lemma forall_forallb {A} f (l : list A) : Forall (fun x => f x = true) l <-> forallb f l = true.
Proof. rewrite forallb_forall, Forall_forall. tauto. Qed.

Lemma written_strip s core : written s core ->
  Forall (fun c => is_space c = false) core -> strip s = core.
Proof.
  intros (l & r & -> & Hl & Hr) Hc. apply forall_forallb in Hl. apply forall_forallb in Hr.
  unfold strip, strip_by. rewrite lstrip_by_app by auto.
  destruct core as [|c core].
  - cbn [app]. rewrite <- (app_nil_r r). rewrite lstrip_by_app by auto. reflexivity.
  - inv Hc. cbn [app lstrip_by]. rewrite H1.
    change (c :: core ++ r) with ((c :: core) ++ r). rewrite rstrip_by_app by auto.
    apply rstrip_by_id. intros d t Ht.
    assert (In d (c :: core)) by (rewrite Ht; apply in_or_app; right; left; auto).
    destruct H as [<-|H]; auto. rewrite Forall_forall in H2. auto.
Qed.

(** What each item does to the loop. *)
Lemma items_closed s a b rest le : written s (a ++ 45 :: b) -> digits a -> digits b ->
  range_items (s :: rest) (Some le) =
  (let x := Z.of_N (digits_val a) in let y := (Z.of_N (digits_val b) + 1)%Z in
   if (x <? le)%Z || (le <? 0)%Z then Ok None else
   if (y <=? x)%Z then Ok None else
   do r <- range_items rest (Some y); Ok (option_map (cons (x, Some y)) r)).
Proof.
  intros Hs Ha Hb. cbn [range_items].
  rewrite (written_strip s (a ++ 45 :: b)); auto.
  2: { eapply item_no_space. apply im_closed; auto. }
  assert (H45 : mem 45 (a ++ 45 :: b) = true).
  { apply mem_In. apply in_or_app. right; left; auto. }
  rewrite H45. cbn [negb].
  assert (Hst : starts [45] (a ++ 45 :: b) = false).
  { destruct a as [|c a]; [destruct Ha; congruence|]. cbn [app starts].
    destruct Ha as [_ Ha]. inv Ha. replace (45 =? c) with false by lia. auto. }
  rewrite Hst. rewrite split1_app by (apply digits_not_in; auto; lia).
  unfold int_of. rewrite !digits_int by auto. cbn [bind].
  destruct b as [|c b]; [destruct Hb; congruence|]. reflexivity.
Qed.

Lemma items_open s a rest le : written s (a ++ [45]) -> digits a ->
  range_items (s :: rest) (Some le) =
  (let x := Z.of_N (digits_val a) in
   if (x <? le)%Z || (le <? 0)%Z then Ok None else
   do r <- range_items rest None; Ok (option_map (cons (x, None)) r)).
Proof.
  intros Hs Ha. cbn [range_items].
  rewrite (written_strip s (a ++ [45])); auto.
  2: { eapply item_no_space. apply im_open; auto. }
  assert (H45 : mem 45 (a ++ [45]) = true).
  { apply mem_In. apply in_or_app. right; left; auto. }
  rewrite H45. cbn [negb].
  assert (Hst : starts [45] (a ++ [45]) = false).
  { destruct a as [|c a]; [destruct Ha; congruence|]. cbn [app starts].
    destruct Ha as [_ Ha]. inv Ha. replace (45 =? c) with false by lia. auto. }
  rewrite Hst. rewrite split1_app by (apply digits_not_in; auto; lia).
  unfold int_of. rewrite !digits_int by auto. cbn [bind]. reflexivity.
Qed.

Lemma items_suffix s a rest le : written s (45 :: a) -> digits a ->
  range_items (s :: rest) (Some le) =
  (if (le <? 0)%Z then Ok None else
   do r <- range_items rest (Some (-1)%Z); Ok (option_map (cons (- Z.of_N (digits_val a), None)%Z) r)).
Proof.
  intros Hs Ha. cbn [range_items].
  rewrite (written_strip s (45 :: a)); auto.
  2: { eapply item_no_space. apply im_suffix; auto. }
  cbn [mem existsb negb starts]. change (45 =? 45) with true. cbn [orb negb andb].
  unfold int_of. apply digits_forallb in Ha as [Ha1 Ha2]. rewrite py_int_neg by auto. cbn [bind]. reflexivity.
Qed.

Lemma item_written m : (match m with (b, Some e) => 0 <= b < e | _ => True end)%Z ->
  item_means (range_item m) m.
Proof.
  destruct m as [b [e|]]; intros H; unfold range_item.
  - replace (b, Some e) with (Z.of_N (digits_val (zdec b)), Some (Z.of_N (digits_val (zdec (e - 1))) + 1)%Z).
    + apply im_closed; apply zdec_digits; lia.
    + rewrite !digits_val_zdec by lia. f_equal. f_equal. lia.
  - destruct (0 <=? b)%Z eqn:E.
    + replace (b, None) with (Z.of_N (digits_val (zdec b)), @None Z).
      * apply im_open; apply zdec_digits; lia.
      * rewrite digits_val_zdec by lia. auto.
    + rewrite zdec_neg by lia.
      replace (b, None) with ((- Z.of_N (digits_val (zdec (- b))))%Z, @None Z).
      * apply im_suffix; apply zdec_digits; lia.
      * rewrite digits_val_zdec by lia. f_equal. lia.
Qed.

Lemma written_self s : written s s.
Proof. exists [], []. cbn. rewrite app_nil_r. auto. Qed.

Lemma means_cases s m : item_means s m ->
  match m with
  | (b, Some e) => exists a c, s = a ++ 45 :: c /\ digits a /\ digits c /\ b = Z.of_N (digits_val a) /\ e = (Z.of_N (digits_val c) + 1)%Z
  | (b, None) => (exists a, s = a ++ [45] /\ digits a /\ b = Z.of_N (digits_val a)) \/
                 (exists a, s = 45 :: a /\ digits a /\ b = (- Z.of_N (digits_val a))%Z)
  end.
Proof. intros H; inv H; eauto 10. Qed.

(** Correctly written, increasing items are read as they mean. *)
Lemma items_read : forall ms lo, increasing lo ms -> (0 <= lo)%Z -> forall ss,
  Forall2 (fun s m => exists core, written s core /\ item_means core m) ss ms ->
  range_items ss (Some lo) = Ok (Some ms).
Proof.
  induction 1 as [lo|lo b e r Hb Hi IH|lo b Hb|lo b Hb]; intros Hlo ss Hf.
  - inv Hf. reflexivity.
  - inversion Hf as [|s m ss' ms' (core & Hw & Hm) Hf' E1 E2]; subst. apply means_cases in Hm.
    destruct Hm as (a & c & -> & Ha & Hc & -> & ->).
    rewrite (items_closed s a c ss' lo) by auto. cbn zeta.
    replace ((_ <? lo)%Z || (lo <? 0)%Z) with false by lia.
    replace (_ <=? _)%Z with false by lia. rewrite IH by (auto; lia). reflexivity.
  - inversion Hf as [|s m ss' ms' (core & Hw & Hm) Hf' E1 E2]; subst. inv Hf'. apply means_cases in Hm.
    destruct Hm as [(a & -> & Ha & ->)|(a & -> & Ha & ->)].
    + rewrite (items_open s a [] lo) by auto. cbn zeta.
      replace ((_ <? lo)%Z || (lo <? 0)%Z) with false by lia. reflexivity.
    + rewrite (items_suffix s a [] lo) by auto. replace (lo <? 0)%Z with false by lia. reflexivity.
  - inversion Hf as [|s m ss' ms' (core & Hw & Hm) Hf' E1 E2]; subst. inv Hf'. apply means_cases in Hm.
    destruct Hm as [(a & -> & Ha & ->)|(a & -> & Ha & ->)]; [lia|].
    rewrite (items_suffix s a [] lo) by auto. replace (lo <? 0)%Z with false by lia. reflexivity.
Qed.

Lemma join_split_items c l : l <> [] -> Forall (fun s => ~ In c s) l -> split_on c (join [c] l) = l.
Proof.
  induction l as [|s l IH]; [congruence|]. intros _ Hf. inv Hf. destruct l as [|t l].
  - cbn [join]. apply split_on_none; auto.
  - change (join [c] (s :: t :: l)) with (s ++ c :: join [c] (t :: l)). rewrite split_on_app by auto.
    rewrite IH; auto. discriminate.
Qed.

Lemma range_roundtrip u ms : ~ In 61 u -> strip u = u -> lower u = u ->
  ms <> [] -> increasing 0 ms ->
  parse_range_header (range_to_header (Rng u ms)) = Ok (Some (Rng u ms)).
Proof.
  intros Hu Hs Hl Hne Hi. unfold parse_range_header, range_to_header. cbn [r_units r_ranges].
  rewrite split1_app by auto.
  assert (Hm : forall lo r, increasing lo r -> (0 <= lo)%Z -> Forall (fun m => item_means (range_item m) m) r).
  { clear. induction 1; intros Hlo; repeat constructor; try apply item_written; auto; try lia. apply IHincreasing. lia. }
  specialize (Hm 0%Z ms Hi ltac:(lia)).
  rewrite join_split_items.
  - rewrite (items_read ms 0%Z); auto; try lia.
    + cbn [bind option_map]. rewrite Hs, Hl. reflexivity.
    + clear - Hm. induction Hm; cbn [map]; constructor; auto. exists (range_item x). split; auto. apply written_self.
  - destruct ms; [congruence|discriminate].
  - clear - Hm. induction Hm; cbn [map]; constructor; auto. eapply item_no_comma; eauto.
Qed.

Lemma items_none_le items r : range_items items None = Ok (Some r) -> r = [].
Proof.
  destruct items as [|s items]; cbn [range_items]; [intros H; inv H; auto|].
  destruct (negb _); [discriminate|]. destruct (starts _ _); [discriminate|].
  destruct (split1 _ _) as [[a b]|]; [|discriminate]. destruct (int_of a); cbn; discriminate.
Qed.
Lemma items_neg_le items r le : (le < 0)%Z -> range_items items (Some le) = Ok (Some r) -> r = [].
Proof.
  intros Hle. destruct items as [|s items]; cbn [range_items]; [intros H; inv H; auto|].
  destruct (negb _); [discriminate|]. 
  destruct (starts _ _); [replace (le <? 0)%Z with true by lia; discriminate|].
  destruct (split1 _ _) as [[a b]|]; [|discriminate]. destruct (int_of a); cbn [bind]; [|discriminate].
  replace (le <? 0)%Z with true by lia. rewrite orb_true_r. discriminate.
Qed.

Lemma int_digits_nonneg_head c r z : py_int (c :: r) = Some z -> is_space c = false -> c <> 45 -> (0 <= z)%Z.
Proof.
  unfold py_int. intros H Hc Hn. unfold strip, strip_by in H. cbn [lstrip_by] in H. rewrite Hc in H.
  destruct (rstrip_by is_space (c :: r)) as [|d t] eqn:E; [discriminate|].
  assert (d = c).
  { destruct (rstrip_by_spec is_space (c :: r)) as (u & Hu & _). rewrite E in Hu. inv Hu. auto. }
  subst d. replace (c =? 45) with false in H by lia.
  destruct (c =? 43); destruct (int_digits _); inv H; lia.
Qed.

Lemma int_leading_minus r z : py_int (45 :: r) = Some z -> (z <= 0)%Z.
Proof.
  unfold py_int. intros H. unfold strip, strip_by in H. cbn [lstrip_by] in H.
  change (is_space 45) with false in H. cbn iota in H.
  destruct (rstrip_by is_space (45 :: r)) as [|d t] eqn:E; [discriminate|].
  assert (d = 45).
  { destruct (rstrip_by_spec is_space (45 :: r)) as (u & Hu & _). rewrite E in Hu. inv Hu. auto. }
  subst d. change (45 =? 45) with true in H. cbn iota in H. destruct (int_digits t); inv H. lia.
Qed.

Lemma items_accepted : forall items lo r, (0 <= lo)%Z ->
  range_items items (Some lo) = Ok (Some r) -> accepted lo r.
Proof.
  induction items as [|s items IH]; intros lo r Hlo H; cbn [range_items] in H.
  { inv H. left. constructor. }
  destruct (negb (mem 45 (strip s))) eqn:E45; [discriminate|]. apply negb_false_iff, mem_In in E45.
  destruct (starts [45] (strip s)) eqn:Est.
  - replace (lo <? 0)%Z with false in H by lia.
    destruct (py_int (strip s)) as [b|] eqn:Eb; unfold int_of in H; rewrite Eb in H; cbn [bind] in H; [|discriminate].
    destruct (range_items items (Some (-1)%Z)) as [[r'|]|] eqn:Er; cbn in H; inv H.
    apply items_neg_le in Er; [|lia]. subst r'.
    apply starts_spec in Est as (t & Et). cbn [app] in Et. rewrite Et in Eb. apply int_leading_minus in Eb.
    destruct (Z.eq_dec b 0) as [->|Hb].
    + right. exists []. repeat split; constructor.
    + left. apply inc_suffix. lia.
  - destruct (split1 45 (strip s)) as [[bs es]|] eqn:Esp; [|discriminate].
    destruct (int_of bs) as [b|] eqn:Eb; cbn [bind] in H; [|discriminate].
    replace (lo <? 0)%Z with false in H by lia. rewrite orb_false_r in H.
    destruct (b <? lo)%Z eqn:Elo; [discriminate|].
    destruct es as [|c es].
    + destruct (range_items items None) as [[r'|]|] eqn:Er; cbn in H; inv H.
      apply items_none_le in Er. subst r'. left. apply inc_open. lia.
    + destruct (int_of (c :: es)) as [e'|] eqn:Ee; cbn [bind] in H; [|discriminate]. cbn zeta in H.
      destruct (e' + 1 <=? b)%Z eqn:Ele; [discriminate|].
      destruct (range_items items (Some (e' + 1)%Z)) as [[r'|]|] eqn:Er; cbn in H; inv H.
      apply IH in Er; [|lia]. destruct Er as [Er|(init & -> & Hi & Hf)].
      * left. apply inc_closed; auto. lia.
      * right. exists ((b, Some (e' + 1)%Z) :: init). split; auto. split.
        -- apply inc_closed; auto. lia.
        -- constructor; auto. cbn. discriminate.
Qed.

Lemma parse_accepted v u r : parse_range_header v = Ok (Some (Rng u r)) -> accepted 0 r /\ r <> [].
Proof.
  unfold parse_range_header. destruct (split1 61 v) as [[u' rng]|]; [|discriminate].
  destruct (range_items (split_on 44 rng) (Some 0%Z)) as [[r'|]|] eqn:E; cbn; intros H; inv H.
  split; [eapply items_accepted; eauto; lia|].
  destruct (split_on 44 rng) as [|s items] eqn:Es; [destruct (split_on_nonnil 44 rng); auto|].
  intros ->. cbn [range_items] in E.
  destruct (negb _); [discriminate|].
  destruct (starts [45] (strip s)).
  - change (0 <? 0)%Z with false in E. cbn iota in E. destruct (int_of _); cbn in E; [|discriminate]. destruct (range_items items _) as [[?|]|]; cbn in E; discriminate.
  - destruct (split1 45 (strip s)) as [[bs es]|]; [|discriminate]. destruct (int_of bs); cbn in E; [|discriminate].
    destruct (_ || _); [discriminate|]. destruct es.
    + destruct (range_items items _) as [[?|]|]; cbn in E; discriminate.
    + destruct (int_of _); cbn in E; [|discriminate]. destruct (_ <=? _)%Z; [discriminate|].
      destruct (range_items items _) as [[?|]|]; cbn in E; discriminate.
Qed.

(** ** Exactly what grammatical headers give *)
Lemma grammatical_no_raise ms : forall ss lo,
  Forall2 (fun s m => exists core, written s core /\ item_means core m) ss ms ->
  closed_until_last ms -> (0 <= lo)%Z ->
  range_items ss (Some lo) = Ok None \/ range_items ss (Some lo) = Ok (Some ms).
Proof.
  intros ss lo Hf Hc. revert ss lo Hf. induction Hc as [[b [e|]]|b e r Hc IH]; intros ss lo Hf Hlo.
  - inversion Hf as [|s m ss' ms' (core & Hw & Hm) Hf' E1 E2]; subst. inv Hf'. apply means_cases in Hm.
    destruct Hm as (a & c & -> & Ha & Hcd & -> & ->). rewrite (items_closed s a c [] lo) by auto. cbn zeta.
    destruct (_ || _); auto. destruct (_ <=? _)%Z; auto.
  - inversion Hf as [|s m ss' ms' (core & Hw & Hm) Hf' E1 E2]; subst. inv Hf'. apply means_cases in Hm.
    destruct Hm as [(a & -> & Ha & ->)|(a & -> & Ha & ->)].
    + rewrite (items_open s a [] lo) by auto. cbn zeta. destruct (_ || _); auto.
    + rewrite (items_suffix s a [] lo) by auto. destruct (_ <? _)%Z; auto.
  - inversion Hf as [|s m ss' ms' (core & Hw & Hm) Hf' E1 E2]; subst. apply means_cases in Hm.
    destruct Hm as (a & c & -> & Ha & Hcd & -> & ->). rewrite (items_closed s a c ss' lo) by auto. cbn zeta.
    destruct (_ || _); auto. destruct (_ <=? _)%Z; auto.
    destruct (IH ss' (Z.of_N (digits_val c) + 1)%Z Hf' ltac:(lia)) as [-> | ->]; auto.
Qed.

Lemma space_not_comma c : is_space c = true -> c <> 44.
Proof. intros H ->. discriminate. Qed.
Lemma written_no_comma s core m : written s core -> item_means core m -> ~ In 44 s.
Proof.
  intros (l & r & -> & Hl & Hr) Hm. rewrite !in_app_iff. rewrite Forall_forall in Hl, Hr.
  intros [H|[H|H]].
  - apply Hl in H. discriminate.
  - revert H. eapply item_no_comma; eauto.
  - apply Hr in H. discriminate.
Qed.

Lemma grammatical_split u ss ms : grammatical u ss ms ->
  parse_range_header (u ++ 61 :: join [44] ss) =
  (do r <- range_items ss (Some 0%Z); Ok (option_map (Rng (lower (strip u))) r)).
Proof.
  intros (Hu & Hc & Hf). unfold parse_range_header. rewrite split1_app by auto.
  rewrite join_split_items; auto.
  - intros ->. inv Hf. inv Hc.
  - clear Hc. induction Hf as [|s m ss ms (core & Hw & Hm) Hf IH]; constructor; auto.
    eapply written_no_comma; eauto.
Qed.

(** The exact reading condition of a list of meanings when the last one is zero
    and open depends on how it was written: "0-" or "-0". *)
Lemma grammatical_result u ss ms : grammatical u ss ms ->
  (increasing 0 ms -> parse_range_header (u ++ 61 :: join [44] ss) = Ok (Some (Rng (lower (strip u)) ms))) /\
  (~ accepted 0 ms -> parse_range_header (u ++ 61 :: join [44] ss) = Ok None) /\
  (exists r, parse_range_header (u ++ 61 :: join [44] ss) = Ok r).
Proof.
  intros H. rewrite (grammatical_split u ss ms H). destruct H as (_ & Hc & Hf).
  pose proof (grammatical_no_raise ms ss 0%Z Hf Hc ltac:(lia)) as Hn. split; [|split].
  - intros Ha. rewrite (items_read ms 0%Z Ha ltac:(lia) ss Hf). reflexivity.
  - intros Ha. destruct Hn as [-> | E]; auto. exfalso. apply Ha. eapply items_accepted; eauto. lia.
  - destruct Hn as [-> | ->]; cbn; eauto.
Qed.

(** ** Content-Range *)
Lemma until_space_app u s : Forall (fun c => is_space c = false) u ->
  until_space (u ++ 32 :: s) = (u, 32 :: s).
Proof.
  induction 1 as [|c u Hc Hu IH]; cbn [app until_space]; [reflexivity|].
  rewrite Hc, IH. auto.
Qed.

Definition nospace (s : str) : Prop := Forall (fun c => is_space c = false) s.
Lemma digits_nospace a : digits a -> nospace a.
Proof.
  intros [_ H]. eapply Forall_impl; [|exact H]. cbn beta. intros c Hc.
  apply is_ascii_digit_not_space. unfold is_ascii_digit, between. lia.
Qed.

Lemma strip_word_rest u r : word u -> nospace r -> r <> [] -> split_ws1 (strip (u ++ 32 :: r)) = Some (u, r).
Proof.
  intros [Hu1 Hu2] Hr Hr1.
  assert (E : strip (u ++ 32 :: r) = u ++ 32 :: r).
  { apply strip_by_id.
    - intros c t Ht. destruct u as [|c' u]; [congruence|]. inv Ht. inv Hu2. auto.
    - intros c t Ht. destruct (exists_last Hr1) as (r' & d & ->).
      rewrite app_comm_cons, app_assoc in Ht. apply app_inj_tail in Ht as [_ <-].
      apply Forall_app in Hr as [_ Hr]. inv Hr. auto. }
  rewrite E. unfold split_ws1. rewrite until_space_app by auto.
  destruct u as [|c u]; [congruence|]. cbn [lstrip_by]. change (is_space 32) with true. cbn iota.
  rewrite lstrip_by_id; auto. intros d t ->. inv Hr. auto.
Qed.

Lemma star_or_nospace n : (match n with Some n => (0 <= n)%Z | None => True end) ->
  nospace (star_or n) /\ star_or n <> [] /\ ~ In 47 (star_or n) /\
  (if eqs (star_or n) [42] then Ok (Some None)
   else if isdigit (star_or n) then do z <- int_of (star_or n); Ok (Some (Some z)) else Ok None) = Ok (Some n).
Proof.
  destruct n as [n|]; cbn [star_or]; intros H.
  - pose proof (zdec_digits n H) as Hd. split; [apply digits_nospace; auto|]. split; [apply Hd|].
    split; [apply digits_not_in; auto; lia|].
    replace (eqs (zdec n) [42]) with false.
    + replace (isdigit (zdec n)) with true.
      * unfold int_of. rewrite py_int_zdec. reflexivity.
      * symmetry. apply digits_forallb in Hd as [Hn Hf]. unfold isdigit. destruct (zdec n); [congruence|].
        eapply forallb_impl; [|exact Hf]. intros c Hc. unfold is_digit_c. rewrite Hc. auto.
    + symmetry. apply eqs_neq. intros E. rewrite E in Hd. destruct Hd as [_ Hd]. inv Hd. lia.
  - split; [repeat constructor|]. split; [discriminate|]. split; [|reflexivity]. intros [E|[]]. discriminate.
Qed.

Lemma content_range_roundtrip u s e n : word u -> valid_content s e n ->
  exists h, content_range_to_header (CR (Some u) s e n) = Ok h /\
            parse_content_range_header h = Ok (Some (CR (Some u) s e n)).
Proof.
  intros Hu Hv. assert (Hv' := proj2 (valid_spec s e n) Hv).
  destruct s as [s|], e as [e|]; try (destruct n; contradiction).
  - assert (Hse : (0 <= s < e)%Z) by (destruct n; cbn in Hv; lia).
    assert (Hn : match n with Some n => (0 <= n)%Z | None => True end) by (destruct n; cbn in Hv; auto; lia).
    destruct (star_or_nospace n Hn) as (N1 & N2 & N3 & N4).
    eexists. split; [reflexivity|]. cbn [c_length c_units c_start c_stop]. unfold parse_content_range_header.
    pose proof (zdec_digits s ltac:(lia)) as Ds. pose proof (zdec_digits (e - 1) ltac:(lia)) as De.
    rewrite strip_word_rest; auto.
    + replace (zdec s ++ 45 :: zdec (e - 1) ++ 47 :: star_or n) with ((zdec s ++ 45 :: zdec (e - 1)) ++ 47 :: star_or n)
        by (rewrite <- app_assoc; reflexivity).
      cbv iota beta. rewrite split1_app.
      2: { rewrite in_app_iff. cbn [In]. intros [Hi|[Hi|Hi]]; try lia; revert Hi; apply digits_not_in; auto; lia. }
      rewrite N4. cbn [bind].
      replace (eqs (zdec s ++ 45 :: zdec (e - 1)) [42]) with false.
      2: { symmetry. apply eqs_neq. intros E. destruct Ds as [Ds1 Ds2]. destruct (zdec s); [congruence|]. inv E. inv Ds2. lia. }
      rewrite split1_app by (apply digits_not_in; auto; lia). rewrite !py_int_zdec. cbn zeta.
      replace (e - 1 + 1)%Z with e by lia. unfold content_range_new. rewrite Hv'. reflexivity.
    + apply Forall_app. split; [apply digits_nospace; auto|]. constructor; auto.
      apply Forall_app. split; [apply digits_nospace; auto|]. constructor; auto.
    + destruct (zdec s); discriminate.
  - assert (Hn : match n with Some n => (0 <= n)%Z | None => True end) by (destruct n; cbn in Hv; auto; lia).
    destruct (star_or_nospace n Hn) as (N1 & N2 & N3 & N4).
    eexists. split; [reflexivity|]. cbn [c_length c_units c_start c_stop]. unfold parse_content_range_header.
    change (u ++ lit " */" ++ star_or n) with (u ++ 32 :: [42] ++ 47 :: star_or n).
    rewrite strip_word_rest; auto.
    + cbv iota beta. rewrite split1_app by (intros [E|[]]; discriminate). rewrite N4. cbn [bind].
      change (eqs [42] [42]) with true. cbn iota. unfold content_range_new. rewrite Hv'. reflexivity.
    + repeat (constructor; auto).
    + discriminate.
Qed.

Lemma parse_content_valid v c : parse_content_range_header v = Ok (Some c) ->
  valid_content (c_start c) (c_stop c) (c_length c) /\ (exists u, c_units c = Some u /\ u <> []).
Proof.
  unfold parse_content_range_header. destruct (split_ws1 (strip v)) as [[u d]|] eqn:E; [|discriminate].
  assert (Hu : u <> []).
  { unfold split_ws1 in E. destruct (until_space (strip v)) as [[|? ?] [|? ?]]; inv E. discriminate. }
  destruct (split1 47 d) as [[rng len]|]; [|discriminate].
  destruct (if eqs len [42] then _ else _) as [[n|]|]; cbn [bind]; try discriminate.
  unfold content_range_new. destruct (eqs rng [42]).
  - destruct (is_byte_range_valid None None n) eqn:Ev; cbn [bind]; [|discriminate]. intros H; inv H. cbn.
    apply valid_spec in Ev. split; eauto.
  - destruct (split1 45 rng) as [[a b]|]; [|discriminate].
    destruct (py_int a) as [s|], (py_int b) as [t|]; try discriminate. cbn zeta.
    destruct (is_byte_range_valid (Some s) (Some (t + 1)%Z) n) eqn:Ev; cbn [bind]; [|discriminate].
    intros H; inv H. cbn [c_start c_stop c_length c_units]. apply valid_spec in Ev. split; eauto.
Qed.

Lemma isdigit_int s : isdigit s = true -> Forall (fun c => ~ superscript c) s -> exists z, py_int s = Some z /\ (0 <= z)%Z.
Proof.
  intros H Hs. exists (Z.of_N (digits_val s)). split; [|lia]. apply py_int_digits.
  - destruct s; discriminate.
  - destruct s; [discriminate|]. unfold isdigit in H. rewrite forallb_forall in *. rewrite Forall_forall in Hs.
    intros c Hc. specialize (H c Hc). specialize (Hs c Hc). unfold is_digit_c, superscript in *. lia.
Qed.

Lemma split1_in c s a b x : split1 c s = Some (a, b) -> In x b -> In x s.
Proof. intros H Hi. apply split1_some in H as [-> _]. apply in_or_app. right; right; auto. Qed.

Lemma strip_in x s : In x (strip s) -> In x s.
Proof.
  unfold strip, strip_by. intros H.
  destruct (rstrip_by_spec is_space (lstrip_by is_space s)) as (u & Hu & _).
  destruct (lstrip_by_spec is_space s) as (w & Hw & _).
  rewrite Hw. apply in_or_app. right. rewrite Hu. apply in_or_app. left. auto.
Qed.
Lemma until_space_in s : forall a b, until_space s = (a, b) -> s = a ++ b.
Proof.
  induction s as [|c s IH]; intros a b H; cbn [until_space] in H; [inv H; auto|].
  destruct (is_space c); [inv H; auto|]. destruct (until_space s) as [x y]. inv H. cbn. f_equal. auto.
Qed.

Lemma parse_content_no_raise v : Forall (fun c => ~ superscript c) v ->
  exists r, parse_content_range_header v = Ok r.
Proof.
  intros Hv. unfold parse_content_range_header.
  destruct (split_ws1 (strip v)) as [[u d]|] eqn:E; [|eauto].
  assert (Hd : forall x, In x d -> In x v).
  { intros x Hx. apply strip_in. unfold split_ws1 in E. destruct (until_space (strip v)) as [a b] eqn:Eu.
    rewrite (until_space_in _ _ _ Eu). apply in_or_app. right.
    destruct a as [|? ?], b as [|b0 b1]; try discriminate. inversion E as [[E1 E2]].
    destruct (lstrip_by_spec is_space (b0 :: b1)) as (w & Hw & _). rewrite Hw. apply in_or_app. right.
    cbn [lstrip_by]. rewrite E2. auto. }
  destruct (split1 47 d) as [[rng len]|] eqn:Es; [|eauto].
  assert (Hlen : Forall (fun c => ~ superscript c) len).
  { rewrite Forall_forall in *. intros x Hx. apply Hv. apply Hd. eapply split1_in; eauto. }
  assert (HL : exists n, (if eqs len [42] then Ok (Some None)
                 else if isdigit len then do z <- int_of len; Ok (Some (Some z)) else Ok None) = Ok n /\
               (forall z, n = Some (Some z) -> (0 <= z)%Z)).
  { destruct (eqs len [42]); [eexists; split; [eauto|]; intros z Hz; inv Hz|].
    destruct (isdigit len) eqn:Ei; [|eexists; split; [eauto|]; intros z Hz; inv Hz].
    destruct (isdigit_int len Ei Hlen) as (z & Hz & Hz0). unfold int_of. rewrite Hz. cbn [bind].
    eexists; split; [eauto|]. intros z' Hz'. inv Hz'. auto. }
  destruct HL as (n & -> & Hn). cbn [bind]. destruct n as [n|]; [|eauto].
  destruct (eqs rng [42]).
  - unfold content_range_new. replace (is_byte_range_valid None None n) with true; cbn [bind]; eauto.
    symmetry. apply valid_spec. destruct n as [n|]; cbn; auto.
  - destruct (split1 45 rng) as [[a b]|]; [|eauto].
    destruct (py_int a) as [s|], (py_int b) as [t|]; eauto. cbn zeta. unfold content_range_new.
    destruct (is_byte_range_valid (Some s) (Some (t + 1)%Z) n); cbn [bind]; eauto.
Qed.

(** ** Cache-Control *)
Lemma cc_set_other p p' v d d' : cc_set p v d = Ok d' -> cp_key p' <> cp_key p -> cc_get p' d' = cc_get p' d.
Proof.
  intros H Hn. assert (Hg : dget d' (cp_key p') = dget d (cp_key p')).
  { unfold cc_set in H.
    destruct (cp_type p); [destruct (truthy v)| |]; try destruct v; try (destruct (dhas d (cp_key p)));
      inv H; solve [apply dget_dset_neq; auto|apply dget_ddel_neq; auto]. }
  unfold cc_get, dhas. rewrite Hg. reflexivity.
Qed.

Lemma counts_truthy v : counts v = truthy v.
Proof.
  destruct v as [| | |z|s]; cbn [counts truthy]; auto.
  - destruct (Z.eq_dec z 0); lia.
  - destruct (list_eq_dec N.eq_dec s []); destruct s; congruence.
Qed.
Lemma cc_set_get p v d d' : cc_set p v d = Ok d' -> cc_get p d' = reads_after p v.
Proof.
  unfold cc_set, cc_get, reads_after, dhas. rewrite counts_truthy. intros H.
  destruct (cp_type p); [destruct (truthy v)| |]; try destruct v;
    try (destruct (dget d (cp_key p)));
    inv H; rewrite ?dget_dset_eq, ?dget_ddel_eq; auto.
Qed.
Lemma cc_set_raises p v d : (exists e, cc_set p v d = Raise e) <->
  cp_type p <> TBool /\ v = PNone /\ dget d (cp_key p) = None.
Proof.
  unfold cc_set, dhas. split.
  - intros [e H]. destruct (cp_type p); [destruct (truthy v); discriminate| |];
      destruct v; try discriminate; destruct (dget d (cp_key p)); try discriminate; repeat split; auto; discriminate.
  - intros (H1 & -> & H3). rewrite H3. destruct (cp_type p); [congruence| |]; eauto.
Qed.

Definition keys_token (d : ccdict) : Prop := NoDup (map fst d) /\ Forall (fun kv => is_token (fst kv)) d.
Lemma ddel_forall {V} (P : str * V -> Prop) d k : Forall P d -> Forall P (ddel d k).
Proof. unfold ddel. rewrite !Forall_forall. intros H x Hx. apply filter_In in Hx. apply H. tauto. Qed.
Lemma dset_forall {V} (P : str -> Prop) (d : dict V) k v : P k -> Forall (fun kv => P (fst kv)) d ->
  Forall (fun kv => P (fst kv)) (dset d k v).
Proof.
  intros Hk. induction 1 as [|[k' v'] d Hx Hd IH]; cbn [dset]; [constructor; auto|].
  destruct (eqs k k') eqn:E; constructor; auto.
Qed.
Lemma cc_step_keys d o : keys_token d -> is_token (op_key o) -> keys_token (cc_step d o).
Proof.
  intros [H1 H2] Ho.
  assert (Hset : forall v, keys_token (dset d (op_key o) v)).
  { intros v. split; [apply dset_NoDup; auto|]. apply (dset_forall is_token); auto. }
  assert (Hdel : keys_token (ddel d (op_key o))).
  { split; [apply ddel_NoDup; auto|apply ddel_forall; auto]. }
  destruct o as [p v|p]; cbn [cc_step op_key] in *; [|apply Hdel].
  unfold cc_set. destruct (cp_type p); [destruct (truthy v)| |]; try destruct v;
    try (destruct (dhas d (cp_key p))); auto; split; auto.
Qed.
Lemma cc_run_keys ops : Forall (fun o => is_token (op_key o)) ops -> keys_token (cc_run ops).
Proof.
  unfold cc_run. assert (H : keys_token []) by (split; constructor). revert H. generalize (@nil (str * pyval)) as d.
  induction ops as [|o ops IH]; intros d Hd Ho; cbn [fold_left]; auto. inv Ho. apply IH; auto. apply cc_step_keys; auto.
Qed.

Lemma cc_header_exact d : keys_token d ->
  Forall (fun kv => match py_str (snd kv) with Some s => ~ wears_quotes s | None => True end) d ->
  parse_cache_control (cc_to_header d) = map (fun kv => (fst kv, retext (snd kv))) d.
Proof.
  intros [H1 H2] Hq. unfold parse_cache_control, cc_to_header.
  set (d' := map (fun kv => (fst kv, py_str (snd kv))) d).
  assert (E : parse_dict_header (dump_header_dict true d') = d').
  { apply dict_header_roundtrip.
    - unfold d'. rewrite map_map. cbn [fst]. auto.
    - unfold d'. clear - H2. induction H2; cbn [map]; constructor; auto.
    - unfold d'. clear - Hq. induction Hq; cbn [map]; constructor; auto.
      cbn [snd]. destruct (py_str (snd x)) eqn:Ex; auto; intros ? Hv; inv Hv; auto. }
  destruct (dump_header_dict true d') as [|c h] eqn:Eh.
  - assert (d' = []).
    { rewrite <- E. reflexivity. }
    unfold d' in H. destruct d; [reflexivity|discriminate].
  - rewrite E. unfold d'. rewrite map_map. apply map_ext. intros [k v]. reflexivity.
Qed.

Lemma dget_map {V W} (f : V -> W) (d : dict V) k :
  dget (map (fun kv => (fst kv, f (snd kv))) d) k = option_map f (dget d k).
Proof. induction d as [|[k' v] d IH]; cbn [map dget fst snd]; auto. destruct (eqs k k'); auto. Qed.

Lemma cc_header_reads d p : keys_token d ->
  Forall (fun kv => match py_str (snd kv) with Some s => ~ wears_quotes s | None => True end) d ->
  Forall (fun kv => snd kv <> PFalse /\ snd kv <> PTrue) d ->
  (cp_type p = TAny -> forall z, dget d (cp_key p) <> Some (PInt z)) ->
  cc_get p (parse_cache_control (cc_to_header d)) = cc_get p d.
Proof.
  intros Hk Hq Hf Hz. rewrite cc_header_exact by auto. unfold cc_get, dhas. rewrite dget_map.
  destruct (dget d (cp_key p)) as [v|] eqn:Ev; cbn [option_map]; [|destruct (cp_type p); auto].
  assert (Hv : v <> PFalse /\ v <> PTrue).
  { apply dget_In in Ev. rewrite Forall_forall in Hf. apply (Hf _ Ev). }
  destruct v; cbn [retext py_str]; destruct Hv; try congruence; destruct (cp_type p) eqn:Et; auto.
  - unfold retext. cbn [py_str]. rewrite py_int_zdec. auto.
  - exfalso. apply (Hz eq_refl z). auto.
Qed.

Lemma no_equals_none v : ~ In 61 v -> parse_range_header v = Ok None.
Proof. intros H. unfold parse_range_header. apply split1_none in H. rewrite H. reflexivity. Qed.

Lemma is_token_b k : negb (eqs k []) && forallb is_token_char k = true -> is_token k.
Proof.
  rewrite andb_true_iff, negb_true_iff, eqs_neq. intros [H1 H2]. split; auto.
  rewrite Forall_forall. rewrite forallb_forall in H2. intros c Hc. apply token_char_spec. auto.
Qed.
Lemma response_props_ok : NoDup (map cp_key response_props) /\ Forall (fun p => is_token (cp_key p)) response_props.
Proof.
  split.
  - repeat (apply NoDup_cons; [vm_compute; intros H; repeat (destruct H as [H|H]; [discriminate|]); exact H|]).
    apply NoDup_nil.
  - repeat (apply Forall_cons; [apply is_token_b; vm_compute; reflexivity|]). apply Forall_nil.
Qed.
Lemma content_range_made u s e n :
  (valid_content s e n -> content_range_new u s e n = Ok (CR u s e n)) /\
  (~ valid_content s e n -> content_range_new u s e n = Raise ValueError).
Proof.
  unfold content_range_new. rewrite <- valid_spec. destruct (is_byte_range_valid s e n); split; intros H; auto; [|discriminate].
  exfalso; auto.
Qed.

(** ** What any Range header gives *)
Definition state (st : stand) : option Z := match st with At z => Some z | AfterOpen => None | AfterSuffix => Some (-1)%Z end.
Definition at_ok (st : stand) : Prop := match st with At z => (0 <= z)%Z | _ => True end.

(** The dash of a stripped item: none, leading, or behind something. *)
Lemma item_cases s : (negb (mem 45 s) = true /\ ~ In 45 s) \/ (exists b, s = 45 :: b) \/
  (exists a b, s = a ++ 45 :: b /\ a <> [] /\ ~ In 45 a).
Proof.
  destruct (mem 45 s) eqn:M.
  - right. destruct (split1 45 s) as [[a b]|] eqn:S; [|apply split1_none in S; apply mem_In in M; contradiction].
    apply split1_some in S. destruct S as [-> N].
    destruct a; [left; exists b; reflexivity|right; exists (n :: a), b; split; [reflexivity|split; [discriminate|exact N]]].
  - left. split; [reflexivity|]. rewrite <- mem_In. rewrite M. discriminate.
Qed.
Lemma items_no_dash it rest le : ~ In 45 (strip it) -> range_items (it :: rest) le = Ok None.
Proof.
  intros N. cbn [range_items]. cbv zeta. replace (mem 45 (strip it)) with false; [reflexivity|].
  symmetry. apply not_true_iff_false. rewrite mem_In. exact N.
Qed.
Lemma items_dash it rest le b : strip it = 45 :: b -> range_items (it :: rest) le =
  match le with
  | None => Raise TypeError
  | Some le => if (le <? 0)%Z then Ok None else
      bind (int_of (45 :: b)) (fun x => bind (range_items rest (Some (-1)%Z)) (fun r => Ok (option_map (cons (x, None)) r)))
  end.
Proof. intros E. cbn [range_items]. cbv zeta. rewrite E. reflexivity. Qed.
Lemma items_number it rest le a b : strip it = a ++ 45 :: b -> a <> [] -> ~ In 45 a -> range_items (it :: rest) le =
  bind (int_of a) (fun x => match le with
  | None => Raise TypeError
  | Some le => if (x <? le)%Z || (le <? 0)%Z then Ok None else
      match b with
      | [] => bind (range_items rest None) (fun r => Ok (option_map (cons (x, None)) r))
      | _ => bind (int_of b) (fun e' => if (e' + 1 <=? x)%Z then Ok None else
               bind (range_items rest (Some (e' + 1)%Z)) (fun r => Ok (option_map (cons (x, Some (e' + 1)%Z)) r)))
      end
  end).
Proof.
  intros E Na Nd. cbn [range_items]. cbv zeta. rewrite E.
  replace (mem 45 (a ++ 45 :: b)) with true by (symmetry; apply mem_In; apply in_or_app; right; left; reflexivity).
  cbn [negb]. replace (starts [45] (a ++ 45 :: b)) with false.
  2:{ destruct a as [|c a]; [contradiction|]. cbn [List.app starts]. destruct (45 =? c) eqn:Ec; [|reflexivity].
      apply N.eqb_eq in Ec. subst. exfalso. apply Nd. left. reflexivity. }
  rewrite split1_app by exact Nd. reflexivity.
Qed.

Lemma no_shape s k : shape s k -> In 45 s.
Proof. intros H; inversion H; subst; try (apply in_or_app; right; left; reflexivity); left; reflexivity. Qed.
Lemma no_offence st e s : offends st e s -> In 45 s.
Proof. intros H; inversion H; subst; try (apply in_or_app; right; left; reflexivity); left; reflexivity. Qed.
Lemma first_dash a b a' b' : a ++ 45 :: b = a' ++ 45 :: b' -> ~ In 45 a -> ~ In 45 a' -> a = a' /\ b = b'.
Proof.
  intros E N N'. assert (X : split1 45 (a ++ 45 :: b) = Some (a', b')) by (apply split1_some; auto).
  rewrite split1_app in X by exact N. injection X; auto.
Qed.
Lemma lead_dash b a b' : 45 :: b = a ++ 45 :: b' -> a <> [] -> ~ In 45 a -> False.
Proof. intros E N D. destruct a; [contradiction|]. cbn in E. injection E as <- _. apply D. left. reflexivity. Qed.

(** Inversion of a shape or an offence against the form of the item. *)
Ltac dash := match goal with
  | H : _ ++ 45 :: _ = 45 :: _ |- _ => symmetry in H; exfalso; eapply lead_dash; eauto; fail
  | H : 45 :: _ = _ ++ 45 :: _ |- _ => exfalso; eapply lead_dash; eauto; fail
  | H : _ ++ 45 :: _ = _ ++ 45 :: _ |- _ => apply first_dash in H; [|assumption|assumption]; destruct H; subst
  | H : 45 :: _ = 45 :: _ |- _ => injection H as H; subst
  end; try congruence.
Ltac bad O E := rewrite E in O; inversion O; subst; repeat dash; try reflexivity; try congruence.
Lemma items_after_open items : forall e, range_items items None = Raise e <->
  exists it rest, items = it :: rest /\ offends AfterOpen e (strip it).
Proof.
  intros e. destruct items as [|it rest].
  { split; [discriminate|]. intros (? & ? & ? & ?). discriminate. }
  destruct (item_cases (strip it)) as [[_ N]|[[b E]|(a & b & E & Na & Nd)]].
  - rewrite items_no_dash by exact N. split; [discriminate|]. intros (i & r & X & O). inv X. apply no_offence in O. contradiction.
  - rewrite (items_dash _ _ _ _ E). split.
    + intros X. inv X. exists it, rest. split; [reflexivity|]. rewrite E. constructor.
    + intros (i & r & X & O). inv X. bad O E.
  - rewrite (items_number _ _ _ _ _ E Na Nd). unfold int_of. destruct (py_int a) as [x|] eqn:Ea; cbn [bind]; split.
    + intros X. inv X. exists it, rest. split; [reflexivity|]. rewrite E. econstructor; eauto.
    + intros (i & r & X & O). inv X. bad O E.
    + intros X. inv X. exists it, rest. split; [reflexivity|]. rewrite E. econstructor; eauto.
    + intros (i & r & X & O). inv X. bad O E.
Qed.
Lemma items_after_suffix items : forall e, range_items items (Some (-1)%Z) = Raise e <->
  exists it rest, items = it :: rest /\ offends AfterSuffix e (strip it).
Proof.
  intros e. destruct items as [|it rest].
  { split; [discriminate|]. intros (? & ? & ? & ?). discriminate. }
  destruct (item_cases (strip it)) as [[_ N]|[[b E]|(a & b & E & Na & Nd)]].
  - rewrite items_no_dash by exact N. split; [discriminate|]. intros (i & r & X & O). inv X. apply no_offence in O. contradiction.
  - rewrite (items_dash _ _ _ _ E). split; [discriminate|].
    intros (i & r & X & O). inv X. bad O E.
  - rewrite (items_number _ _ _ _ _ E Na Nd). unfold int_of. destruct (py_int a) as [x|] eqn:Ea; cbn [bind].
    + rewrite orb_true_r. split; [discriminate|]. intros (i & r & X & O). inv X. bad O E.
    + split.
      * intros X. inv X. exists it, rest. split; [reflexivity|]. rewrite E. econstructor; eauto.
      * intros (i & r & X & O). inv X. bad O E.
Qed.
Lemma items_none_some items r : range_items items None = Ok (Some r) <-> items = [] /\ r = [].
Proof.
  split; [|intros [-> ->]; reflexivity]. destruct items as [|it rest]; [intros H; inv H; auto|].
  destruct (item_cases (strip it)) as [[_ N]|[[b E]|(a & b & E & Na & Nd)]].
  - rewrite items_no_dash by exact N. discriminate.
  - rewrite (items_dash _ _ _ _ E). discriminate.
  - rewrite (items_number _ _ _ _ _ E Na Nd). unfold int_of. destruct (py_int a); discriminate.
Qed.
Lemma items_suffix_some items r : range_items items (Some (-1)%Z) = Ok (Some r) <-> items = [] /\ r = [].
Proof.
  split; [|intros [-> ->]; reflexivity]. destruct items as [|it rest]; [intros H; inv H; auto|].
  destruct (item_cases (strip it)) as [[_ N]|[[b E]|(a & b & E & Na & Nd)]].
  - rewrite items_no_dash by exact N. discriminate.
  - rewrite (items_dash _ _ _ _ E). discriminate.
  - rewrite (items_number _ _ _ _ _ E Na Nd). unfold int_of. destruct (py_int a); cbn [bind]; [rewrite orb_true_r|]; discriminate.
Qed.

(** One step of the reading, at a position. *)
Inductive at_step (lo : Z) (it : str) : Prop :=
| as_dash (H : ~ In 45 (strip it))
| as_shape k (H : says it k) (F : fine lo [k])
| as_off e (H : offends (At lo) e (strip it))
| as_low a b x (E : strip it = a ++ 45 :: b) (Na : a <> []) (Nd : ~ In 45 a) (Ha : py_int a = Some x) (L : (x < lo)%Z)
| as_empty a b x y (E : strip it = a ++ 45 :: b) (Na : a <> []) (Nd : ~ In 45 a) (Ha : py_int a = Some x) (Nb : b <> [])
    (Hb : py_int b = Some y) (L : (y + 1 <= x)%Z).
Lemma at_cases lo it : at_step lo it.
Proof.
  destruct (item_cases (strip it)) as [[_ N]|[[b E]|(a & b & E & Na & Nd)]].
  - apply as_dash. exact N.
  - destruct (py_int (45 :: b)) as [y|] eqn:Eb.
    + apply (as_shape _ _ (Suffix y)); [|constructor]. unfold says. rewrite E. constructor. exact Eb.
    + apply (as_off _ _ ValueError). rewrite E. constructor. exact Eb.
  - destruct (py_int a) as [x|] eqn:Ea.
    2:{ apply (as_off _ _ ValueError). rewrite E. apply off_first; auto. }
    destruct (Z_lt_ge_dec x lo) as [L|L]; [eapply as_low; eauto|].
    destruct b as [|c b].
    { apply (as_shape _ _ (Open x)); [|constructor; lia]. unfold says. rewrite E. constructor; auto. }
    destruct (py_int (c :: b)) as [y|] eqn:Eb.
    2:{ apply (as_off _ _ ValueError). rewrite E. eapply off_second; eauto; [lia|discriminate]. }
    destruct (Z_le_gt_dec (y + 1) x) as [M|M]; [eapply as_empty; eauto; discriminate|].
    apply (as_shape _ _ (Closed x (y + 1))); [|constructor; [lia|constructor]]. unfold says. rewrite E. constructor; auto. discriminate.
Qed.
Ltac ints := repeat match goal with X : py_int _ = _ |- _ => rewrite X; clear X end.
Definition next (k : kind) : option Z := match k with Closed _ e => Some e | Open _ => None | Suffix _ => Some (-1)%Z end.
Lemma items_says lo it rest k : (0 <= lo)%Z -> says it k -> fine lo [k] ->
  range_items (it :: rest) (Some lo) = bind (range_items rest (next k)) (fun r => Ok (option_map (cons (as_range k)) r)).
Proof.
  intros P S F. unfold says in S. inversion S; subst.
  - inv F. rewrite (items_number _ _ _ a b) by auto. unfold int_of. ints. cbn [bind].
    replace ((x <? lo)%Z || (lo <? 0)%Z) with false by (symmetry; apply orb_false_iff; split; apply Z.ltb_ge; lia).
    destruct b; [contradiction|]. replace (y + 1 <=? x)%Z with false by (symmetry; apply Z.leb_gt; lia). reflexivity.
  - inv F. rewrite (items_number _ _ _ a []) by auto. unfold int_of. ints. cbn [bind].
    replace ((x <? lo)%Z || (lo <? 0)%Z) with false by (symmetry; apply orb_false_iff; split; apply Z.ltb_ge; lia). reflexivity.
  - rewrite (items_dash _ _ _ b) by auto. replace (lo <? 0)%Z with false by (symmetry; apply Z.ltb_ge; lia).
    unfold int_of. ints. reflexivity.
Qed.
Lemma items_off lo it rest e : (0 <= lo)%Z -> offends (At lo) e (strip it) -> range_items (it :: rest) (Some lo) = Raise e.
Proof.
  intros P O. inversion O; subst.
  - rewrite (items_dash _ _ _ b) by auto. replace (lo <? 0)%Z with false by (symmetry; apply Z.ltb_ge; lia).
    unfold int_of. ints. reflexivity.
  - rewrite (items_number _ _ _ a b) by auto. unfold int_of. ints. reflexivity.
  - rewrite (items_number _ _ _ a b) by auto. unfold int_of. ints. cbn [bind].
    replace ((x <? lo)%Z || (lo <? 0)%Z) with false by (symmetry; apply orb_false_iff; split; apply Z.ltb_ge; lia).
    destruct b; [contradiction|]. ints. reflexivity.
Qed.
Lemma bind_cons_raise (x : res (option (list (Z * option Z)))) p e :
  bind x (fun r => Ok (option_map (cons p) r)) = Raise e <-> x = Raise e.
Proof. destruct x; cbn; split; congruence. Qed.
Lemma bind_cons_some (x : res (option (list (Z * option Z)))) p ms :
  bind x (fun r => Ok (option_map (cons p) r)) = Ok (Some ms) <-> exists r, x = Ok (Some r) /\ ms = p :: r.
Proof.
  destruct x as [[r|]|]; cbn; split; try discriminate.
  - intros H. inv H. exists r. auto.
  - intros (r' & H & ->). inv H. reflexivity.
  - intros (r' & H & ->). discriminate.
  - intros (r' & H & ->). discriminate.
Qed.
Lemma fine_first lo k ks : fine lo (k :: ks) -> fine lo [k].
Proof. intros F. inversion F; subst; constructor; auto. constructor. Qed.

Lemma items_raise : forall items lo e, (0 <= lo)%Z -> (range_items items (Some lo) = Raise e <->
  exists pre it rest ks, items = pre ++ it :: rest /\ Forall2 says pre ks /\ fine lo ks /\ offends (stands lo ks) e (strip it)).
Proof.
  induction items as [|it items IH]; intros lo e P.
  { split; [discriminate|]. intros ([|? ?] & ? & ? & ? & X & _); discriminate. }
  split.
  - intros R. destruct (at_cases lo it) as [N|k S F|e' O|a b x E Na Nd Ha L|a b x y E Na Nd Ha Nb Hb L].
    + rewrite items_no_dash in R by exact N. discriminate.
    + rewrite (items_says lo it items k P S F) in R. apply bind_cons_raise in R. destruct k as [b e'|b|n]; cbn [next] in R.
      * inversion F; subst. apply IH in R; [|lia]. destruct R as (pre & i & rest & ks & -> & A & B & C).
        exists (it :: pre), i, rest, (Closed b e' :: ks). split; [reflexivity|]. split; [constructor; auto|].
        split; [constructor; auto|exact C].
      * apply items_after_open in R. destruct R as (i & rest & -> & O). exists [it], i, rest, [Open b].
        split; [reflexivity|]. split; [repeat constructor; exact S|]. split; [exact F|exact O].
      * apply items_after_suffix in R. destruct R as (i & rest & -> & O). exists [it], i, rest, [Suffix n].
        split; [reflexivity|]. split; [repeat constructor; exact S|]. split; [exact F|exact O].
    + rewrite (items_off lo it items e' P O) in R. inv R. exists [], it, items, [].
      split; [reflexivity|]. split; [constructor|]. split; [constructor|exact O].
    + rewrite (items_number _ _ _ a b) in R by auto. unfold int_of in R. rewrite Ha in R. cbn [bind] in R.
      replace (x <? lo)%Z with true in R by (symmetry; apply Z.ltb_lt; lia). discriminate.
    + rewrite (items_number _ _ _ a b) in R by auto. unfold int_of in R. rewrite Ha, Hb in R. cbn [bind] in R.
      replace (y + 1 <=? x)%Z with true in R by (symmetry; apply Z.leb_le; lia).
      destruct ((x <? lo)%Z || (lo <? 0)%Z); [discriminate|]. destruct b; [contradiction|discriminate].
  - intros (pre & i & rest & ks & X & A & F & O). destruct A as [|p k pre ks S A].
    + cbn in X, O. inv X. apply items_off; auto.
    + cbn [List.app] in X. injection X as -> ->. rewrite (items_says lo p _ k P S (fine_first _ _ _ F)). apply bind_cons_raise.
      destruct k as [b e'|b|n]; cbn [next stands] in *.
      * inversion F; subst. apply IH; [lia|]. exists pre, i, rest, ks. auto.
      * apply items_after_open. inversion F; subst. inversion A; subst. exists i, rest. auto.
      * apply items_after_suffix. inversion F; subst. inversion A; subst. exists i, rest. auto.
Qed.
Lemma items_some : forall items lo ms, (0 <= lo)%Z -> (range_items items (Some lo) = Ok (Some ms) <->
  exists ks, Forall2 says items ks /\ fine lo ks /\ ms = map as_range ks).
Proof.
  induction items as [|it items IH]; intros lo ms P.
  { split.
    - intros H. inv H. exists []. split; [constructor|]. split; [constructor|reflexivity].
    - intros (ks & A & _ & ->). inversion A. reflexivity. }
  split.
  - intros R. destruct (at_cases lo it) as [N|k S F|e' O|a b x E Na Nd Ha L|a b x y E Na Nd Ha Nb Hb L].
    + rewrite items_no_dash in R by exact N. discriminate.
    + rewrite (items_says lo it items k P S F) in R. apply bind_cons_some in R. destruct R as (r & R & ->).
      destruct k as [b e'|b|n]; cbn [next] in R.
      * inversion F; subst. apply IH in R; [|lia]. destruct R as (ks & A & B & ->).
        exists (Closed b e' :: ks). split; [constructor; auto|]. split; [constructor; auto|reflexivity].
      * apply items_none_some in R. destruct R as [-> ->]. exists [Open b]. split; [repeat constructor; exact S|]. split; [exact F|reflexivity].
      * apply items_suffix_some in R. destruct R as [-> ->]. exists [Suffix n]. split; [repeat constructor; exact S|]. split; [exact F|reflexivity].
    + rewrite (items_off lo it items e' P O) in R. discriminate.
    + rewrite (items_number _ _ _ a b) in R by auto. unfold int_of in R. rewrite Ha in R. cbn [bind] in R.
      replace (x <? lo)%Z with true in R by (symmetry; apply Z.ltb_lt; lia). discriminate.
    + rewrite (items_number _ _ _ a b) in R by auto. unfold int_of in R. rewrite Ha, Hb in R. cbn [bind] in R.
      replace (y + 1 <=? x)%Z with true in R by (symmetry; apply Z.leb_le; lia).
      destruct ((x <? lo)%Z || (lo <? 0)%Z); [discriminate|]. destruct b; [contradiction|discriminate].
  - intros (ks & A & F & ->). inversion A as [|? k ? ks' S A']; subst. rewrite (items_says lo it items k P S (fine_first _ _ _ F)).
    apply bind_cons_some. exists (map as_range ks'). split; [|reflexivity].
    destruct k as [b e'|b|n]; cbn [next].
    + inversion F; subst. apply IH; [lia|]. exists ks'. auto.
    + inversion F; subst. inversion A'; subst. reflexivity.
    + inversion F; subst. inversion A'; subst. reflexivity.
Qed.
Lemma header_raises v e : parse_range_header v = Raise e <->
  exists u pre it rest ks, v = u ++ 61 :: join [44] (pre ++ it :: rest) /\ ~ In 61 u /\
    Forall (fun s => ~ In 44 s) (pre ++ it :: rest) /\
    Forall2 says pre ks /\ fine 0 ks /\ offends (stands 0 ks) e (strip it).
Proof.
  unfold parse_range_header. split.
  - destruct (split1 61 v) as [[u r]|] eqn:S; [|discriminate]. apply split1_some in S. destruct S as [-> N].
    destruct (range_items (split_on 44 r) (Some 0%Z)) eqn:R; cbn [bind]; [discriminate|]. intros X. inv X.
    apply items_raise in R; [|lia]. destruct R as (pre & it & rest & ks & X & A & B & C).
    exists u, pre, it, rest, ks. rewrite <- X. rewrite join_split. split; [reflexivity|]. split; [exact N|].
    split; [apply split_on_parts|]. auto.
  - intros (u & pre & it & rest & ks & -> & N & D & A & B & C).
    rewrite split1_app by exact N. rewrite join_split_items; [|destruct pre; discriminate|exact D].
    replace (range_items (pre ++ it :: rest) (Some 0%Z)) with (Raise e : res (option (list (Z * option Z)))); [reflexivity|].
    symmetry. apply items_raise; [lia|]. exists pre, it, rest, ks. auto.
Qed.
Lemma header_accepts v w ms : parse_range_header v = Ok (Some (Rng w ms)) <->
  exists u items ks, v = u ++ 61 :: join [44] items /\ ~ In 61 u /\ items <> [] /\ Forall (fun s => ~ In 44 s) items /\
    w = lower (strip u) /\ Forall2 says items ks /\ fine 0 ks /\ ms = map as_range ks.
Proof.
  unfold parse_range_header. split.
  - destruct (split1 61 v) as [[u r]|] eqn:S; [|discriminate]. apply split1_some in S. destruct S as [-> N].
    destruct (range_items (split_on 44 r) (Some 0%Z)) as [[x|]|] eqn:R; cbn [bind option_map]; try discriminate. intros X. inv X.
    apply items_some in R; [|lia]. destruct R as (ks & A & B & ->).
    exists u, (split_on 44 r), ks. rewrite join_split. split; [reflexivity|]. split; [exact N|]. split; [apply split_on_nonnil|].
    split; [apply split_on_parts|]. auto.
  - intros (u & items & ks & -> & N & NN & D & -> & A & B & ->).
    rewrite split1_app by exact N. rewrite join_split_items by auto.
    replace (range_items items (Some 0%Z)) with (Ok (Some (map as_range ks))); [reflexivity|].
    symmetry. apply items_some; [lia|]. exists ks. auto.
Qed.

(** ** What any Content-Range header gives *)
Lemma until_space_spec s : forall a b, until_space s = (a, b) <->
  s = a ++ b /\ nospace a /\ (b = [] \/ exists c t, b = c :: t /\ is_space c = true).
Proof.
  induction s as [|c s IH]; intros a b; cbn [until_space].
  - split.
    + intros H. inv H. split; [reflexivity|]. split; [constructor|left; reflexivity].
    + intros (H & _). destruct a; [|discriminate]. cbn in H. subst. reflexivity.
  - destruct (is_space c) eqn:E.
    + split.
      * intros H. inv H. split; [reflexivity|]. split; [constructor|]. right. exists c, s. auto.
      * intros (H & N & _). destruct a as [|d a]; [cbn in H; subst; reflexivity|]. cbn in H. inv H. inv N. congruence.
    + destruct (until_space s) as [x y] eqn:U. destruct (IH x y) as [A _]. destruct (A eq_refl) as (-> & B & C). split.
      * intros H. inv H. split; [reflexivity|]. split; [constructor; auto|exact C].
      * intros (H & N & D). destruct a as [|d a].
        { cbn in H. subst b. destruct D as [D|(c' & t & D & F)]; [discriminate|]. inv D. congruence. }
        cbn in H. injection H as <- H. inv N. assert (X : (x, y) = (a, b)) by (apply IH; auto). inv X. reflexivity.
Qed.
Lemma lstrip_head x y : is_space 47 = false -> lstrip_by is_space (x ++ 47 :: y) = lstrip_by is_space x ++ 47 :: y.
Proof. intros E. induction x as [|c x IH]; cbn [List.app lstrip_by]; [rewrite E; reflexivity|]. destruct (is_space c); [exact IH|reflexivity]. Qed.
Lemma parts_spec v u rng len : (exists d, split_ws1 (strip v) = Some (u, d) /\ split1 47 d = Some (rng, len)) <-> content_parts v u rng len.
Proof.
  split.
  - intros (d & A & B). apply split1_some in B. destruct B as [-> N].
    unfold split_ws1 in A. destruct (until_space (strip v)) as [a b] eqn:U. apply until_space_spec in U. destruct U as (U & Na & Sb).
    destruct a as [|a0 a]; [discriminate|]. destruct b as [|b0 b]; [discriminate|].
    assert (Eu : a0 :: a = u) by congruence. assert (Ed : lstrip_by is_space (b0 :: b) = rng ++ 47 :: len) by congruence. clear A.
    destruct Sb as [Sb|(c & t & Sb & Sc)]; [discriminate|]. inv Sb.
    destruct (lstrip_by_spec is_space (c :: t)) as (sp & E1 & E2 & E3). rewrite Ed in *.
    destruct (lstrip_by_spec is_space v) as (l & F1 & F2 & _).
    destruct (rstrip_by_spec is_space (lstrip_by is_space v)) as (r & G1 & G2 & G3).
    fold (strip_by is_space v) in G1, G3. fold (strip v) in G1, G3. rewrite U, E1 in G1, G3.
    assert (Nsp : sp <> []). { intros ->. cbn in E1. destruct rng as [|g rng]; cbn in E1; inv E1; [discriminate|]. specialize (E3 g _ eq_refl). congruence. }
    exists l, sp, r. split; [|split; [apply forall_forallb; exact F2|split; [apply forall_forallb; exact E2|split; [exact Nsp|split; [apply forall_forallb; exact G2|split; [|split; [exact N|split]]]]]]].
    + rewrite F1, G1. repeat (rewrite <- ?app_assoc; cbn [List.app]). reflexivity.
    + split; [discriminate|exact Na].
    + intros g w ->. apply (E3 g (w ++ 47 :: len)). reflexivity.
    + intros g w ->. apply (G3 g ((a0 :: a) ++ sp ++ rng ++ 47 :: w)). repeat (rewrite <- ?app_assoc; cbn [List.app]). reflexivity.
  - intros (l & sp & r & -> & Hl & Hs & Ns & Hr & [Wu Wn] & N & H1 & H2). exists (rng ++ 47 :: len). split; [|apply split1_app; exact N].
    assert (ES : strip (l ++ u ++ sp ++ rng ++ 47 :: len ++ r) = u ++ sp ++ rng ++ 47 :: len).
    { unfold strip, strip_by. apply forall_forallb in Hl. apply forall_forallb in Hr.
      rewrite lstrip_by_app by exact Hl. rewrite lstrip_by_id.
      2:{ intros c t E. destruct u as [|c' u]; [contradiction|]. inv E. inv Wn. auto. }
      replace (u ++ sp ++ rng ++ 47 :: len ++ r) with ((u ++ sp ++ rng ++ 47 :: len) ++ r) by (repeat (rewrite <- ?app_assoc; cbn [List.app]); reflexivity).
      rewrite rstrip_by_app by exact Hr. apply rstrip_by_id. intros c t E.
      destruct (list_eq_dec N.eq_dec len []) as [->|Nl].
      - rewrite !app_assoc in E. apply app_inj_tail in E. destruct E as [_ <-]. reflexivity.
      - destruct (exists_last Nl) as (w & g & ->). replace (u ++ sp ++ rng ++ 47 :: w ++ [g]) with ((u ++ sp ++ rng ++ 47 :: w) ++ [g]) in E by (repeat (rewrite <- ?app_assoc; cbn [List.app]); reflexivity).
        apply app_inj_tail in E. destruct E as [_ <-]. apply (H2 g w). reflexivity. }
    rewrite ES. unfold split_ws1. destruct sp as [|c sp]; [contradiction|]. inversion Hs as [|? ? Hc Hs']; subst.
    replace (until_space (u ++ (c :: sp) ++ rng ++ 47 :: len)) with (u, (c :: sp) ++ rng ++ 47 :: len).
    2:{ symmetry. apply until_space_spec. split; [reflexivity|]. split; [exact Wn|]. right. exists c, (sp ++ rng ++ 47 :: len). auto. }
    destruct u as [|u0 u]; [contradiction|]. cbn [List.app lstrip_by]. rewrite Hc. apply forall_forallb in Hs'.
    rewrite lstrip_by_app by exact Hs'. rewrite lstrip_by_id; [reflexivity|].
    intros g t E. destruct rng as [|g' rng]; inv E; [reflexivity|]. eapply H1. reflexivity.
Qed.

Lemma int_digits_all s : forallb is_digit_c s = true -> forall d, int_digits s = Some d -> forallb is_ascii_digit s = true.
Proof.
  induction s as [|c s IH]; intros F d E; [reflexivity|]. cbn [forallb] in *. apply andb_true_iff in F. destruct F as [Fc F].
  cbn [int_digits] in E. destruct (is_ascii_digit c); [|discriminate]. cbn [andb].
  destruct s as [|e s]; [reflexivity|]. destruct (e =? 95) eqn:E95.
  - apply N.eqb_eq in E95. subst. discriminate F.
  - destruct (int_digits (e :: s)) eqn:X; [|discriminate]. eapply IH; eauto.
Qed.
Lemma isdigit_facts s : isdigit s = true ->
  (digits s /\ py_int s = Some (Z.of_N (digits_val s))) \/ (false_digits s /\ py_int s = None).
Proof.
  intros H. assert (Ns : s <> []) by (destruct s; discriminate).
  assert (F : forallb is_digit_c s = true) by (destruct s; [discriminate|exact H]).
  destruct (forallb is_ascii_digit s) eqn:A.
  - left. assert (D : digits s) by (apply digits_forallb; auto). split; [exact D|apply digits_int; exact D].
  - right. split.
    + split.
      * rewrite forallb_forall in F. apply Forall_forall. intros c Hc. specialize (F c Hc).
        unfold is_digit_c, is_ascii_digit, between, superscript in *. lia.
      * apply not_true_iff_false in A. apply Exists_exists. apply not_true_iff_false in A.
        assert (X : exists c, In c s /\ is_ascii_digit c = false).
        { clear -A. induction s as [|c s IH]; [discriminate|]. cbn in A. destruct (is_ascii_digit c) eqn:E.
          - destruct (IH A) as (d & Hd & Ed). exists d. split; [right; exact Hd|exact Ed].
          - exists c. split; [left; reflexivity|exact E]. }
        destruct X as (c & Hc & Ec). exists c. split; [exact Hc|]. rewrite forallb_forall in F. specialize (F c Hc).
        unfold is_digit_c, superscript in *. rewrite Ec in F. lia.
    + assert (NS : strip s = s).
      { apply strip_by_none. rewrite forallb_forall in *. intros c Hc. specialize (F c Hc). unfold is_digit_c in F.
        destruct (is_ascii_digit c) eqn:E; [rewrite is_ascii_digit_not_space by exact E; reflexivity|]. cbn in F.
        repeat (apply orb_true_iff in F; destruct F as [F|F]); apply N.eqb_eq in F; subst c; reflexivity. }
      unfold py_int. rewrite NS. destruct s as [|c s]; [contradiction|].
      assert (Fc : is_digit_c c = true) by (cbn in F; apply andb_true_iff in F; tauto).
      replace (c =? 45) with false; [replace (c =? 43) with false|].
      * destruct (int_digits (c :: s)) eqn:X; [|reflexivity]. rewrite (int_digits_all _ F _ X) in A. discriminate.
      * symmetry. apply N.eqb_neq. intros ->. discriminate Fc.
      * symmetry. apply N.eqb_neq. intros ->. discriminate Fc.
Qed.
Lemma digits_isdigit s : digits s -> isdigit s = true.
Proof.
  intros D. apply digits_forallb in D. destruct D as [N D]. destruct s; [contradiction|]. unfold isdigit.
  rewrite forallb_forall in *. intros c Hc. unfold is_digit_c. rewrite (D c Hc). reflexivity.
Qed.
Lemma false_isdigit s : false_digits s -> isdigit s = true.
Proof.
  intros [F X]. destruct s; [inversion X|]. unfold isdigit. rewrite forallb_forall. rewrite Forall_forall in F.
  intros c Hc. specialize (F c Hc). unfold is_digit_c, is_ascii_digit, between, superscript in *. lia.
Qed.
Lemma false_not_digits s : false_digits s -> ~ digits s.
Proof.
  intros [_ X] [_ D]. apply Exists_exists in X. destruct X as (c & Hc & S). rewrite Forall_forall in D. specialize (D c Hc).
  unfold superscript in S. lia.
Qed.

Definition length_of (len : str) : res (option (option Z)) :=
  if eqs len [42] then Ok (Some None) else if isdigit len then do n <- int_of len; Ok (Some (Some n)) else Ok None.
Lemma length_of_spec len :
  (forall n, length_of len = Ok (Some n) <-> length_says len n) /\
  (forall e, length_of len = Raise e <-> e = ValueError /\ false_digits len).
Proof.
  unfold length_of, length_says, int_of. destruct (eqs len [42]) eqn:E.
  - apply eqs_eq in E. subst. split.
    + intros n. split.
      * intros H. inv H. left. auto.
      * intros [[_ ->]|[[_ D] _]]; [reflexivity|]. inv D. lia.
    + intros e. split; [discriminate|]. intros [_ [F _]]. inv F. unfold superscript in *. lia.
  - destruct (isdigit len) eqn:D.
    + destruct (isdigit_facts len D) as [[A B]|[A B]]; rewrite B; cbn [bind]; split.
      * intros n. split; [intros H; inv H; right; auto|]. intros [[-> _]|[_ ->]]; [discriminate|reflexivity].
      * intros e. split; [discriminate|]. intros [_ F]. apply false_not_digits in F. contradiction.
      * intros n. split; [discriminate|]. intros [[-> _]|[F _]]; [discriminate|]. apply false_not_digits in A. contradiction.
      * intros e. split; [intros H; inv H; auto|]. intros [-> _]. reflexivity.
    + split.
      * intros n. split; [discriminate|]. intros [[-> _]|[F _]]; [discriminate|]. apply digits_isdigit in F. congruence.
      * intros e. split; [discriminate|]. intros [_ F]. apply false_isdigit in F. congruence.
Qed.
Lemma parse_content_def v : parse_content_range_header v =
  match split_ws1 (strip v) with
  | None => Ok None
  | Some (units, d) => match split1 47 d with
    | None => Ok None
    | Some (rng, len) => do n <- length_of len;
        match n with
        | None => Ok None
        | Some length => if eqs rng [42] then do c <- content_range_new (Some units) None None length; Ok (Some c)
            else match split1 45 rng with
            | None => Ok None
            | Some (a, b) => match py_int a, py_int b with
                | Some s, Some t => if is_byte_range_valid (Some s) (Some (t + 1)%Z) length
                      then do c <- content_range_new (Some units) (Some s) (Some (t + 1)%Z) length; Ok (Some c) else Ok None
                | _, _ => Ok None
                end
            end
        end
    end
  end.
Proof. reflexivity. Qed.
Lemma length_nonneg len n : length_says len (Some n) -> (0 <= n)%Z.
Proof. intros [[_ H]|[_ H]]; inv H. lia. Qed.

Lemma content_raises v e : parse_content_range_header v = Raise e <->
  e = ValueError /\ exists u rng len, content_parts v u rng len /\ false_digits len.
Proof.
  rewrite parse_content_def. split.
  - destruct (split_ws1 (strip v)) as [[u d]|] eqn:A; [|discriminate].
    destruct (split1 47 d) as [[rng len]|] eqn:B; [|discriminate].
    assert (P : content_parts v u rng len) by (apply parts_spec; exists d; auto).
    destruct (length_of_spec len) as [L1 L2]. destruct (length_of len) as [[n|]|e'] eqn:L; cbn [bind]; [|discriminate|].
    + assert (V : is_byte_range_valid None None n = true).
      { apply valid_spec. destruct n as [n|]; cbn; [|exact I]. apply (length_nonneg len). apply L1. reflexivity. }
      unfold content_range_new. rewrite V. destruct (eqs rng [42]); [discriminate|].
      destruct (split1 45 rng) as [[a b]|]; [|discriminate]. destruct (py_int a), (py_int b); try discriminate.
      match goal with |- context [if ?c then _ else _] => destruct c end; discriminate.
    + intros H. inv H.
      destruct (L2 e) as [X _]. destruct (X eq_refl) as [-> F]. split; [reflexivity|]. exists u, rng, len. auto.
  - intros (-> & u & rng & len & P & F). apply parts_spec in P. destruct P as (d & -> & ->).
    destruct (length_of_spec len) as [_ L2]. replace (length_of len) with (Raise ValueError : res (option (option Z))); [reflexivity|].
    symmetry. apply L2. auto.
Qed.
Lemma content_reads v u s e n : parse_content_range_header v = Ok (Some (CR (Some u) s e n)) <->
  exists rng len, content_parts v u rng len /\ length_says len n /\ range_says rng s e /\ valid_content s e n.
Proof.
  rewrite parse_content_def. split.
  - destruct (split_ws1 (strip v)) as [[u' d]|] eqn:A; [|discriminate].
    destruct (split1 47 d) as [[rng len]|] eqn:B; [|discriminate].
    assert (P : content_parts v u' rng len) by (apply parts_spec; exists d; auto).
    destruct (length_of_spec len) as [L1 _]. destruct (length_of len) as [[m|]|e'] eqn:L; cbn [bind]; try discriminate.
    assert (LS : length_says len m) by (apply L1; reflexivity). unfold content_range_new.
    destruct (eqs rng [42]) eqn:S.
    + destruct (is_byte_range_valid None None m) eqn:V; cbn [bind]; [|discriminate]. intros H. inv H.
      apply eqs_eq in S. subst. apply valid_spec in V. exists [42], len. split; [exact P|]. split; [exact LS|]. split; [left; auto|exact V].
    + destruct (split1 45 rng) as [[a b]|] eqn:D; [|discriminate]. apply split1_some in D. destruct D as [-> D].
      destruct (py_int a) as [x|] eqn:Ea; [|discriminate]. destruct (py_int b) as [y|] eqn:Eb; [|discriminate].
      destruct (is_byte_range_valid _ _ m) eqn:V; cbn [bind]; [|discriminate]. intros H. inv H. apply valid_spec in V.
      exists (a ++ 45 :: b), len. split; [exact P|]. split; [exact LS|]. split; [|exact V]. right. exists a, b, x, y. auto 10.
  - intros (rng & len & P & LS & R & V). apply parts_spec in P. destruct P as (d & -> & ->).
    destruct (length_of_spec len) as [L1 _]. apply L1 in LS. rewrite LS. cbn [bind]. apply valid_spec in V.
    destruct R as [(-> & -> & ->)|(a & b & x & y & -> & D & Ea & Eb & -> & ->)].
    + cbn [eqs]. unfold content_range_new. rewrite V. reflexivity.
    + replace (eqs (a ++ 45 :: b) [42]) with false.
      2:{ symmetry. apply eqs_neq. destruct a as [|c [|]]; discriminate. }
      rewrite split1_app by exact D. rewrite Ea, Eb. unfold content_range_new. rewrite V. reflexivity.
Qed.
