(** Proofs about cookies. *)
From Coq Require Import Arith List NArith ZArith Bool Lia ZifyBool ZifyN ZifyNat.
From Verif Require Import PyStr PyStrFacts Regex RegexFacts Utf8 Utf8Facts ModelUrls SpecUrls ProofUrls ProofIri
  ModelCookie SpecCookie.
Import ListNotations.
Open Scope N_scope.

(** ** Quoting *)
Lemma legal_char_spec c : legal_cookie_char c = true <-> name_char c.
Proof.
  unfold legal_cookie_char, name_char, is_ascii_alnum, is_ascii_alpha, is_ascii_upper, is_ascii_lower,
    is_ascii_digit, between, mem.
  change (lit "!#$%&'*+-.^_`|~:") with [33; 35; 36; 37; 38; 39; 42; 43; 45; 46; 94; 95; 96; 124; 126; 58].
  cbn [existsb In]. lia.
Qed.
Lemma name_char_range c : name_char c -> 32 < c < 127 /\ c <> 34 /\ c <> 44 /\ c <> 59 /\ c <> 61 /\ c <> 92.
Proof. unfold name_char. cbn [In]. lia. Qed.

Definition qmap (c : N) : str := if legal_cookie_char c then [c] else cookie_quoting_map c.

(** The escapes, one by one. *)
Lemma qmap_cases c : c < 256 ->
  (qmap c = [c] /\ c <> 92 /\ c <> 34 /\ 32 <= c < 127 /\ c <> 44 /\ c <> 59) \/
  (qmap c = [92; c] /\ (c = 34 \/ c = 92)) \/
  (exists x y z, qmap c = [92; x; y; z] /\ 48 <= x <= 51 /\ 48 <= y <= 55 /\ 48 <= z <= 55 /\
     c = 64 * (x - 48) + 8 * (y - 48) + (z - 48)).
Proof.
  intros H. unfold qmap. destruct (legal_cookie_char c) eqn:L.
  - apply legal_char_spec, name_char_range in L. left. split; auto; lia.
  - unfold cookie_quoting_map.
    destruct (c =? 44) eqn:E1. { right; right. exists 48, 53, 52. split; auto. lia. }
    destruct (c =? 59) eqn:E2. { right; right. exists 48, 55, 51. split; auto. lia. }
    destruct (c =? 34) eqn:E3. { right; left. apply N.eqb_eq in E3. subst. auto. }
    destruct (c =? 92) eqn:E4. { right; left. apply N.eqb_eq in E4. subst. auto. }
    destruct ((c <? 32) || between 127 255 c) eqn:E5; unfold between in E5.
    + right; right. eexists _, _, _. split; [reflexivity|]. nsolve.
    + left. split; auto. lia.
Qed.

Lemma quote_wire b : bytes_text b -> forall c, In c (cookie_quote b) -> wire_byte c.
Proof.
  intros Hb. assert (Q : forall c, In c (flat_map qmap b) -> wire_byte c).
  { intros c Hc. apply in_flat_map in Hc as (x & Hx & Hc). apply Hb in Hx.
    destruct (qmap_cases x Hx) as [(E & H)|[(E & H)|(u & v & w & E & H)]]; rewrite E in Hc; cbn [In] in Hc; unfold wire_byte; lia. }
  unfold cookie_quote. fold qmap. change (fun c => if legal_cookie_char c then [c] else cookie_quoting_map c) with qmap.
  destruct (forallb legal_cookie_char b); auto. intros c [<-|Hc]; [unfold wire_byte; lia|].
  apply in_app_iff in Hc as [Hc|[<-|[]]]; [auto|unfold wire_byte; lia].
Qed.

Lemma find_first_skip p a e : (forall x t, p (x :: t) = true -> x = 92) -> ~ In 92 a ->
  find_first p (a ++ e) = option_map (fun k => (length a + k)%nat) (find_first p e).
Proof.
  intros Hp Ha. induction a as [|c a IH]; cbn [app length].
  - destruct (find_first p e); auto.
  - cbn [find_first]. destruct (p (c :: a ++ e)) eqn:E.
    + exfalso. apply Hp in E. apply Ha. left; auto.
    + rewrite IH by (intros X; apply Ha; right; auto). destruct (find_first p e); auto.
Qed.
Lemma octal_here_92 x t : octal_here (x :: t) = true -> x = 92.
Proof. unfold octal_here. destruct t as [|a [|b [|c t]]]; try discriminate. lia. Qed.
Lemma quote_here_92 x t : quote_here (x :: t) = true -> x = 92.
Proof. unfold quote_here. destruct t as [|a t]; try discriminate. lia. Qed.
Lemma find_first_le p s k : find_first p s = Some k -> (k <= length s)%nat.
Proof.
  revert k; induction s as [|c s IH]; intros k; cbn [find_first].
  - destruct (p []); [intros H; inv H; auto|discriminate].
  - destruct (p (c :: s)); [intros H; inv H; cbn; lia|].
    destruct (find_first p s); [|discriminate]. cbn [option_map]. intros H; inv H. specialize (IH _ eq_refl). cbn [length]. lia.
Qed.

(** The plain characters before the first escape. *)
Lemma plain_prefix b : bytes_text b -> exists p b', b = p ++ b' /\
  flat_map qmap p = p /\ ~ In 92 p /\
  (b' = [] \/ exists c b2, b' = c :: b2 /\ exists e, qmap c = 92 :: e).
Proof.
  induction b as [|c b IH]; intros Hb.
  - exists [], []. cbn [In app flat_map]. auto.
  - assert (Hc : c < 256) by (apply Hb; left; auto).
    destruct (qmap_cases c Hc) as [(E & H)|[(E & H)|(u & v & w & E & H)]].
    + destruct IH as (p & b' & -> & Ep & Hp & Hb'); [intros x Hx; apply Hb; right; auto|].
      exists (c :: p), b'. split; auto. split; [cbn [flat_map]; rewrite E, Ep; auto|]. split; auto.
      intros [->|X]; [lia|auto].
    + exists [], (c :: b). split; auto. split; auto. split; [intros []|]. right. eauto.
    + exists [], (c :: b). split; auto. split; auto. split; [intros []|]. right. eauto.
Qed.

Lemma skipn_plus {A} (a b : list A) n : skipn (length a + n) (a ++ b) = skipn n b.
Proof. induction a; cbn [length app Nat.add skipn]; auto. Qed.
Lemma firstn_exact {A} (a b : list A) : firstn (length a) (a ++ b) = a.
Proof. induction a; cbn [length app firstn]; [destruct b; auto|f_equal; auto]. Qed.

Lemma unquote_loop_quoted n : forall b fuel, (length b <= n)%nat -> bytes_text b ->
  (length (flat_map qmap b) <= fuel)%nat -> unquote_loop fuel (flat_map qmap b) = Some b.
Proof.
  induction n as [|n IH]; intros b fuel Hn Hb Hf.
  { destruct b; [destruct fuel; auto|cbn [length] in Hn; lia]. }
  destruct (plain_prefix b Hb) as (p & b' & -> & Ep & Hp & Hb').
  rewrite flat_map_app, Ep in *.
  destruct (p ++ flat_map qmap b') as [|x s] eqn:Es.
  { apply app_eq_nil in Es as [-> Es]. destruct b' as [|c b']; [destruct fuel; auto|].
    exfalso. destruct Hb' as [Hb'|(c' & b2 & E & e & Ee)]; [discriminate|]. inv E. cbn [flat_map] in Es. rewrite Ee in Es. discriminate. }
  destruct fuel as [|f]; [cbn [length] in Hf; lia|].
  assert (Hlen : (length (p ++ flat_map qmap b') <= S f)%nat) by (rewrite Es; auto).
  cbn [unquote_loop]. rewrite <- Es in *. clear Es x s.
  rewrite !(find_first_skip octal_here) by (auto; apply octal_here_92).
  rewrite !(find_first_skip quote_here) by (auto; apply quote_here_92).
  destruct Hb' as [->|(c & b2 & -> & e & Ee)].
  { cbn [flat_map find_first octal_here quote_here option_map]. rewrite !app_nil_r. auto. }
  assert (Hc : c < 256) by (apply Hb, in_app_iff; right; left; auto).
  assert (Hb2 : bytes_text b2) by (intros y Hy; apply Hb, in_app_iff; right; right; auto).
  assert (Hn2 : (length b2 <= n)%nat) by (rewrite app_length in Hn; cbn [length] in Hn; lia).
  cbn [flat_map] in *.
  destruct (qmap_cases c Hc) as [(E & H)|[(E & H)|(u & v & w & E & H)]].
  - rewrite E in Ee. inv Ee. lia.
  - rewrite E in *. set (t := flat_map qmap b2) in *.
    assert (Q : find_first quote_here ([92; c] ++ t) = Some O).
    { cbn [app find_first]. unfold quote_here. replace (c =? 10) with false by lia. auto. }
    rewrite Q. cbn [option_map].
    assert (O : forall j, find_first octal_here ([92; c] ++ t) = Some j -> (0 < j)%nat).
    { intros j. cbn [app find_first]. unfold octal_here at 1. unfold between.
      replace (48 <=? c) with (c =? 92) by lia.
      assert (F : match t with y :: z :: _ => (92 =? 92) && ((c =? 92) && (c <=? 51)) && ((48 <=? y) && (y <=? 55)) && ((48 <=? z) && (z <=? 55)) | _ => false end = false).
      { destruct t as [|y [|z t']]; auto. replace ((c =? 92) && (c <=? 51)) with false by lia. auto. }
      rewrite F. destruct (if octal_here (c :: t) then _ else _); cbn [option_map]; intros X; inv X; lia. }
    rewrite Nat.add_0_r.
    assert (R : option_map (fun r => firstn (length p) (p ++ [92; c] ++ t) ++
                  firstn 1 (skipn (length p + 1) (p ++ [92; c] ++ t)) ++ r)
                  (unquote_loop f (skipn (length p + 2) (p ++ [92; c] ++ t))) = Some (p ++ c :: b2)).
    { rewrite firstn_exact, !skipn_plus. cbn [app skipn firstn]. unfold t. rewrite IH; auto.
      rewrite !app_length in Hlen. fold t. cbn [length] in Hlen. lia. }
    destruct (find_first octal_here ([92; c] ++ t)) as [j|] eqn:Ej; cbn [option_map]; [|exact R].
    specialize (O j eq_refl). replace (length p <? length p + j)%nat with true by (symmetry; apply Nat.ltb_lt; lia).
    exact R.
  - rewrite E in *. set (t := flat_map qmap b2) in *.
    assert (Q : find_first quote_here ([92; u; v; w] ++ t) = Some O).
    { cbn [app find_first]. unfold quote_here. replace (u =? 10) with false by lia. auto. }
    assert (O : find_first octal_here ([92; u; v; w] ++ t) = Some O).
    { cbn [app find_first]. unfold octal_here, between.
      replace ((92 =? 92) && ((48 <=? u) && (u <=? 51)) && ((48 <=? v) && (v <=? 55)) && ((48 <=? w) && (w <=? 55))) with true by lia. auto. }
    rewrite Q, O. cbn [option_map]. rewrite Nat.add_0_r, Nat.ltb_irrefl.
    rewrite firstn_exact, !skipn_plus. cbn [app skipn firstn fold_left]. unfold t. rewrite IH; auto.
    + cbn [option_map]. f_equal. f_equal. f_equal. lia.
    + rewrite !app_length in Hlen. fold t. cbn [length] in Hlen. lia.
Qed.

Lemma removelast_app1 {A} (l : list A) x : removelast (l ++ [x]) = l.
Proof. rewrite removelast_app by discriminate. cbn [removelast]. rewrite app_nil_r. auto. Qed.

Lemma legal_unquote b fuel : (forall c, In c b -> name_char c) -> cookie_unquote fuel b = Some b.
Proof.
  intros H. unfold cookie_unquote. destruct (length b <? 2)%nat; auto. destruct b as [|c b]; [auto|].
  assert (name_char c) by (apply H; left; auto). apply name_char_range in H0.
  cbn [starts]. replace (34 =? c) with false by lia. auto.
Qed.
Lemma quote_flat b : cookie_quote b =
  if forallb legal_cookie_char b then b else 34 :: flat_map qmap b ++ [34].
Proof.
  unfold cookie_quote. change (fun c => if legal_cookie_char c then [c] else cookie_quoting_map c) with qmap.
  destruct (forallb legal_cookie_char b) eqn:E; auto.
  induction b as [|c b IH]; auto. cbn [forallb flat_map] in *. apply andb_true_iff in E as [Ec Eb].
  unfold qmap at 1. rewrite Ec, IH; auto.
Qed.
Lemma cookie_quote_roundtrip b fuel : bytes_text b -> (length (cookie_quote b) <= fuel)%nat ->
  cookie_unquote fuel (cookie_quote b) = Some b.
Proof.
  intros Hb. rewrite quote_flat. destruct (forallb legal_cookie_char b) eqn:E.
  - intros _. apply legal_unquote. rewrite forallb_forall in E. intros c Hc. apply legal_char_spec; auto.
  - intros Hf. unfold cookie_unquote. cbn [length]. rewrite app_length. cbn [length].
    replace (S (length (flat_map qmap b) + 1) <? 2)%nat with false.
    2: { symmetry. apply Nat.ltb_ge. lia. }
    assert (Ee : ends [34] (34 :: flat_map qmap b ++ [34]) = true).
    { unfold ends. rewrite app_comm_cons, rev_app_distr. reflexivity. }
    rewrite Ee. cbn [starts negb orb skipn]. rewrite removelast_app1.
    cbn [length] in Hf. rewrite app_length in Hf. apply unquote_loop_quoted with (n := length b); auto. cbn [length] in Hf. lia.
Qed.

Lemma unquote_loop_total fuel : forall s, (length s <= fuel)%nat -> exists r, unquote_loop fuel s = Some r.
Proof.
  induction fuel as [|f IH]; intros s Hs; (destruct s as [|c s]; [cbn; eauto|]); [cbn [length] in Hs; lia|].
  cbn [unquote_loop].
  assert (K : forall k, exists r, unquote_loop f (skipn (k + 2) (c :: s)) = Some r).
  { intros k. apply IH. rewrite skipn_length. cbn [length] in *. lia. }
  assert (J : forall k, exists r, unquote_loop f (skipn (k + 4) (c :: s)) = Some r).
  { intros k. apply IH. rewrite skipn_length. cbn [length] in *. lia. }
  destruct (find_first quote_here (c :: s)) as [k|]; destruct (find_first octal_here (c :: s)) as [j|].
  - destruct (k <? j)%nat; [destruct (K k) as [r ->]|destruct (J j) as [r ->]]; cbn [option_map]; eauto.
  - destruct (K k) as [r ->]; cbn [option_map]; eauto.
  - destruct (J j) as [r ->]; cbn [option_map]; eauto.
  - eauto.
Qed.
Lemma cookie_unquote_total fuel b : (length b <= fuel)%nat -> exists r, cookie_unquote fuel b = Some r.
Proof.
  intros H. unfold cookie_unquote. destruct (length b <? 2)%nat; [eauto|].
  destruct (negb (starts [34] b) || negb (ends [34] b)); [eauto|]. apply unquote_loop_total.
  destruct b as [|c b]; [cbn; lia|]. cbn [skipn length] in *.
  assert (forall l : str, (length (removelast l) <= length l)%nat).
  { clear. induction l as [|x [|y l] IH]; cbn [removelast length] in *; lia. }
  specialize (H0 b). lia.
Qed.

(** ** The cookie pattern *)

(** Text that a quoted string may hold: characters other than quote and backslash,
    and escaped pairs. *)
Inductive units : str -> Prop :=
| u_nil : units []
| u_char c s : c <> 92 -> c <> 34 -> units s -> units (c :: s)
| u_pair c s : c <> 10 -> units s -> units (92 :: c :: s).
Lemma units_app a b : units a -> units b -> units (a ++ b).
Proof. induction 1; intros Hb; cbn [app]; auto; [apply u_char|apply u_pair]; auto. Qed.
Lemma qmap_units b : bytes_text b -> units (flat_map qmap b).
Proof.
  induction b as [|c b IH]; intros Hb; [constructor|]. cbn [flat_map].
  assert (Hc : c < 256) by (apply Hb; left; auto).
  apply units_app; [|apply IH; intros x Hx; apply Hb; right; auto].
  destruct (qmap_cases c Hc) as [(E & H)|[(E & H)|(u & v & w & E & H)]]; rewrite E.
  - apply u_char; [lia|lia|constructor].
  - apply u_pair; [lia|constructor].
  - apply u_pair; [lia|]. apply u_char; [lia|lia|]. apply u_char; [lia|lia|constructor].
Qed.

Lemma run_quoted_items {R} w : units w -> forall prev rest caps (k : st -> option R) x,
  k (St (last_or prev w) (34 :: rest) caps) = Some x ->
  run (RStar true quoted_item) (St prev (w ++ 34 :: rest) caps) k = Some x.
Proof.
  intros Hw prev rest caps k x Hk. cbn [run s_rest].
  assert (G : forall fuel prev, (length (w ++ 34%N :: rest) <= fuel)%nat ->
     k (St (last_or prev w) (34 :: rest) caps) = Some x ->
     star_g (run quoted_item) fuel (St prev (w ++ 34 :: rest) caps) k = Some x).
  { clear Hk prev. induction Hw as [|c w H1 H2 Hw IH|c w H1 Hw IH]; intros fuel prev Hf Hk.
    - destruct fuel; cbn [star_g]; auto.
    - destruct fuel; cbn [app length] in Hf; [lia|]. cbn [star_g app].
      unfold quoted_item at 1. cbn [run s_rest s_caps].
      replace (negb (c =? 92) && negb (c =? 34)) with true by lia. cbn [s_rest].
      replace (length (w ++ 34%N :: rest) <? length (c :: w ++ 34%N :: rest))%nat with true
        by (symmetry; apply Nat.ltb_lt; cbn [length]; lia).
      rewrite IH; auto; [lia|]. rewrite (last_or_cons prev). auto.
    - destruct fuel; cbn [app length] in Hf; [lia|]. cbn [star_g app].
      unfold quoted_item at 1. cbn [run s_rest s_caps RChr RDot].
      change (92 =? 92) with true. cbn [negb andb run s_rest s_caps]. unfold RDot. cbn [run s_rest s_caps].
      replace (negb (c =? 10)) with true by lia. cbn [s_rest].
      replace (length (w ++ 34%N :: rest) <? length (92%N :: c :: w ++ 34%N :: rest))%nat with true
        by (symmetry; apply Nat.ltb_lt; cbn [length]; lia).
      rewrite IH; auto; [lia|]. rewrite (last_or_cons (Some 92)), (last_or_cons prev). auto. }
  apply G; auto.
Qed.

(** The tail of the pattern after a value. *)
Lemma run_end {R} prev rest caps (k : st -> option R) x :
  k (St (Some 59) rest caps) = Some x ->
  run (RSeq ws_star (RChr 59)) (St prev (59 :: rest) caps) k = Some x.
Proof.
  intros Hk. cbn [run]. unfold ws_star.
  apply (run_star_set_g is_bspace [] prev (59 :: rest) caps).
  - auto.
  - intros c r E; inv E. auto.
  - cbn [last_or rev]. cbn [run s_rest s_caps RChr]. exact Hk.
Qed.
Lemma run_end_fail {R} prev c rest caps (k : st -> option R) :
  is_bspace c = false -> c <> 59 ->
  run (RSeq ws_star (RChr 59)) (St prev (c :: rest) caps) k = None.
Proof.
  intros Hs Hc. cbn [run]. unfold ws_star.
  apply (run_star_set_g_none is_bspace [] prev (c :: rest) caps).
  - auto.
  - intros d r E; inv E. auto.
  - intros a b E. symmetry in E. apply app_eq_nil in E as [-> ->]. cbn [last_or rev app run s_rest s_caps RChr].
    replace (59 =? c) with false by lia. auto.
Qed.

Definition value_re : re :=
  RAlt (RSeq (RChr 34) (RSeq (RStar true quoted_item) (RChr 34))) (RStar false RDot).

Lemma run_value {R} b prev rest caps (k : st -> option R) x : bytes_text b ->
  k (St (Some 59) rest ((2%nat, cookie_quote b) :: caps)) = Some x ->
  run (RSeq (RGroup 2 value_re) (RSeq ws_star (RChr 59))) (St prev (cookie_quote b ++ 59 :: rest) caps) k = Some x.
Proof.
  intros Hb Hk.
  change (run (RGroup 2 value_re) (St prev (cookie_quote b ++ 59 :: rest) caps)
           (fun s' => run (RSeq ws_star (RChr 59)) s' k) = Some x).
  change (run value_re (St prev (cookie_quote b ++ 59 :: rest) caps)
    (fun s' => run (RSeq ws_star (RChr 59))
       (St (s_prev s') (s_rest s') ((2%nat, consumed (St prev (cookie_quote b ++ 59 :: rest) caps) s') :: s_caps s')) k) = Some x).
  set (K := fun s' : st => _).
  assert (HK : forall p', K (St p' (59 :: rest) caps) = Some x).
  { intros p'. unfold K. cbn [s_prev s_rest s_caps].
    rewrite (consumed_app (St prev (cookie_quote b ++ 59 :: rest) caps) (St p' (59 :: rest) caps) (cookie_quote b)) by auto.
    apply run_end. auto. }
  assert (HF : forall p' c r, is_bspace c = false -> c <> 59 -> K (St p' (c :: r) caps) = None).
  { intros p' c r H1 H2. unfold K. cbn [s_prev s_rest s_caps]. apply run_end_fail; auto. }
  clearbody K. unfold value_re. rewrite quote_flat in *.
  destruct (forallb legal_cookie_char b) eqn:L.
  - assert (Hf : run (RSeq (RChr 34) (RSeq (RStar true quoted_item) (RChr 34))) (St prev (b ++ 59 :: rest) caps) K = None).
    { destruct b as [|c b]; [reflexivity|]. cbn [app]. cbn [forallb] in L. apply andb_true_iff in L as [L _].
      apply legal_char_spec, name_char_range in L. cbn [run s_rest RChr].
      replace (34 =? c) with false by lia. auto. }
    change (match run (RSeq (RChr 34) (RSeq (RStar true quoted_item) (RChr 34))) (St prev (b ++ 59 :: rest) caps) K with
            | Some y => Some y | None => run (RStar false RDot) (St prev (b ++ 59 :: rest) caps) K end = Some x).
    rewrite Hf. unfold RDot. apply run_star_set_l.
    + rewrite forallb_forall in *. intros c Hc. apply L, legal_char_spec, name_char_range in Hc. lia.
    + intros a c r E. rewrite forallb_forall in L. assert (Hc : In c b) by (rewrite E; apply in_app_iff; right; left; auto).
      apply L, legal_char_spec, name_char_range in Hc. apply HF; [|lia]. unfold is_bspace, between. lia.
    + apply HK.
  - rewrite <- app_comm_cons, <- app_assoc.
    change (match run (RSeq (RChr 34) (RSeq (RStar true quoted_item) (RChr 34)))
                      (St prev (34 :: flat_map qmap b ++ [34] ++ 59 :: rest) caps) K with
            | Some y => Some y | None => run (RStar false RDot) (St prev (34 :: flat_map qmap b ++ [34] ++ 59 :: rest) caps) K end = Some x).
    assert (Hq : run (RSeq (RChr 34) (RSeq (RStar true quoted_item) (RChr 34)))
                     (St prev (34 :: flat_map qmap b ++ [34] ++ 59 :: rest) caps) K = Some x).
    { change (run (RStar true quoted_item) (St (Some 34) (flat_map qmap b ++ 34 :: 59 :: rest) caps)
                (fun s' => run (RChr 34) s' K) = Some x).
      apply run_quoted_items; [apply qmap_units; auto|]. change (K (St (Some 34) (59 :: rest) caps) = Some x). apply HK. }
    rewrite Hq. auto.
Qed.

Lemma cookie_quote_start b : bytes_text b -> forall rest c r, cookie_quote b ++ 59 :: rest = c :: r -> is_bspace c = false.
Proof.
  intros Hb rest c r E. rewrite quote_flat in E. destruct (forallb legal_cookie_char b) eqn:L.
  - destruct b as [|d b]; cbn [app] in E; inv E; auto. cbn [forallb] in L. apply andb_true_iff in L as [L _].
    apply legal_char_spec, name_char_range in L. unfold is_bspace, between. lia.
  - cbn [app] in E. inv E. auto.
Qed.

(** The first match in a header that begins with a cookie. *)
Lemma match_cookie sp name b rest prev : (sp = [] \/ sp = [32]) -> name <> [] ->
  (forall c, In c name -> name_char c) -> bytes_text b ->
  match_at cookie_re prev (sp ++ name ++ 61 :: cookie_quote b ++ 59 :: rest) =
  Some (St (Some 59) rest [(2%nat, cookie_quote b); (1%nat, sp ++ name)]).
Proof.
  intros Hsp Hne Hn Hb. unfold match_at, cookie_re.
  set (u := sp ++ name). set (v := 61 :: cookie_quote b ++ 59 :: rest).
  assert (Eu : sp ++ name ++ v = u ++ v) by (unfold u; rewrite app_assoc; auto). rewrite Eu.
  assert (Hu : forallb (fun c => negb (c =? 61)) u = true).
  { apply forallb_forall. intros c Hc. unfold u in Hc. apply in_app_iff in Hc as [Hc|Hc].
    - destruct Hsp as [->| ->]; [destruct Hc|]. destruct Hc as [<-|[]]. auto.
    - apply Hn, name_char_range in Hc. lia. }
  destruct u as [|c u'] eqn:Euu.
  { exfalso. unfold u in Euu. apply app_eq_nil in Euu as [_ Euu]. auto. }
  set (tl := RSeq ws_star (RSeq (RChr 61) (RSeq ws_star (RSeq (RGroup 2 value_re) (RSeq ws_star (RChr 59)))))).
  change (run (RPlus true (RSet (fun c0 => negb (c0 =? 61)))) (St prev ((c :: u') ++ v) [])
    (fun s' => run tl (St (s_prev s') (s_rest s')
       ((1%nat, consumed (St prev ((c :: u') ++ v) []) s') :: s_caps s')) Some) =
    Some (St (Some 59) rest [(2%nat, cookie_quote b); (1%nat, c :: u')])).
  set (K := fun s' : st => _).
  assert (HK : forall p', K (St p' v []) = Some (St (Some 59) rest [(2%nat, cookie_quote b); (1%nat, c :: u')])).
  { intros p'. unfold K. cbn [s_prev s_rest s_caps].
    rewrite (consumed_app (St prev ((c :: u') ++ v) []) (St p' v []) (c :: u')) by auto.
    unfold tl, v. cbn [run]. unfold ws_star at 1.
    apply (run_star_set_g is_bspace [] p' (61 :: cookie_quote b ++ 59 :: rest)).
    - auto.
    - intros d r E; inv E. auto.
    - cbn [last_or rev]. cbn [run s_rest s_caps RChr]. change (61 =? 61) with true. cbv iota.
      unfold ws_star at 1.
      apply (run_star_set_g is_bspace [] (Some 61) (cookie_quote b ++ 59 :: rest)).
      + auto.
      + intros d r E. eapply cookie_quote_start; eauto.
      + cbn [last_or rev]. apply run_value; auto. }
  clearbody K. cbn [forallb] in Hu. apply andb_true_iff in Hu as [Hc Hu].
  unfold RPlus. cbn [run s_rest app s_caps]. rewrite Hc.
  apply (run_star_set_g (fun c0 => negb (c0 =? 61)) u' (Some c) v []); auto.
  intros d r E. unfold v in E. inv E. auto.
Qed.

Lemma search_cookie sp name b rest : (sp = [] \/ sp = [32]) -> name <> [] ->
  (forall c, In c name -> name_char c) -> bytes_text b ->
  re_search cookie_re (sp ++ name ++ 61 :: cookie_quote b ++ 59 :: rest) =
  Some ([], St (Some 59) rest [(2%nat, cookie_quote b); (1%nat, sp ++ name)]).
Proof.
  intros Hsp Hne Hn Hb. pose proof (match_cookie sp name b rest None Hsp Hne Hn Hb) as M.
  unfold re_search. set (s := sp ++ _) in *. destruct s; cbn [search_at]; rewrite M; auto.
Qed.

Lemma strip_name sp name : (sp = [] \/ sp = [32]) -> name <> [] -> (forall c, In c name -> name_char c) ->
  strip_by is_bspace (sp ++ name) = name.
Proof.
  intros Hsp Hne Hn.
  assert (B : forall c, In c name -> is_bspace c = false).
  { intros c Hc. apply Hn, name_char_range in Hc. unfold is_bspace, between. lia. }
  assert (L : lstrip_by is_bspace (sp ++ name) = name).
  { destruct name as [|c name]; [congruence|]. destruct Hsp as [->| ->]; cbn [app lstrip_by];
      rewrite (B c) by (left; auto); auto. }
  unfold strip_by, rstrip_by. rewrite L.
  assert (R : lstrip_by is_bspace (rev name) = rev name).
  { destruct (rev name) as [|c r] eqn:E; auto. cbn [lstrip_by]. rewrite B; auto. apply in_rev. rewrite E. left; auto. }
  rewrite R. apply rev_involutive.
Qed.

Lemma blower_spec s : lowercase s (blower s).
Proof.
  induction s as [|c s IH]; [constructor|]. constructor; auto. unfold is_ascii_upper, between.
  destruct ((65 <=? c) && (c <=? 90)) eqn:E; lia.
Qed.
Lemma reserved_spec s : existsb (eqs (blower s)) cookie_params = true -> reserved_name s.
Proof.
  intros H. apply existsb_exists in H as (t & Ht & E). apply eqs_eq in E. exists t. split; [|exact Ht].
  rewrite <- E. apply blower_spec.
Qed.

Definition cookie_tail (l : list (str * str)) : str := cookie_header cookie_quote l ++ [59].
Lemma parse_cookies l : forall sp fuel, (sp = [] \/ sp = [32]) ->
  (forall n v, In (n, v) l -> legal_name n /\ bytes_text v) ->
  (length (sp ++ cookie_tail l) <= fuel)%nat -> l <> [] ->
  cookie_parse_loop fuel (sp ++ cookie_tail l) = Some l.
Proof.
  induction l as [|[n v] l IH]; intros sp fuel Hsp Hl Hf Hne; [congruence|].
  destruct (Hl n v (or_introl eq_refl)) as [(Hn1 & Hn2 & Hn3) Hv].
  set (rest := match l with [] => [] | _ => [32] ++ cookie_tail l end).
  assert (E : sp ++ cookie_tail ((n, v) :: l) = sp ++ n ++ 61 :: cookie_quote v ++ 59 :: rest).
  { unfold cookie_tail, rest. destruct l as [|[n' v'] l'].
    - cbn [cookie_header]. rewrite <- !app_assoc. auto.
    - change (cookie_header cookie_quote ((n, v) :: (n', v') :: l')) with
        (n ++ [61] ++ cookie_quote v ++ [59; 32] ++ cookie_header cookie_quote ((n', v') :: l')).
      unfold cookie_tail. rewrite <- !app_assoc. auto. }
  rewrite E in *.
  assert (Hlong : (length (sp ++ n ++ 61%N :: cookie_quote v ++ 59%N :: rest) > 1)%nat).
  { rewrite !app_length. cbn [length]. rewrite app_length. cbn [length]. lia. }
  destruct fuel as [|f]; [lia|]. cbn [cookie_parse_loop].
  destruct (length (sp ++ n ++ 61%N :: cookie_quote v ++ 59%N :: rest) <=? 1)%nat eqn:Ele; [apply Nat.leb_le in Ele; lia|].
  rewrite search_cookie by auto. unfold cap_or_nil. cbn [s_caps s_rest cap Nat.eqb].
  rewrite strip_name by auto.
  assert (Hr : cookie_parse_loop f rest = Some l).
  { unfold rest in *. destruct l as [|p l']; [destruct f; auto|]. apply IH; auto.
    - intros n' v' Hi. apply Hl. right; auto.
    - rewrite !app_length in Hf. cbn [length] in Hf. rewrite app_length in Hf. cbn [length] in Hf.
      rewrite app_length in *. cbn [length] in *. lia.
    - discriminate. }
  rewrite Hr. destruct (existsb (eqs (blower n)) cookie_params) eqn:Er; [exfalso; apply Hn3, reserved_spec; auto|].
  rewrite (legal_unquote n) by auto. rewrite cookie_quote_roundtrip; auto.
  rewrite !app_length in Hf. cbn [length] in Hf. rewrite app_length in Hf. lia.
Qed.

Lemma cookie_roundtrip l fuel : (forall n v, In (n, v) l -> legal_name n /\ bytes_text v) ->
  (length (cookie_header cookie_quote l) < fuel)%nat ->
  cookie_parse fuel (cookie_header cookie_quote l) = Some l.
Proof.
  intros Hl Hf. unfold cookie_parse. destruct l as [|p l].
  - cbn [cookie_header app]. destruct fuel; auto.
  - apply (parse_cookies (p :: l) []); auto; [|discriminate]. cbn [app]. unfold cookie_tail.
    rewrite app_length. cbn [length]. lia.
Qed.

(** The parser stops on every header. *)
Lemma consumed_len s s' : (length (consumed s s') <= length (s_rest s))%nat.
Proof. unfold consumed. rewrite firstn_length. lia. Qed.

Lemma strip_len f s : (length (strip_by f s) <= length s)%nat.
Proof.
  unfold strip_by. destruct (rstrip_by_spec f (lstrip_by f s)) as (a & E & _ & _).
  destruct (lstrip_by_spec f s) as (b & E' & _ & _).
  apply (f_equal (@length N)) in E. apply (f_equal (@length N)) in E'. rewrite app_length in *. lia.
Qed.
Lemma cap_in l g x : cap l g = Some x -> In (g, x) l.
Proof.
  induction l as [|[g' y] l IH]; cbn [cap]; [discriminate|]. destruct (Nat.eqb g g') eqn:E.
  - intros H; inv H. apply Nat.eqb_eq in E. subst. left; auto.
  - intros H. right; auto.
Qed.
Lemma parse_loop_total fuel : forall s, (length s <= fuel)%nat -> exists r, cookie_parse_loop fuel s = Some r.
Proof.
  induction fuel as [|f IH]; intros s Hf.
  - destruct s; cbn [length] in Hf; [|lia]. exists []. auto.
  - cbn [cookie_parse_loop]. destruct (length s <=? 1)%nat eqn:E1; [eauto|].
    destruct (re_search cookie_re s) as [[pre m]|] eqn:E; [|eauto].
    pose proof (search_len _ _ _ _ _ E) as L. change (minlen cookie_re) with 3%nat in L.
    destruct (IH (s_rest m)) as (r & Hr); [lia|]. rewrite Hr.
    destruct (existsb _ _); [eauto|].
    assert (C : forall g, (length (cap_or_nil m g) <= S f)%nat).
    { intros g. unfold cap_or_nil. destruct (cap (s_caps m) g) as [x|] eqn:Ec; [|cbn; lia].
      apply cap_in in Ec. apply search_at_sound in E as (p' & t & -> & M).
      apply (caps_len _ _ _ M) in Ec as [[]|Ec]. cbn [s_rest] in Ec. rewrite app_length in Hf. lia. }
    destruct (cookie_unquote_total (S f) (strip_by is_bspace (cap_or_nil m 1))) as (k & Hk).
    { pose proof (strip_len is_bspace (cap_or_nil m 1)). specialize (C 1%nat). lia. }
    destruct (cookie_unquote_total (S f) (cap_or_nil m 2)) as (v & Hv); [apply C|].
    rewrite Hk, Hv. eauto.
Qed.
Lemma cookie_parse_total fuel b : (length b < fuel)%nat -> exists r, cookie_parse fuel b = Some r.
Proof. intros H. apply parse_loop_total. rewrite app_length. cbn [length]. lia. Qed.

(** ** Text cookies through parse_cookie *)
Definition encoded (l bl : list (str * str)) : Prop :=
  Forall2 (fun p q => fst p = fst q /\ utf8_encode (snd p) = Ok (snd q)) l bl.

Lemma name_ascii n : (forall c, In c n -> name_char c) -> utf8_decode Strict n = Ok n.
Proof.
  intros H. apply utf8_roundtrip. apply utf8_ascii. apply forallb_forall. intros c Hc.
  apply H, name_char_range in Hc. lia.
Qed.
Lemma decode_encoded l bl : encoded l bl -> (forall n v, In (n, v) l -> legal_name n) -> decode_pairs bl = Ok l.
Proof.
  induction 1 as [|[n v] [n' b] l bl [E1 E2] F IH]; intros Hn; auto. cbn [fst snd] in *. subst n'.
  cbn [decode_pairs]. rewrite name_ascii by (apply (Hn n v); left; auto). cbn [bind].
  rewrite (utf8_roundtrip Strict _ _ E2). cbn [bind]. rewrite IH; auto. intros; eapply Hn; right; eauto.
Qed.
Lemma fold_last l : forall d n, dget (fold_left (fun d kv => dset d (fst kv) (snd kv)) l d) n =
  fold_left (fun acc (kv : str * str) => if eqs n (fst kv) then Some (snd kv) else acc) l (dget d n).
Proof.
  induction l as [|[k v] l IH]; intros d n; auto. cbn [fold_left fst snd]. rewrite IH. f_equal.
  destruct (eqs n k) eqn:E.
  - apply eqs_eq in E. subst. apply dget_dset_eq.
  - apply dget_dset_neq. intros ->. rewrite eqs_refl in E. discriminate.
Qed.
Lemma latin1_replace_id s : bytes_text s -> latin1_encode_replace s = s.
Proof.
  intros H. unfold latin1_encode_replace. rewrite <- (map_id s) at 2. apply map_ext_in. intros c Hc.
  apply H in Hc. replace (c <? 256) with true by lia. auto.
Qed.
Lemma header_bytes l : (forall n v, In (n, v) l -> legal_name n /\ bytes_text v) ->
  bytes_text (cookie_header cookie_quote l).
Proof.
  induction l as [|[n v] l IH]; intros H; [intros c []|].
  destruct (H n v (or_introl eq_refl)) as [(_ & Hn & _) Hv].
  assert (B : forall c, In c (n ++ [61] ++ cookie_quote v) -> c < 256).
  { intros c Hc. rewrite !in_app_iff in Hc. destruct Hc as [Hc|[[<-|[]]|Hc]]; [|lia|].
    - apply Hn, name_char_range in Hc. lia.
    - apply quote_wire in Hc; auto. unfold wire_byte in Hc. lia. }
  destruct l as [|p l].
  - exact B.
  - change (cookie_header cookie_quote ((n, v) :: p :: l)) with
      (n ++ [61] ++ cookie_quote v ++ [59; 32] ++ cookie_header cookie_quote (p :: l)).
    intros c Hc. rewrite !in_app_iff in Hc. 
    assert (Hr : bytes_text (cookie_header cookie_quote (p :: l))) by (apply IH; intros; apply H; right; auto).
    destruct Hc as [Hc|[Hc|[Hc|[Hc|Hc]]]]; try (apply B; rewrite !in_app_iff; tauto); [|apply Hr; auto].
    destruct Hc as [<-|[<-|[]]]; lia.
Qed.
Lemma parse_cookie_roundtrip l bl fuel : encoded l bl -> (forall n v, In (n, v) l -> legal_name n) ->
  (length (cookie_header cookie_quote bl) < fuel)%nat ->
  exists d, parse_cookie fuel (cookie_header cookie_quote bl) = Some (Ok d) /\
    forall n, dget d n = last_value l n.
Proof.
  intros He Hl Hf.
  assert (Hb : forall n v, In (n, v) bl -> legal_name n /\ bytes_text v).
  { clear Hf. induction He as [|[n v] [n' b] l bl [E1 E2] F IH]; intros m w Hi; [destruct Hi|].
    cbn [fst snd] in *. subst n'. destruct Hi as [Hi|Hi].
    - inv Hi. split; [eapply Hl; left; eauto|]. apply is_bytes_text. eapply utf8_encode_bytes; eauto.
    - apply IH; auto. intros; eapply Hl; right; eauto. }
  unfold parse_cookie. rewrite latin1_replace_id by (apply header_bytes; auto).
  rewrite cookie_roundtrip by auto. cbn [option_map]. rewrite (decode_encoded l) by auto. cbn [bind].
  eexists. split; [reflexivity|]. intros n. rewrite fold_last. auto.
Qed.

(** ** Set-Cookie *)
Lemma lower_in_59 h : In 59 (lowered h) -> In 59 h.
Proof. intros H. apply lowered_in in H; auto. lia. Qed.
Lemma in_rsplit c s x a b : rsplit1 c s = Some (a, b) -> In x a \/ In x b -> In x s.
Proof. intros H. apply rsplit1_some in H as [-> _]. intros [H|H]; apply in_app_iff; [left|right; right]; auto. Qed.
Lemma in_partition c s x a b : partition c s = (a, b) -> In x a \/ In x b -> In x s.
Proof.
  intros H. apply partition_spec in H as [_ [->|[-> ->]]]; intros [H|H]; auto; try (destruct H; fail);
    apply in_app_iff; [left|right; right]; auto.
Qed.
Lemma in_split1 c s x a b : split1 c s = Some (a, b) -> In x a \/ In x b -> In x s.
Proof. intros H. apply split1_some in H as [-> _]. intros [H|H]; apply in_app_iff; [left|right; right]; auto. Qed.
Lemma hostinfo_in nl x : In x (fst (hostinfo nl)) -> In x nl.
Proof.
  unfold hostinfo. set (h := match rsplit1 64 nl with Some (_, h) => h | None => nl end).
  assert (Hh : In x h -> In x nl).
  { unfold h. destruct (rsplit1 64 nl) as [[a b]|] eqn:E; auto. intros Hb. eapply in_rsplit; eauto. }
  clearbody h. destruct (split1 91 h) as [[a b]|] eqn:E.
  - destruct (partition 93 b) as [p q] eqn:Ep. cbn [fst]. intros Hp. apply Hh. eapply in_split1; eauto.
    right. eapply in_partition; eauto.
  - intros Hp. apply Hh. destruct (partition 58 h) as [p q] eqn:Ep. eapply in_partition; eauto.
Qed.
Lemma urlquote_59 safe s q : urlquote safe s = Ok q -> In 59 q -> In 59 s.
Proof. intros E H. eapply urlquote_in; eauto; lia. Qed.

Section Semi.
  Variable idna_part : str -> res str.
  Variable ip_ok nfkc_ok : str -> bool.
  Hypothesis idna_semi : forall p e, idna_part p = Ok e -> ~ In 59 e.

  Lemma encode_idna_semi d r : encode_idna idna_part d = Ok r -> In 59 r -> In 59 d.
  Proof.
    unfold encode_idna. destruct (is_ascii d); [intros H; inv H; auto|].
    destruct (fold_right _ (Ok []) (split_on 46 d)) as [parts|] eqn:F; cbn [bind]; [|discriminate].
    intros H; inv H. intros Hc. exfalso. apply in_join in Hc as [[Hc|[]]|(x & Hx & Hc)]; [discriminate|].
    destruct (idna_parts_in _ _ _ F x Hx) as [p Hp]. eapply idna_semi; eauto.
  Qed.
  Lemma encode_netloc_semi nl o : encode_netloc idna_part nl = Ok o -> In 59 o -> In 59 nl.
  Proof.
    unfold encode_netloc. destruct (if is_nil (hostname nl) then _ else _) as [host|] eqn:Eh; cbn [bind]; [|discriminate].
    destruct (port nl) as [p|]; cbn [bind]; [|discriminate].
    destruct (convert_auth (urlquote (lit "/:%")) nl) as [auth|] eqn:Ea; cbn [bind]; [|discriminate].
    intros H; inv H.
    assert (Hh : In 59 host -> In 59 nl).
    { destruct (is_nil (hostname nl)); [inv Eh; intros []|].
      destruct (encode_idna idna_part (hostname nl)) as [e|] eqn:Ei; cbn [bind] in Eh; [|discriminate].
      destruct (is_ascii e); inv Eh. intros H. apply (encode_idna_semi _ _ Ei) in H.
      rewrite hostname_eq in H. apply lower_in_59, hostinfo_in in H. auto. }
    assert (Aauth : forall a, auth = Some a -> In 59 a -> In 59 nl).
    { intros a ->. unfold convert_auth in Ea. destruct (userinfo nl) as [[u pw]|] eqn:Eui; [|discriminate].
      set (w := match pw with Some p0 => p0 | None => [] end) in *.
      assert (Hu : In 59 u \/ In 59 w -> In 59 nl).
      { unfold userinfo in Eui. destruct (rsplit1 64 nl) as [[i h]|] eqn:Er; [|discriminate].
        intros Hi. eapply in_rsplit; eauto. left. destruct (split1 58 i) as [[x y]|] eqn:Es.
        - inv Eui. eapply in_split1; eauto.
        - inv Eui. destruct Hi as [Hi|[]]. auto. }
      destruct (is_nil u && is_nil w); [discriminate|].
      destruct (if is_nil u then Ok [] else _) as [u'|] eqn:Eu; cbn [bind] in Ea; [|discriminate].
      assert (Au : In 59 u' -> In 59 u) by (destruct (is_nil u); [inv Eu; intros []|apply (urlquote_59 _ _ _ Eu)]).
      destruct (is_nil w); [inv Ea; auto|].
      destruct (urlquote (lit "/:%") w) as [p'|] eqn:Ep; cbn [bind] in Ea; [|discriminate].
      inv Ea. intros Hc. apply in_app_iff in Hc as [Hc|[Hc|Hc]]; [auto|discriminate|].
      apply Hu. right. apply (urlquote_59 _ _ _ Ep). auto. }
    unfold make_netloc. set (hb := if mem 58 host then _ else _) in *.
    assert (Ab : In 59 hb -> In 59 nl).
    { unfold hb. destruct (mem 58 host); auto. intros [Hc|Hc]; [discriminate|].
      apply in_app_iff in Hc as [Hc|[Hc|[]]]; [auto|discriminate]. }
    clearbody hb.
    assert (Ac : In 59 (if p =? 0 then hb else hb ++ 58 :: dec p) -> In 59 nl).
    { destruct (p =? 0); auto. intros Hc. apply in_app_iff in Hc as [Hc|[Hc|Hc]]; [auto|discriminate|].
      apply digits_in in Hc. lia. }
    destruct auth as [a|]; auto. intros Hc. apply in_app_iff in Hc as [Hc|[Hc|Hc]]; [eapply Aauth; eauto|discriminate|auto].
  Qed.

  Lemma clean_in s c : In c (url_clean s) -> In c s.
  Proof.
    unfold url_clean. intros H. apply filter_In in H as [H _].
    destruct (lstrip_by_spec (fun c => c <=? 32) s) as (a & E & _). rewrite E. apply in_app_iff. auto.
  Qed.
  Lemma urlsplit_in iri u c : urlsplit ip_ok nfkc_ok iri = Ok u ->
    In c (u_netloc u) \/ In c (u_path u) \/ In c (u_query u) \/ In c (u_fragment u) -> In c iri.
  Proof.
    unfold urlsplit. intros H Hi. apply clean_in. set (url := url_clean iri) in *.
    destruct (split_scheme url) as [sch rest] eqn:Es.
    assert (Hrest : In c rest -> In c url).
    { apply split_scheme_spec in Es as [(_ & a & ->)|(_ & -> & _)]; auto.
      intros Hc. apply in_app_iff. right; right; auto. }
    apply Hrest. clearbody url.
    destruct (if starts [47; 47] rest then cut (fun c => mem c [47; 63; 35]) (skipn 2 rest) else ([], rest)) as [nl r2] eqn:Ec.
    assert (H2 : In c nl \/ In c r2 -> In c rest).
    { destruct (starts [47; 47] rest) eqn:St; [|inv Ec; intros [[]|?]; auto].
      apply starts_spec in St as [t ->]. cbn [app skipn] in Ec. apply cut_spec in Ec as (-> & _).
      intros Hc. cbn [app In]. rewrite in_app_iff. tauto. }
    destruct (partition 35 r2) as [r3 fr] eqn:E3. destruct (partition 63 r3) as [r4 qu] eqn:E4.
    destruct (_ && _); [|discriminate]. inv H. cbn [u_netloc u_path u_query u_fragment] in Hi.
    apply H2. destruct Hi as [Hi|Hi]; auto. right. eapply in_partition; eauto.
    destruct Hi as [Hi|[Hi|Hi]]; auto; left; eapply in_partition; eauto.
  Qed.

  Lemma iri_semi iri o : iri_to_uri idna_part ip_ok nfkc_ok iri = Ok o -> In 59 o -> In 59 iri.
  Proof.
    intros H. apply iri_to_uri_parts in H as (u & nl & p & q & f & Eu & En & Ep & Eq & Ef & ->).
    intros Hi. apply (urlsplit_in _ u); auto.
    assert (W := Eu). apply urlsplit_wf in W as [W _].
    assert (Hs : ~ In 59 (u_scheme u)).
    { destruct (wf_scheme u W) as [->|(_ & G & _)]; [intros []|]. rewrite forallb_forall in G. intros Hc.
      apply G in Hc. apply scheme_char_spec in Hc. cbn [In] in Hc. lia. }
    unfold urlunsplit in Hi. cbn [u_scheme u_netloc u_path u_query u_fragment] in Hi.
    assert (Hn : In 59 nl -> In 59 (u_netloc u)) by (apply encode_netloc_semi; auto).
    assert (Hp : In 59 p -> In 59 (u_path u)) by (apply (urlquote_59 _ _ _ Ep)).
    assert (Hq : In 59 q -> In 59 (u_query u)) by (apply (urlquote_59 _ _ _ Eq)).
    assert (Hf : In 59 f -> In 59 (u_fragment u)) by (apply (urlquote_59 _ _ _ Ef)).
    assert (Pq : In 59 (prefix_if q [63]) -> In 59 q).
    { unfold prefix_if. destruct (is_nil q); [intros []|]. intros [Hx|Hx]; [discriminate|auto]. }
    assert (Pf : In 59 (prefix_if f [35]) -> In 59 f).
    { unfold prefix_if. destruct (is_nil f); [intros []|]. intros [Hx|Hx]; [discriminate|auto]. }
    rewrite !in_app_iff in Hi. destruct Hi as [Hi|[Hi|Hi]]; [|tauto|tauto].
    set (c1 := _ || starts [47; 47] p) in *.
    assert (Hb : In 59 (if c1 then [47; 47] ++ nl ++ (if negb (is_nil p) && negb (starts [47] p) then 47 :: p else p) else p)
                 -> In 59 nl \/ In 59 p).
    { destruct c1; auto. cbn [app]. intros [Hx|[Hx|Hx]]; try discriminate. apply in_app_iff in Hx as [Hx|Hx]; auto.
      destruct (negb (is_nil p) && negb (starts [47] p)); auto. destruct Hx as [Hx|Hx]; [discriminate|auto]. }
    destruct (is_nil (u_scheme u)); [tauto|]. apply in_app_iff in Hi as [Hi|[Hi|Hi]]; [tauto|discriminate|tauto].
  Qed.
End Semi.

Lemma split_join_semi l : forall x, ~ In 59 x -> (forall y, In y l -> ~ In 59 y) ->
  split_on 59 (join (lit "; ") (x :: l)) = x :: map (cons 32) l.
Proof.
  induction l as [|y l IH]; intros x Hx Hl.
  - cbn [join map]. apply split_on_none; auto.
  - change (join (lit "; ") (x :: y :: l)) with (x ++ 59 :: (32 :: join (lit "; ") (y :: l))).
    rewrite split_on_app by auto. cbn [map]. f_equal.
    assert (E : split_on 59 (join (lit "; ") (y :: l)) = y :: map (cons 32) l).
    { apply IH; [apply Hl; left; auto|intros z Hz; apply Hl; right; auto]. }
    cbn [split_on]. change (32 =? 59) with false. cbv iota. rewrite E. auto.
Qed.

Section DumpProof.
  Variable idna_part : str -> res str.
  Variable ip_ok nfkc_ok : str -> bool.
  Variable date_after : Z -> str.
  Hypothesis idna_semi : forall p e, idna_part p = Ok e -> ~ In 59 e.
  Hypothesis date_semi : forall m, ~ In 59 (date_after m).

  Definition expires_of (a : cookie_args) : option str :=
    match a_expires a, a_max_age a with
    | Some e, _ => Some e
    | None, Some m => if a_sync a then Some (date_after m) else None
    | None, None => None
    end.

  Lemma domain_bytes d x : make_cookie_domain idna_part d = Ok (Some x) ->
    (forall p e, idna_part p = Ok e -> bytes_text e) -> bytes_text x.
  Proof.
    unfold make_cookie_domain. destruct d as [d|]; [|discriminate].
    destruct (encode_idna idna_part d) as [e|] eqn:E; cbn [bind]; [|discriminate].
    destruct (mem 46 _); [|discriminate]. intros H Hi; inv H.
    assert (B : bytes_text e).
    { unfold encode_idna in E. destruct (is_ascii d) eqn:A.
      - inv E. apply is_ascii_text in A. intros c Hc. apply A in Hc. lia.
      - destruct (fold_right _ (Ok []) (split_on 46 d)) as [parts|] eqn:F; cbn [bind] in E; [|discriminate].
        inv E. intros c Hc. apply in_join in Hc as [[<-|[]]|(y & Hy & Hc)]; [lia|].
        destruct (idna_parts_in _ _ _ F y Hy) as [p Hp]. apply (Hi p y Hp). auto. }
    destruct (partition 58 e) as [u v] eqn:Ep. intros c Hc. apply B. cbn [fst] in Hc. eapply in_partition; eauto.
  Qed.

  Lemma zdec_semi z : ~ In 59 (zdec z).
  Proof.
    unfold zdec. intros H. assert (Hd : forall n, ~ In 59 (dec n)) by (intros n Hn; apply digits_in in Hn; lia).
    destruct z; cbn [In] in H; try (apply Hd in H; auto; fail).
    destruct H as [H|H]; [discriminate|apply Hd in H; auto].
  Qed.

  Lemma dump_cookie_safe key value a h :
    (forall p e, idna_part p = Ok e -> bytes_text e) ->
    (forall c, In c key -> name_char c) ->
    (forall p, a_path a = Some p -> ~ In 59 p) -> (forall e, a_expires a = Some e -> ~ In 59 e) ->
    dump_cookie idna_part ip_ok nfkc_ok date_after key value a = Ok h ->
    exists w vb parts,
      split_on 59 h = (key ++ 61 :: w) :: parts /\
      utf8_encode value = Ok vb /\ (forall fuel, (length w <= fuel)%nat -> cookie_unquote fuel w = Some vb) /\
      Forall2 attr_name parts
        (requested (given (a_domain a)) (given (a_expires a) || (given (a_max_age a) && a_sync a))
           (given (a_max_age a)) (a_secure a) (a_httponly a) (given (a_path a))) /\
      (forall m, a_max_age a = Some m -> In (lit " Max-Age=" ++ zdec m) parts) /\
      (forall e b, a_expires a = Some e -> utf8_encode e = Ok b -> In (lit " Expires=" ++ b) parts) /\
      (forall p, a_path a = Some p -> exists u, iri_to_uri idna_part ip_ok nfkc_ok p = Ok u /\ In (lit " Path=" ++ u) parts) /\
      (forall d, a_domain a = Some d -> ascii_text d -> ~ In 58 d -> In (lit " Domain=" ++ cookie_quote d) parts).
  Proof.
    intros Hib Hk Hp He. unfold dump_cookie.
    assert (Ek : utf8_encode key = Ok key).
    { apply utf8_ascii. apply forallb_forall. intros c Hc. apply Hk, name_char_range in Hc. lia. }
    rewrite Ek. cbn [bind].
    destruct (utf8_encode value) as [vb|] eqn:Ev; cbn [bind]; [|discriminate].
    assert (Hvb : bytes_text vb) by (apply is_bytes_text; eapply utf8_encode_bytes; eauto).
    destruct (match a_path a with None => Ok None | Some p => _ end) as [path|] eqn:Epath; cbn [bind]; [|discriminate].
    destruct (make_cookie_domain idna_part (a_domain a)) as [dom|] eqn:Edom; cbn [bind]; [|discriminate].
    fold (expires_of a).
    destruct (match expires_of a with None => Ok None | Some e => _ end) as [ex|] eqn:Eex; cbn [bind]; [|discriminate].
    intros H; inv H.
    assert (Spath : forall u, path = Some u -> ~ In 59 u).
    { intros u ->. destruct (a_path a) as [p|] eqn:Ea; [|discriminate].
      destruct (iri_to_uri idna_part ip_ok nfkc_ok p) as [u'|] eqn:Eu; cbn [bind] in Epath; [|discriminate]. inv Epath.
      intros Hi. apply (Hp p eq_refl). eapply iri_semi; eauto. }
    assert (Gpath : given path = given (a_path a)).
    { destruct (a_path a) as [p|]; [|inv Epath; auto].
      destruct (iri_to_uri idna_part ip_ok nfkc_ok p); cbn [bind] in Epath; inv Epath. auto. }
    assert (Sdom : forall u, dom = Some u -> ~ In 59 (cookie_quote u)).
    { intros u -> Hi. apply quote_wire in Hi; [unfold wire_byte in Hi; lia|]. eapply domain_bytes; eauto. }
    assert (Gdom : given dom = given (a_domain a)).
    { unfold make_cookie_domain in Edom. destruct (a_domain a) as [d|]; [|inv Edom; auto].
      destruct (encode_idna idna_part d); cbn [bind] in Edom; [|discriminate]. destruct (mem 46 _); inv Edom; auto. }
    assert (Sex : forall u, ex = Some u -> ~ In 59 u).
    { intros u -> Hi. destruct (expires_of a) as [e|] eqn:Ee; [|discriminate].
      destruct (utf8_encode e) as [b|] eqn:Eb; cbn [bind] in Eex; inv Eex.
      apply (utf8_in_ascii e u 59) in Hi; auto; [|lia]. unfold expires_of in Ee.
      destruct (a_expires a) as [e'|]; [inv Ee; eapply He; eauto|].
      destruct (a_max_age a); [|discriminate]. destruct (a_sync a); inv Ee. eapply date_semi; eauto. }
    assert (Gex : given ex = given (a_expires a) || (given (a_max_age a) && a_sync a)).
    { unfold expires_of in Eex. destruct (a_expires a) as [e|]; cbn [given orb].
      - destruct (utf8_encode e); cbn [bind] in Eex; inv Eex; auto.
      - destruct (a_max_age a) as [m|]; cbn [given andb]; [|inv Eex; auto].
        destruct (a_sync a); [|inv Eex; auto]. destruct (utf8_encode (date_after m)); cbn [bind] in Eex; inv Eex; auto. }
    set (l := attr (lit "Domain") (option_map cookie_quote dom)
       ++ attr (lit "Expires") ex
       ++ attr (lit "Max-Age") (option_map zdec (a_max_age a))
       ++ (if a_secure a then [lit "Secure"] else [])
       ++ (if a_httponly a then [lit "HttpOnly"] else [])
       ++ attr (lit "Path") path).
    assert (Hl : forall y, In y l -> ~ In 59 y).
    { intros y Hy. unfold l in Hy. rewrite !in_app_iff in Hy.
      assert (At : forall nm v, ~ In 59 nm -> (forall u, v = Some u -> ~ In 59 u) -> In y (attr nm v) -> ~ In 59 y).
      { intros nm v Hn Hv Hi. unfold attr in Hi. destruct v as [x|]; [|destruct Hi]. destruct Hi as [<-|[]].
        intros Hi. apply in_app_iff in Hi as [Hi|[Hi|Hi]]; [auto|discriminate|]. eapply Hv; eauto. }
      destruct Hy as [Hy|[Hy|[Hy|[Hy|[Hy|Hy]]]]].
      - eapply At; [| |exact Hy]; [cbn; intros K; decompose [or] K; try discriminate; auto|].
        intros u Hu. destruct dom as [d|]; inv Hu. apply Sdom. auto.
      - eapply At; [| |exact Hy]; [cbn; intros K; decompose [or] K; try discriminate; auto|]. exact Sex.
      - eapply At; [| |exact Hy]; [cbn; intros K; decompose [or] K; try discriminate; auto|].
        intros u Hu. destruct (a_max_age a) as [m|]; inv Hu. apply zdec_semi.
      - destruct (a_secure a); [destruct Hy as [<-|[]]|destruct Hy]. cbn; intros K; decompose [or] K; try discriminate; auto.
      - destruct (a_httponly a); [destruct Hy as [<-|[]]|destruct Hy]. cbn; intros K; decompose [or] K; try discriminate; auto.
      - eapply At; [| |exact Hy]; [cbn; intros K; decompose [or] K; try discriminate; auto|]. exact Spath. }
    exists (cookie_quote vb), vb, (map (cons 32) l). split.
    { apply split_join_semi; auto. intros Hi. apply in_app_iff in Hi as [Hi|[Hi|Hi]]; [|discriminate|].
      - apply Hk, name_char_range in Hi. lia.
      - apply quote_wire in Hi; auto. unfold wire_byte in Hi. lia. }
    split; [auto|]. split; [intros fuel Hf; apply cookie_quote_roundtrip; auto|].
    split; [|split; [|split; [|split]]].
    - rewrite <- Gpath, <- Gdom, <- Gex.
      assert (At : forall nm v, ~ In 61 nm -> Forall2 attr_name (map (cons 32) (attr nm v)) (if given v then [nm] else [])).
      { intros nm v Hn. unfold attr. destruct v as [x|]; cbn [given map]; constructor; [|constructor]. right. eauto. }
      assert (Om : forall (o : option Z), given (option_map zdec o) = given o) by (intros []; auto).
      assert (Od : forall (o : option str), given (option_map cookie_quote o) = given o) by (intros []; auto).
      unfold l, requested. rewrite !map_app. rewrite <- (Om (a_max_age a)), <- (Od dom).
      repeat apply Forall2_app; try (apply At; cbn; intros K; decompose [or] K; try discriminate; auto; fail).
      + destruct (a_secure a); cbn [map]; repeat constructor.
      + destruct (a_httponly a); cbn [map]; repeat constructor.
    - intros m Hm. rewrite Hm in *. apply (in_map (cons 32) l (lit "Max-Age=" ++ zdec m)). unfold l. rewrite !in_app_iff, Hm.
      right; right; left. left. auto.
    - intros e b Hm Eb. unfold expires_of in Eex. rewrite Hm in Eex. rewrite Eb in Eex. cbn [bind] in Eex. inv Eex.
      apply (in_map (cons 32) l (lit "Expires=" ++ b)). unfold l. rewrite !in_app_iff. right; left. left. auto.
    - intros p Hm. rewrite Hm in *. destruct (iri_to_uri idna_part ip_ok nfkc_ok p) as [u|] eqn:Eu; cbn [bind] in Epath; inv Epath.
      exists u. split; auto.
      apply (in_map (cons 32) l (lit "Path=" ++ u)). unfold l. rewrite !in_app_iff. do 5 right. left. auto.
    - intros d Hm Ha H58. rewrite Hm in *. unfold make_cookie_domain, encode_idna in Edom.
      apply is_ascii_text in Ha. rewrite Ha in Edom. cbn [bind] in Edom. rewrite partition_none in Edom by auto.
      cbn [fst] in Edom. destruct (mem 46 d); inv Edom.
      apply (in_map (cons 32) l (lit "Domain=" ++ cookie_quote d)). unfold l. rewrite !in_app_iff. left. left. auto.
  Qed.
End DumpProof.
