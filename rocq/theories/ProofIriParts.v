(** Conversions of whole URLs, part by part (C121). *)
From Coq Require Import Arith List NArith ZArith Bool Lia ZifyBool ZifyN ZifyNat.
From Verif Require Import PyStr PyStrFacts Utf8 Utf8Facts ModelUrls SpecUrls ProofUrls ProofIri ProofRange SpecIri.
Import ListNotations.
Open Scope N_scope.
Ltac inv H := inversion H; subst; clear H.

(** ** Escaping *)
Lemma escape_upper e b : escape e b -> (forall x, In x e -> ~ (97 <= x <= 122)) -> e = pct b.
Proof.
  intros H Hu. inv H.
  assert (X : forall c v, hexdigit c v -> ~ (97 <= c <= 122) -> hex_upper v = c /\ v < 16).
  { intros c v Hc. inv Hc; unfold hex_upper; intros; [replace (v <? 10) with true by lia|replace (v <? 10) with false by lia|]; lia. }
  apply X in H0 as [Ea La]; [|apply Hu; cbn; auto]. apply X in H1 as [Eb Lb]; [|apply Hu; cbn; auto].
  unfold pct. replace ((16 * x + y) / 16) with x by (apply (N.div_unique _ 16 _ y); lia).
  replace ((16 * x + y) mod 16) with y by (apply (N.mod_unique _ 16 x); lia). subst. auto.
Qed.
Lemma pct_upper b x : b < 256 -> In x (pct b) -> ~ (97 <= x <= 122) /\ x <> 32 /\ x < 128.
Proof.
  intros Hb. unfold pct. assert (b / 16 < 16) by (apply N.div_lt_upper_bound; lia).
  assert (b mod 16 < 16) by (apply N.mod_lt; lia).
  pose proof (hex_upper_range _ H). pose proof (hex_upper_range _ H0).
  intros [<-|[<-|[<-|[]]]]; lia.
Qed.
Lemma kept_quote safe c : ascii_text safe -> kept safe c <-> quote_safe safe c = true.
Proof. intros Ha. rewrite quote_safe_spec. unfold kept. pose proof (Ha c). tauto. Qed.
Lemma kept_ascii safe c : ascii_text safe -> kept safe c -> c < 128.
Proof. intros Ha [H|H]; [unfold unreserved in H; lia|auto]. Qed.
Lemma encode_one c bytes : utf8_encode [c] = Ok bytes -> scalar c = true /\ bytes = utf8_char c.
Proof.
  unfold utf8_encode. cbn [forallb flat_map]. destruct (scalar c); cbn [andb]; [|discriminate].
  intros H; inv H. rewrite app_nil_r. auto.
Qed.
Lemma encode_cons c s b : scalar c = true -> utf8_encode s = Ok b -> utf8_encode (c :: s) = Ok (utf8_char c ++ b).
Proof.
  unfold utf8_encode. cbn [forallb flat_map]. intros ->. destruct (forallb scalar s); cbn [andb]; [|discriminate].
  intros H; inv H. auto.
Qed.
Lemma small_scalar c : c < 128 -> scalar c = true /\ utf8_char c = [c].
Proof. unfold scalar, between, utf8_char. intros H. replace (c <? 128) with true by lia. split; [lia|auto]. Qed.
Lemma bytes_unsafe safe c b : ascii_text safe -> scalar c = true -> ~ kept safe c -> In b (utf8_char c) -> quote_safe safe b = false.
Proof.
  intros Ha Hs Hk Hb. destruct (quote_safe safe b) eqn:E; auto. exfalso. apply Hk.
  apply kept_quote in E; auto. pose proof (kept_ascii _ _ Ha E). destruct (utf8_char_high c b Hs Hb H) as [<- _]. auto.
Qed.
Lemma quote_bytes_app safe a b : quote_bytes safe (a ++ b) = quote_bytes safe a ++ quote_bytes safe b.
Proof. apply flat_map_app. Qed.
Lemma quote_unsafe safe bs : (forall b, In b bs -> quote_safe safe b = false) -> quote_bytes safe bs = concat (map pct bs).
Proof.
  induction bs as [|b bs IH]; intros H; auto. cbn [quote_bytes flat_map map concat]. unfold quote_byte at 1.
  rewrite H by (left; auto). f_equal. apply IH. intros x Hx. apply H. right; auto.
Qed.
Lemma escapes_pct es bytes : Forall2 (fun e b => escape e b /\ forall x, In x e -> ~ (97 <= x <= 122)) es bytes ->
  es = map pct bytes.
Proof. induction 1 as [|e b es bs [H1 H2] _ IH]; auto. cbn [map]. rewrite <- IH, <- (escape_upper e b); auto. Qed.
Lemma pct_escapes bytes : bytes_text bytes ->
  Forall2 (fun e b => escape e b /\ forall x, In x e -> ~ (97 <= x <= 122)) (map pct bytes) bytes.
Proof.
  induction bytes as [|b bs IH]; intros H; constructor.
  - split; [apply escape_pct; apply H; left; auto|]. intros x Hx. eapply pct_upper; eauto. apply H; left; auto.
  - apply IH. intros x Hx. apply H. right; auto.
Qed.
Lemma char_bytes c : scalar c = true -> bytes_text (utf8_char c).
Proof. intros H b Hb. apply utf8_char_bytes in H. rewrite forallb_forall in H. apply H in Hb. lia. Qed.

Lemma escaped_quote safe s q : ascii_text safe -> escaped false safe s q -> urlquote safe s = Ok q.
Proof.
  intros Ha H. induction H as [|c s q Hk _ IH|s q X|c bytes es s q Hk _ Hb Hes _ IH]; [reflexivity| |discriminate|].
  - unfold urlquote in *. destruct (utf8_encode s) as [b|] eqn:E; cbn [bind] in IH; [|discriminate]. inv IH.
    pose proof (kept_ascii _ _ Ha Hk) as L. destruct (small_scalar c L) as [S1 S2].
    rewrite (encode_cons c s b), S2 by auto. cbn [bind app]. rewrite quote_cons_safe; auto. apply kept_quote; auto.
  - unfold urlquote in *. destruct (utf8_encode s) as [b|] eqn:E; cbn [bind] in IH; [|discriminate]. inv IH.
    apply encode_one in Hb as [Hs ->]. rewrite (encode_cons c s b) by auto. cbn [bind]. rewrite quote_bytes_app.
    rewrite quote_unsafe by (intros x Hx; eapply bytes_unsafe; eauto). rewrite (escapes_pct _ _ Hes). auto.
Qed.
Lemma escaped_total plus safe s : unicode_text s -> exists q, escaped plus safe s q.
Proof.
  induction s as [|c s IH]; intros H; [exists []; constructor|].
  destruct IH as [q Hq]; [intros x Hx; apply H; right; auto|].
  assert (Hs : scalar c = true) by (specialize (H c (or_introl eq_refl)); unfold scalar, between; lia).
  assert (D : kept safe c \/ ~ kept safe c).
  { unfold kept. destruct (in_dec N.eq_dec c safe); [tauto|]. rewrite <- always_safe_spec.
    destruct (always_safe c); [auto|right; intros [X|X]; [discriminate|tauto]]. }
  destruct D as [Hk|Hk]; [exists (c :: q); constructor; auto|].
  assert (Hb : utf8_encode [c] = Ok (utf8_char c)).
  { unfold utf8_encode. cbn [forallb flat_map]. rewrite Hs, app_nil_r. reflexivity. }
  assert (D : plus = true /\ c = 32 \/ (plus = true -> c <> 32)).
  { destruct plus; [|right; discriminate]. destruct (N.eq_dec c 32); auto. }
  destruct D as [[-> ->]|D]; [exists (43 :: q); apply es_space; auto|].
  exists (concat (map pct (utf8_char c)) ++ q). apply (es_code _ _ c (utf8_char c)); auto.
  apply pct_escapes. apply char_bytes; auto.
Qed.

Definition plus_c (c : N) : N := if c =? 32 then 43 else c.
Lemma plus_id l : ~ In 32 l -> map plus_c l = l.
Proof.
  induction l as [|c l IH]; intros H; auto. cbn [map]. unfold plus_c at 1. rewrite IH by (intros X; apply H; right; auto).
  destruct (c =? 32) eqn:E; auto. exfalso. apply H. left. lia.
Qed.
Lemma escaped_plus_quote safe s q : ascii_text safe -> ~ In 32 safe -> escaped true safe s q -> urlquote_plus safe s = Ok q.
Proof.
  intros Ha H32 H. assert (Ha' : ascii_text (32 :: safe)) by (intros x [<-|Hx]; [lia|auto]).
  unfold urlquote_plus. change (fun c => if c =? 32 then 43 else c) with plus_c.
  induction H as [|c s q Hk _ IH|s q _ _ IH|c bytes es s q Hk Hn Hb Hes _ IH]; [reflexivity| | |].
  - destruct (utf8_encode s) as [b|] eqn:E; cbn [bind] in IH; [|discriminate]. inv IH.
    pose proof (kept_ascii _ _ Ha Hk) as L. destruct (small_scalar c L) as [S1 S2].
    rewrite (encode_cons c s b), S2 by auto. cbn [bind app]. rewrite quote_cons_safe.
    + cbn [map]. unfold plus_c at 1. replace (c =? 32) with false; auto. symmetry. apply N.eqb_neq. intros ->.
      destruct Hk as [Hk|Hk]; [unfold unreserved in Hk; lia|auto].
    + apply kept_quote; auto. destruct Hk; [left|right; right]; auto.
  - destruct (utf8_encode s) as [b|] eqn:E; cbn [bind] in IH; [|discriminate]. inv IH.
    rewrite (encode_cons 32 s b) by auto. cbn [bind app utf8_char N.ltb]. change (utf8_char 32) with [32]. cbn [app].
    rewrite quote_cons_safe; [reflexivity|]. apply kept_quote; auto. right; left; auto.
  - destruct (utf8_encode s) as [b|] eqn:E; cbn [bind] in IH; [|discriminate]. inv IH.
    apply encode_one in Hb as [Hs ->]. rewrite (encode_cons c s b) by auto. cbn [bind]. rewrite quote_bytes_app, map_app.
    assert (Hk' : ~ kept (32 :: safe) c).
    { intros [X|[X|X]]; [apply Hk; left; auto|apply Hn; auto|apply Hk; right; auto]. }
    rewrite quote_unsafe by (intros x Hx; eapply bytes_unsafe; eauto). rewrite (escapes_pct _ _ Hes).
    rewrite plus_id; auto. rewrite in_concat. intros (l & Hl & Hx). apply in_map_iff in Hl as (y & <- & Hy).
    apply pct_upper in Hx; [lia|]. eapply char_bytes; eauto.
Qed.

Lemma quote_escaped safe s q : ascii_text safe -> urlquote safe s = Ok q -> escaped false safe s q.
Proof.
  intros Ha H. assert (U : unicode_text s).
  { apply scalar_text. unfold urlquote, utf8_encode in H. destruct (forallb scalar s); [auto|discriminate]. }
  destruct (escaped_total false safe s U) as [q' E]. apply escaped_quote in E as E'; auto. congruence.
Qed.
Lemma quote_plus_escaped safe s q : ascii_text safe -> ~ In 32 safe -> urlquote_plus safe s = Ok q -> escaped true safe s q.
Proof.
  intros Ha H32 H. assert (U : unicode_text s).
  { apply scalar_text. unfold urlquote_plus, utf8_encode in H. destruct (forallb scalar s); [auto|discriminate]. }
  destruct (escaped_total true safe s U) as [q' E]. apply escaped_plus_quote in E as E'; auto. congruence.
Qed.

Lemma shown_unquote err keep s t : shown err keep s t -> safe_unquote err keep s = Ok t.
Proof.
  intros (b & b' & Hb & Hu & Hd). unfold safe_unquote. rewrite Hb. cbn [bind].
  rewrite (unescapes_fun _ _ _ (safe_unquote_spec keep b) _ Hu). auto.
Qed.
Lemma unquote_shown err keep s t : safe_unquote err keep s = Ok t -> shown err keep s t.
Proof.
  unfold safe_unquote. destruct (utf8_encode s) as [b|] eqn:E; cbn [bind]; [|discriminate]. intros H.
  exists b, (safe_unquote_bytes keep b). split; auto. split; auto. apply safe_unquote_spec.
Qed.

(** ** Reading the parts back *)
Section Parts.
  Variable ip_ok nfkc_ok : str -> bool.
  Notation urlsplit := (urlsplit ip_ok nfkc_ok).
  Notation proper := (proper ip_ok nfkc_ok).

  Lemma write_host_eq h : write_host h = if mem 58 h then 91 :: h ++ [93] else h.
  Proof. reflexivity. Qed.
  Lemma port_in p c : In c (write_port p) -> c = 58 \/ 48 <= c <= 57.
  Proof.
    destruct p as [n|]; [|intros []]. cbn [write_port]. change (lit ":") with [58]. intros [<-|H]; auto.
    right. apply digits_in in H. auto.
  Qed.
  Definition host_port (l : url) : str := write_host (l_host l) ++ write_port (l_port l).
  Lemma host_in l c : proper l -> In c (host_port l) ->
    c <> 64 /\ c <> 47 /\ c <> 63 /\ c <> 35 /\ c <> 9 /\ c <> 10 /\ c <> 13.
  Proof.
    intros [_ _ [_ [H _]] _ _ _ _ _] Hc. unfold host_port in Hc. apply in_app_iff in Hc as [Hc|Hc].
    - assert (X : In c (l_host l) \/ c = 91 \/ c = 93).
      { rewrite write_host_eq in Hc. destruct (mem 58 (l_host l)); auto. destruct Hc as [<-|Hc]; auto.
        apply in_app_iff in Hc as [Hc|[<-|[]]]; auto. }
      destruct X as [X|X]; [|lia]. apply H in X as [X1 X2]. change (lit "/?#[]@%") with [47; 63; 35; 91; 93; 64; 37] in X1.
      cbn [In] in X1. lia.
    - apply port_in in Hc. lia.
  Qed.
  Lemma user_in l c : proper l -> In c (write_user (l_user l)) ->
    c <> 91 /\ c <> 93 /\ c <> 47 /\ c <> 63 /\ c <> 35 /\ c <> 9 /\ c <> 10 /\ c <> 13.
  Proof.
    intros [_ H _ _ _ _ _ _] Hc. destruct (l_user l) as [[n w]|] eqn:E; [|destruct Hc].
    specialize (H n w eq_refl) as (_ & Hn & Hw).
    assert (X : In c n -> c <> 91 /\ c <> 93 /\ c <> 47 /\ c <> 63 /\ c <> 35 /\ c <> 9 /\ c <> 10 /\ c <> 13).
    { intros X. apply Hn in X as [X1 X2]. change (lit "/?#[]@:") with [47; 63; 35; 91; 93; 64; 58] in X1. cbn [In] in X1. lia. }
    destruct w as [w|]; cbn [write_user] in Hc; change (lit "@") with [64] in Hc; change (lit ":") with [58] in Hc.
    - specialize (Hw w eq_refl) as [_ Hw]. rewrite !in_app_iff in Hc. destruct Hc as [Hc|[[<-|[]]|[Hc|[<-|[]]]]]; auto; [lia| |lia].
      apply Hw in Hc as [X1 X2]. change (lit "/?#[]@") with [47; 63; 35; 91; 93; 64] in X1. cbn [In] in X1. lia.
    - rewrite in_app_iff in Hc. destruct Hc as [Hc|[<-|[]]]; auto. lia.
  Qed.
  Definition auth_text (u : str * option str) : str := match u with (n, None) => n | (n, Some w) => n ++ 58 :: w end.
  Lemma write_user_eq u : write_user u = match u with Some a => auth_text a ++ [64] | None => [] end.
  Proof. destruct u as [[n [w|]]|]; auto. cbn [write_user auth_text]. change (lit "@") with [64]. change (lit ":") with [58].
    rewrite <- app_assoc. auto. Qed.
  Lemma location_eq l : location l = match l_user l with Some a => auth_text a ++ 64 :: host_port l | None => host_port l end.
  Proof.
    unfold location, host_port. rewrite write_user_eq. destruct (l_user l); auto. rewrite <- app_assoc. auto.
  Qed.

  Lemma location_split l : proper l ->
    rsplit1 64 (location l) = match l_user l with Some a => Some (auth_text a, host_port l) | None => None end.
  Proof.
    intros P. assert (H : ~ In 64 (host_port l)) by (intros X; apply host_in in X; auto; tauto).
    rewrite location_eq. destruct (l_user l); [apply rsplit1_some; auto|apply rsplit1_none; auto].
  Qed.
  Lemma location_user l : proper l -> userinfo (location l) = l_user l.
  Proof.
    intros P. unfold userinfo. rewrite location_split by auto. destruct (l_user l) as [[n w]|] eqn:E; auto.
    destruct (pr_user _ _ _ P n w E) as (_ & Hn & _).
    assert (N : ~ In 58 n) by (intros X; apply Hn in X as [X _]; apply X; cbn; tauto).
    destruct w as [w|]; cbn [auth_text].
    - rewrite split1_app; auto.
    - apply split1_none in N. rewrite N. auto.
  Qed.
  Lemma host_plain l : proper l -> ~ In 91 (l_host l) /\ ~ In 93 (l_host l) /\ ~ In 37 (l_host l).
  Proof.
    intros [_ _ [_ [H _]] _ _ _ _ _].
    repeat split; intros X; apply H in X as [X _]; apply X; cbn; tauto.
  Qed.
  Lemma port_plain p : ~ In 91 (write_port p).
  Proof. intros X. apply port_in in X. lia. Qed.
  Lemma port_partition p : partition 58 (write_port p) = ([], match p with Some n => dec n | None => [] end).
  Proof. destruct p; reflexivity. Qed.
  Lemma location_host l : proper l ->
    hostinfo (location l) = (l_host l, match l_port l with Some n => dec n | None => [] end).
  Proof.
    intros P. destruct (host_plain l P) as (H91 & H93 & _). unfold hostinfo. rewrite location_split by auto.
    assert (E : (match split1 91 (host_port l) with
      | Some (_, bracketed) => let (hostname, rest) := partition 93 bracketed in (hostname, snd (partition 58 rest))
      | None => partition 58 (host_port l) end) = (l_host l, match l_port l with Some n => dec n | None => [] end)).
    { unfold host_port. rewrite write_host_eq. destruct (mem 58 (l_host l)) eqn:E.
      - change ((91 :: l_host l ++ [93]) ++ write_port (l_port l)) with ([] ++ 91 :: (l_host l ++ [93]) ++ write_port (l_port l)).
        rewrite split1_app by auto. rewrite <- app_assoc. cbn [app]. rewrite partition_app by auto.
        rewrite port_partition. auto.
      - apply mem_not_In in E. assert (N : ~ In 91 (l_host l ++ write_port (l_port l))).
        { rewrite in_app_iff. intros [X|X]; [auto|eapply port_plain; eauto]. }
        apply split1_none in N. rewrite N. destruct (l_port l) as [n|]; cbn [write_port].
        + apply partition_app; auto.
        + rewrite app_nil_r. apply partition_none; auto. }
    destruct (l_user l) as [a|] eqn:Eu; [exact E|]. rewrite location_eq, Eu. exact E.
  Qed.
  Lemma location_hostname l : proper l -> hostname (location l) = lower (l_host l).
  Proof.
    intros P. rewrite hostname_eq, location_host by auto. cbn [fst]. unfold lowered.
    destruct (host_plain l P) as (_ & _ & H). apply split1_none in H. rewrite H. auto.
  Qed.
  Definition port_number (p : option N) : N := match p with Some n => n | None => 0 end.
  Lemma location_port l : proper l -> port (location l) = Ok (port_number (l_port l)).
  Proof.
    intros P. unfold port. rewrite location_host by auto. cbn [snd]. pose proof (pr_port _ _ _ P) as H.
    destruct (l_port l) as [n|]; auto. specialize (H n eq_refl).
    destruct (dec n) as [|d ds] eqn:Ed; [exfalso; eapply dec_nonnil; eauto|]. cbn [is_nil]. rewrite <- Ed.
    rewrite dec_digits, dec_val. replace (n <=? 65535) with true by lia. auto.
  Qed.
  Lemma location_nonnil l : l_host l <> [] -> location l <> [].
  Proof.
    intros H. unfold location. rewrite write_host_eq.
    destruct (write_user _); [|discriminate]. destruct (l_host l); [congruence|]. destruct (mem 58 _); discriminate.
  Qed.

  Lemma location_auth conv l u' : proper l -> user_by (fun a b => conv a = Ok b) (l_user l) u' ->
    convert_auth conv (location l) = Ok (option_map auth_text u').
  Proof.
    intros P H. unfold convert_auth. rewrite location_user by auto. pose proof (pr_user _ _ _ P) as Hu.
    destruct (l_user l) as [[n w]|]; cbn [user_by] in H.
    - destruct (Hu n w eq_refl) as (Hn & _ & Hw). destruct n as [|c n]; [congruence|]. cbn [is_nil andb].
      destruct w as [w|].
      + destruct u' as [[n' [w'|]]|]; try tauto. destruct H as [-> H]. cbn [bind].
        destruct (Hw w eq_refl) as [Hw' _]. destruct w as [|d w]; [congruence|]. cbn [is_nil]. rewrite H. auto.
      + destruct u' as [[n' [w'|]]|]; try tauto. rewrite H. auto.
    - destruct u'; [tauto|auto].
  Qed.
  Lemma make_location l' : (forall n, l_port l' = Some n -> 0 < n) ->
    make_netloc (l_host l') (port_number (l_port l')) (option_map auth_text (l_user l')) = location l'.
  Proof.
    intros Hp. unfold make_netloc. rewrite location_eq. unfold host_port. rewrite write_host_eq.
    assert (E : (if port_number (l_port l') =? 0 then if mem 58 (l_host l') then 91 :: l_host l' ++ [93] else l_host l'
      else (if mem 58 (l_host l') then 91 :: l_host l' ++ [93] else l_host l') ++ 58 :: dec (port_number (l_port l')))
      = (if mem 58 (l_host l') then 91 :: l_host l' ++ [93] else l_host l') ++ write_port (l_port l')).
    { destruct (l_port l') as [n|]; cbn [port_number write_port].
      - specialize (Hp n eq_refl). replace (n =? 0) with false by lia. auto.
      - rewrite app_nil_r. auto. }
    rewrite E. destruct (l_user l'); auto.
  Qed.

  (** *** The split of the written URL *)
  Lemma with_mark_nil m s : s = [] -> with_mark m s = [].
  Proof. intros ->. auto. Qed.
  Lemma letter_alpha c : scheme_letter c -> is_ascii_alpha c = true.
  Proof. unfold scheme_letter, is_ascii_alpha, is_ascii_upper, is_ascii_lower, between. lia. Qed.
  Lemma scheme_chars l : proper l -> forallb scheme_char (l_scheme l) = true.
  Proof.
    intros P. destruct (pr_scheme _ _ _ P) as (c & r & -> & Hc & Hr). rewrite forallb_forall. intros x Hx. apply scheme_char_spec.
    destruct Hx as [<-|Hx]; [unfold scheme_letter in Hc; lia|].
    destruct (Hr x Hx) as [X|[X|X]]; [unfold scheme_letter in X; lia|lia|]. cbn in X. lia.
  Qed.
  Lemma scheme_split l rest : proper l -> split_scheme (l_scheme l ++ 58 :: rest) = (lower (l_scheme l), rest).
  Proof.
    intros P. pose proof (scheme_chars l P) as F. unfold split_scheme. rewrite split1_app.
    - destruct (pr_scheme _ _ _ P) as (c & r & E & Hc & _). rewrite E in *. rewrite F, (letter_alpha c); auto.
    - intros X. eapply scheme_no_special in X; eauto. lia.
  Qed.
  Lemma location_bracket l : proper l -> bracket_ok ip_ok (location l) = true.
  Proof.
    intros P. destruct (host_plain l P) as (H91 & H93 & _). unfold bracket_ok.
    assert (U : forall c, In c (write_user (l_user l)) -> c <> 91 /\ c <> 93) by (intros c Hc; apply user_in in Hc; tauto).
    unfold location. rewrite write_host_eq. destruct (mem 58 (l_host l)) eqn:E.
    - set (t := write_user (l_user l) ++ (91 :: l_host l ++ [93]) ++ write_port (l_port l)).
      assert (M1 : mem 91 t = true) by (apply mem_In; unfold t; rewrite !in_app_iff; right; left; left; auto).
      assert (M2 : mem 93 t = true) by (apply mem_In; unfold t; rewrite !in_app_iff; right; left; right; rewrite in_app_iff; right; left; auto).
      rewrite M1, M2. cbn [andb]. unfold t. cbn [app]. rewrite partition_app by (intros X; apply U in X; tauto). cbn [snd].
      rewrite <- app_assoc. cbn [app]. rewrite partition_app by auto. cbn [fst].
      apply (pr_host _ _ _ P). apply mem_In; auto.
    - assert (N : forall c, c = 91 \/ c = 93 -> mem c (write_user (l_user l) ++ l_host l ++ write_port (l_port l)) = false).
      { intros c Hc. apply mem_not_In. rewrite !in_app_iff. intros [X|[X|X]].
        - apply U in X. lia.
        - destruct Hc; subst; auto.
        - apply port_in in X. lia. }
      rewrite !N by auto. auto.
  Qed.
  Lemma location_in l c : proper l -> In c (location l) ->
    c <> 47 /\ c <> 63 /\ c <> 35 /\ c <> 9 /\ c <> 10 /\ c <> 13.
  Proof.
    intros P. unfold location. fold (host_port l). rewrite in_app_iff. intros [H|H]; [apply user_in in H|apply host_in in H]; tauto.
  Qed.
  Lemma in_mark c m s : In c (with_mark m s) -> In c m \/ In c s.
  Proof. destruct s; [intros []|]. cbn [with_mark]. apply in_app_iff. Qed.

  Lemma split_written l : proper l ->
    urlsplit (write_url l) = Ok (Split (lower (l_scheme l)) (location l) (l_path l) (l_query l) (l_fragment l)).
  Proof.
    intros P. unfold ModelUrls.urlsplit.
    assert (C : url_clean (write_url l) = write_url l).
    { apply clean_id.
      - intros c r E. destruct (pr_scheme _ _ _ P) as (c' & r' & Es & Hc & _). unfold write_url in E. rewrite Es in E. inv E.
        unfold scheme_letter in Hc. lia.
      - intros c Hc. assert (c <> 9 /\ c <> 10 /\ c <> 13); [|cbn [In]; lia].
        unfold write_url in Hc. rewrite !in_app_iff in Hc. destruct Hc as [Hc|[Hc|[Hc|[Hc|[Hc|Hc]]]]].
        + eapply scheme_no_special in Hc; [|apply scheme_chars; auto]. lia.
        + cbn in Hc. lia.
        + apply location_in in Hc; auto. tauto.
        + apply (pr_path _ _ _ P) in Hc. tauto.
        + apply in_mark in Hc as [Hc|Hc]; [cbn in Hc; lia|]. apply (pr_query _ _ _ P) in Hc. tauto.
        + apply in_mark in Hc as [Hc|Hc]; [cbn in Hc; lia|]. apply (pr_fragment _ _ _ P) in Hc. tauto. }
    rewrite C. unfold write_url. change (lit "://") with (58 :: [47; 47]). cbn [app]. rewrite scheme_split by auto.
    set (tl := l_path l ++ with_mark (lit "?") (l_query l) ++ with_mark (lit "#") (l_fragment l)).
    cbn [starts N.eqb Pos.eqb andb skipn].
    rewrite cut_app.
    2:{ rewrite forallb_forall. intros c Hc. apply location_in in Hc; auto. apply negb_true_iff. apply mem_not_In. cbn [In]. lia. }
    2:{ unfold tl. destruct (pr_path _ _ _ P) as [[->|[r ->]] _]; [|right; eexists _, _; cbn [app]; eauto].
        destruct (l_query l) as [|q qs]; cbn [with_mark app]; [|right; eexists 63, _; cbn; eauto].
        destruct (l_fragment l) as [|f fs]; [left; auto|right; eexists 35, _; cbn; eauto]. }
    assert (F : partition 35 tl = (l_path l ++ with_mark (lit "?") (l_query l), l_fragment l)).
    { assert (N : ~ In 35 (l_path l ++ with_mark (lit "?") (l_query l))).
      { rewrite in_app_iff. intros [X|X].
        - apply (pr_path _ _ _ P) in X as [X _]. apply X. cbn; auto.
        - apply in_mark in X as [X|X]; [cbn in X; lia|]. apply (pr_query _ _ _ P) in X as [X _]. apply X. cbn; auto. }
      unfold tl. rewrite app_assoc. destruct (l_fragment l) as [|f fs].
      - cbn [with_mark]. rewrite app_nil_r. apply partition_none; auto.
      - cbn [with_mark]. apply partition_app; auto. }
    rewrite F.
    assert (Q : partition 63 (l_path l ++ with_mark (lit "?") (l_query l)) = (l_path l, l_query l)).
    { assert (N : ~ In 63 (l_path l)) by (intros X; apply (pr_path _ _ _ P) in X as [X _]; apply X; cbn; auto).
      destruct (l_query l) as [|f fs]; cbn [with_mark].
      - rewrite app_nil_r. apply partition_none; auto.
      - apply partition_app; auto. }
    rewrite Q, location_bracket by auto. cbn [andb].
    destruct (pr_location _ _ _ P) as [A|A]; [apply is_ascii_text in A|]; rewrite A, ?orb_true_r; auto.
  Qed.
  Lemma prefix_mark s c : prefix_if s [c] = with_mark [c] s.
  Proof. destruct s; auto. Qed.
  Lemma unsplit_written l : l_scheme l <> [] -> l_host l <> [] -> (l_path l = [] \/ exists r, l_path l = 47 :: r) ->
    urlunsplit (Split (l_scheme l) (location l) (l_path l) (l_query l) (l_fragment l)) = write_url l.
  Proof.
    intros Hs Hh Hp. unfold urlunsplit. cbn [u_scheme u_netloc u_path u_query u_fragment].
    apply location_nonnil in Hh. destruct (location l) as [|c nl] eqn:E; [congruence|]. cbn [is_nil negb orb].
    destruct (l_scheme l) as [|d sc] eqn:Es; [congruence|]. cbn [is_nil].
    assert (Ep : (if negb (is_nil (l_path l)) && negb (starts [47] (l_path l)) then 47 :: l_path l else l_path l) = l_path l).
    { destruct Hp as [->|[r ->]]; auto. }
    rewrite Ep. unfold write_url. rewrite Es, E, !prefix_mark. change (lit "://") with [58; 47; 47].
    repeat (rewrite <- app_assoc; cbn [app]). auto.
  Qed.
End Parts.

(** ** The conversions *)
Lemma labels_split h ls : labels h ls -> split_on 46 h = ls.
Proof. intros (-> & Hn & Hl). apply join_split_items; auto. apply Forall_forall; auto. Qed.
Lemma parts_encoded (idna : str -> res str) ls es : Forall2 (fun x e => idna x = Ok e) ls es ->
  fold_right (fun p acc => do l <- acc; do e <- idna p; Ok (e :: l)) (Ok []) ls = Ok es.
Proof. induction 1 as [|x e ls es H _ IH]; auto. cbn [fold_right]. rewrite IH, H. auto. Qed.
Lemma parts_decoded (decode : str -> res str) ls es :
  Forall2 (fun x e => decode x = Ok e \/ e = x /\ exists err, decode x = Raise err) ls es ->
  map (fun p => match decode p with Ok d => d | Raise _ => p end) ls = es.
Proof. induction 1 as [|x e ls es [H|[-> [err H]]] _ IH]; auto; cbn [map]; rewrite H, IH; auto. Qed.
Lemma lower_nonnil h : h <> [] -> is_nil (lower h) = false.
Proof. destruct h; auto. congruence. Qed.
Lemma not_ascii h : ~ ascii_text h -> is_ascii h = false.
Proof. intros H. destruct (is_ascii h) eqn:E; auto. exfalso. apply H. apply is_ascii_text; auto. Qed.

Lemma rooted_escaped plus safe s q : kept safe 47 -> (s = [] \/ exists r, s = 47 :: r) -> escaped plus safe s q ->
  q = [] \/ exists r, q = 47 :: r.
Proof. intros K [->|[r ->]] H; inv H; auto; eauto. tauto. Qed.
Lemma rooted_shown err keep s t : (s = [] \/ exists r, s = 47 :: r) -> shown err keep s t -> t = [] \/ exists r, t = 47 :: r.
Proof.
  intros [->|[r ->]] (b & b' & Hb & Hu & Hd).
  - inv Hb. inv Hu; try (destruct e; discriminate).
    + inv Hd. auto.
    + inv H0. discriminate.
    + inv H0. discriminate.
  - right. unfold utf8_encode in Hb. destruct (forallb scalar (47 :: r)); [|discriminate]. inv Hb.
    change (flat_map utf8_char (47 :: r)) with (47 :: flat_map utf8_char r) in Hu. inv Hu.
    + unfold utf8_decode in Hd. cbn [utf8_dec] in Hd. change (utf8_next 47 t0) with (Good 47 1) in Hd. cbv beta iota in Hd.
      destruct (utf8_dec err (1 - 1) t0); cbn [bind] in Hd; inv Hd; eauto.
    + inv H0. discriminate.
    + inv H0. discriminate.
Qed.
Lemma user_by_impl (R S : str -> str -> Prop) u u' : (forall a b, R a b -> S a b) -> user_by R u u' -> user_by S u u'.
Proof. intros I. destruct u as [[n [w|]]|], u' as [[n' [w'|]]|]; cbn [user_by]; auto. intros [H1 H2]. auto. Qed.
Ltac small_text := let c := fresh in let H := fresh in intros c H; cbn in H; lia.

Lemma slashes_id s : ~ In 92 s -> map (fun c => if c =? 92 then 47 else c) s = s.
Proof.
  induction s as [|c s IH]; intros H; auto. cbn [map]. rewrite IH by (intros X; apply H; right; auto).
  destruct (c =? 92) eqn:E; auto. exfalso. apply H. left. lia.
Qed.
Lemma slashes_gone s : ~ In 92 (map (fun c => if c =? 92 then 47 else c) s).
Proof. rewrite in_map_iff. intros (c & E & _). destruct (c =? 92) eqn:F; lia. Qed.

Section Convert.
  Variable idna decode : str -> res str.
  Variable ip_ok nfkc_ok : str -> bool.
  Notation proper := (proper ip_ok nfkc_ok).

  Lemma encode_location l l' : proper l -> l_port l' = l_port l ->
    user_by (escaped false (lit "/:%")) (l_user l) (l_user l') -> host_to_ascii idna (l_host l) (l_host l') ->
    encode_netloc idna (location l) = Ok (location l').
  Proof.
    intros P Hp Hu [_ Hh]. unfold encode_netloc. rewrite (location_hostname ip_ok nfkc_ok) by auto.
    rewrite lower_nonnil by apply (pr_host _ _ _ P).
    assert (E : (do h <- encode_idna idna (lower (l_host l)); if is_ascii h then Ok h else Raise UnicodeError) = Ok (l_host l')).
    { unfold encode_idna. destruct Hh as [[A ->]|(A & A' & ls & es & Hl & He & E)].
      - apply is_ascii_text in A. rewrite A. cbn [bind]. rewrite A. auto.
      - apply not_ascii in A. rewrite A, (labels_split _ _ Hl), (parts_encoded _ _ _ He). cbn [bind]. rewrite <- E.
        apply is_ascii_text in A'. rewrite A'. auto. }
    rewrite E. cbn [bind]. rewrite (location_port ip_ok nfkc_ok) by auto. cbn [bind].
    rewrite (location_auth ip_ok nfkc_ok _ _ (l_user l')); auto.
    - cbn [bind]. rewrite <- Hp. rewrite make_location; auto. intros n En. rewrite Hp in En. apply (pr_port _ _ _ P) in En. lia.
    - eapply user_by_impl; [|exact Hu]. intros a b. apply escaped_quote. small_text.
  Qed.
  Lemma scheme_nonnil l : proper l -> lower (l_scheme l) <> [].
  Proof. intros P. destruct (pr_scheme _ _ _ P) as (c & r & -> & _). discriminate. Qed.

  Lemma uri_by_parts l l' : proper l -> as_uri idna l l' -> iri_to_uri idna ip_ok nfkc_ok (write_url l) = Ok (write_url l').
  Proof.
    intros P (Hs & Hp & Hu & Hh & Hpa & Hq & Hf). unfold iri_to_uri. rewrite split_written by auto. cbn [bind u_netloc u_scheme u_path u_query u_fragment].
    rewrite (encode_location l l') by auto. cbn [bind].
    rewrite (escaped_quote path_safe _ _ ltac:(small_text) Hpa). cbn [bind]. rewrite (escaped_quote query_safe _ _ ltac:(small_text) Hq). cbn [bind].
    rewrite (escaped_quote fragment_safe _ _ ltac:(small_text) Hf). cbn [bind]. rewrite <- Hs. f_equal. apply unsplit_written.
    - rewrite Hs. apply scheme_nonnil; auto.
    - apply Hh.
    - eapply rooted_escaped; [| |exact Hpa]; [right; cbn; auto|apply (pr_path _ _ _ P)].
  Qed.

  Lemma uri_exists l : proper l -> ascii_text (lower (l_host l)) ->
    (forall n w, l_user l = Some (n, w) -> unicode_text n /\ forall v, w = Some v -> unicode_text v) ->
    unicode_text (l_path l) -> unicode_text (l_query l) -> unicode_text (l_fragment l) ->
    exists l', as_uri idna l l' /\ iri_to_uri idna ip_ok nfkc_ok (write_url l) = Ok (write_url l').
  Proof.
    intros P A Hu Hp Hq Hf.
    destruct (escaped_total false (lit "/:~+%") _ Hp) as [p' Ep].
    destruct (escaped_total false (lit "%&[]:;$*()+,!?*/=") _ Hq) as [q' Eq].
    destruct (escaped_total false (lit "=%&[]:;$()+,!?*/") _ Hf) as [f' Ef].
    assert (exists u', user_by (escaped false (lit "/:%")) (l_user l) u') as [u' Eu].
    { destruct (l_user l) as [[n w]|]; [|exists None; exact I]. destruct (Hu n w eq_refl) as [Hn Hw].
      destruct (escaped_total false (lit "/:%") _ Hn) as [n' En]. destruct w as [v|]; [|exists (Some (n', None)); exact En].
      destruct (escaped_total false (lit "/:%") _ (Hw v eq_refl)) as [v' Ev]. exists (Some (n', Some v')). split; auto. }
    set (l' := Url (lower (l_scheme l)) u' (lower (l_host l)) (l_port l) p' q' f').
    assert (U : as_uri idna l l').
    { repeat split; auto. intros E. apply (pr_host _ _ _ P). cbn [l' l_host] in E. destruct (l_host l); [auto|discriminate]. }
    exists l'. split; auto. apply uri_by_parts; auto.
  Qed.

  Lemma iri_by_parts err l l' : proper l -> as_iri decode err l l' ->
    uri_to_iri decode ip_ok nfkc_ok err (write_url l) = Ok (write_url l').
  Proof.
    intros P (Hs & Hp & Hu & Hh & Hpa & Hq & Hf). unfold uri_to_iri. rewrite split_written by auto. cbn [bind u_netloc u_scheme u_path u_query u_fragment].
    rewrite (location_hostname ip_ok nfkc_ok) by auto. rewrite lower_nonnil by apply (pr_host _ _ _ P).
    assert (E : decode_idna decode (lower (l_host l)) = l_host l').
    { unfold decode_idna. destruct Hh as [_ [[A ->]|(A & ls & es & Hl & He & E)]].
      - apply not_ascii in A. rewrite A. auto.
      - apply is_ascii_text in A. rewrite A, (labels_split _ _ Hl), (parts_decoded _ _ _ He). auto. }
    rewrite E. rewrite (location_port ip_ok nfkc_ok) by auto. cbn [bind].
    rewrite (location_auth ip_ok nfkc_ok _ _ (l_user l')); auto.
    2:{ eapply user_by_impl; [|exact Hu]. intros a b. apply shown_unquote. }
    cbn [bind].
    rewrite (shown_unquote _ path_unsafe _ _ Hpa). cbn [bind]. rewrite (shown_unquote _ query_unsafe _ _ Hq). cbn [bind].
    rewrite (shown_unquote _ query_unsafe _ _ Hf). cbn [bind]. rewrite <- Hp, make_location.
    2:{ intros n En. rewrite Hp in En. apply (pr_port _ _ _ P) in En. lia. }
    rewrite <- Hs. f_equal. apply unsplit_written.
    - rewrite Hs. apply scheme_nonnil; auto.
    - apply Hh.
    - eapply rooted_shown; [|exact Hpa]. apply (pr_path _ _ _ P).
  Qed.

  (** *** url_fix *)
  Lemma fix_slashes s : url_fix idna ip_ok nfkc_ok s = url_fix idna ip_ok nfkc_ok (map (fun c => if c =? 92 then 47 else c) s).
  Proof. unfold url_fix. rewrite (slashes_id (map _ s)) by apply slashes_gone. auto. Qed.

  Lemma not_file l : proper l -> l_scheme l <> lit "file" -> starts (lit "file://") (write_url l) = false.
  Proof.
    intros P Hn. destruct (starts (lit "file://") (write_url l)) eqn:E; auto. exfalso. apply Hn.
    apply starts_spec in E as [r E]. unfold write_url in E. change (lit "://") with (58 :: [47; 47]) in E.
    change (lit "file://" ++ r) with (lit "file" ++ 58 :: [47; 47] ++ r) in E. cbn [app] in E.
    assert (N1 : ~ In 58 (l_scheme l)).
    { intros X. eapply scheme_no_special in X; [|apply (scheme_chars _ _ _ P)]. lia. }
    assert (N2 : ~ In 58 (lit "file")) by (cbn; lia).
    apply (f_equal (split1 58)) in E. change (102 :: 105 :: 108 :: 101 :: 58 :: 47 :: 47 :: r) with (lit "file" ++ 58 :: 47 :: 47 :: r) in E.
    rewrite !split1_app in E by auto. inv E. auto.
  Qed.
  Lemma fix_by_parts l l' : proper l -> as_fixed idna l l' -> ~ In 92 (write_url l) -> l_scheme l <> lit "file" ->
    url_fix idna ip_ok nfkc_ok (write_url l) = Ok (write_url l').
  Proof.
    intros P (Hs & Hp & Hu & Hh & Hpa & Hq & Hf) H92 Hfile. unfold url_fix. rewrite slashes_id by auto.
    rewrite not_file by auto. cbn [andb]. rewrite split_written by auto. cbn [bind u_netloc u_scheme u_path u_query u_fragment].
    rewrite (encode_location l l') by auto. cbn [bind].
    rewrite (escaped_quote (lit "/%+$!*'(),") _ _ ltac:(small_text) Hpa). cbn [bind].
    rewrite (escaped_plus_quote (lit ":&%=+$!*'(),") _ _ ltac:(small_text) ltac:(cbn; lia) Hq). cbn [bind].
    rewrite (escaped_plus_quote (lit ":&%=+$!*'(),") _ _ ltac:(small_text) ltac:(cbn; lia) Hf). cbn [bind]. rewrite <- Hs. f_equal. apply unsplit_written.
    - rewrite Hs. apply scheme_nonnil; auto.
    - apply Hh.
    - eapply rooted_escaped; [| |exact Hpa]; [right; cbn; auto|apply (pr_path _ _ _ P)].
  Qed.
End Convert.

(** ** There and back *)
Lemma escaped_in safe s q c : ascii_text safe -> escaped false safe s q -> In c q ->
  In c s /\ kept safe c \/ c = 37 \/ 48 <= c <= 57 \/ 65 <= c <= 70.
Proof.
  intros Ha H Hc. apply escaped_quote in H; auto. apply urlquote_spec in H as (b & Hb & Ht & ->).
  apply quote_bytes_chars in Hc as [[H1 H2]|H]; auto. left. apply kept_quote in H2; auto. split; auto.
  pose proof (kept_ascii _ _ Ha H2). apply (utf8_in_ascii s b c); auto.
Qed.
Lemma escaped_nonnil safe s q : ascii_text safe -> s <> [] -> escaped false safe s q -> q <> [].
Proof.
  intros Ha H E. apply escaped_quote in E; auto. apply urlquote_nil in E. destruct s; [congruence|]. destruct q; [discriminate|congruence].
Qed.
Lemma quote_unescapes safe keep b : bytes_text b -> (forall c, In c b -> c <> 37) ->
  (forall c, In c b -> In c keep -> quote_safe safe c = true) -> unescapes (fun c => In c keep) (quote_bytes safe b) b.
Proof.
  induction b as [|c b IH]; intros Hb H37 Hk; [constructor|].
  assert (U : unescapes (fun c => In c keep) (quote_bytes safe b) b).
  { apply IH; intros x Hx; [apply Hb|apply H37|apply Hk]; right; auto. }
  cbn [quote_bytes flat_map]. unfold quote_byte at 1. destruct (quote_safe safe c) eqn:E.
  - cbn [app]. apply un_char; auto. apply H37. left; auto.
  - apply un_escape; auto.
    + apply escape_pct. apply Hb. left; auto.
    + intros X. apply Hk in X; [congruence|left; auto].
Qed.
Lemma escaped_shown err safe keep s q : ascii_text safe -> ascii_text keep -> escaped false safe s q -> ~ In 37 s ->
  (forall c, In c s -> In c keep -> kept safe c) -> shown err keep q s.
Proof.
  intros Ha Hk H H37 Hs. pose proof (escaped_in safe s q) as Hin. apply escaped_quote in H as Q; auto.
  apply urlquote_spec in Q as (b & Hb & Ht & ->). exists (quote_bytes safe b), b. split; [|split].
  - apply utf8_ascii. rewrite forallb_forall. intros c Hc. destruct (Hin c Ha H Hc) as [[_ K]|K]; [|lia].
    apply kept_ascii in K; auto. lia.
  - apply quote_unescapes; auto.
    + intros c Hc ->. apply H37. apply (utf8_in_ascii s b 37); auto. lia.
    + intros c Hc K. apply kept_quote; auto. apply Hs; auto. apply (utf8_in_ascii s b c); auto.
  - eapply utf8_roundtrip; eauto.
Qed.

Section Back.
  Variable idna decode : str -> res str.
  Variable ip_ok nfkc_ok : str -> bool.
  Hypothesis idna_plain : forall p e, idna p = Ok e -> forall c, In c e -> host_char c /\ c <> 37.
  Hypothesis ip_lower : forall h, ip_ok h = true -> ip_ok (lower h) = true.
  Notation proper := (proper ip_ok nfkc_ok).

  Lemma lower_in h c : In c (lower h) -> c < 97 -> In c h.
  Proof.
    unfold lower. rewrite in_map_iff. intros (y & <- & Hy) Hc. rewrite <- lower_c_small; auto.
  Qed.
  Lemma ascii_host h h' : h <> [] -> free_of (lit "/?#[]@%") h -> (In 58 h -> ip_ok h = true) ->
    host_to_ascii idna h h' -> h' <> [] /\ ascii_text h' /\ free_of (lit "/?#[]@%") h' /\ (In 58 h' -> ip_ok h' = true).
  Proof.
    intros Hn Hf Hi (Hn' & [[A ->]|(A & A' & ls & es & Hl & He & ->)]); split; auto; split; auto.
    - split.
      + intros c Hc. assert (X : c < 97 \/ 97 <= c) by lia. destruct X as [X|X].
        * apply Hf. apply lower_in; auto.
        * cbn. lia.
      + intros X. apply ip_lower. apply Hi. apply lower_in; auto. lia.
    - assert (X : forall c, In c (join [46] es) -> c = 46 \/ host_char c /\ c <> 37).
      { intros c Hc. apply in_join in Hc as [[<-|[]]|(x & Hx & Hc)]; auto. right.
        assert (exists p, idna p = Ok x) as [p Ep].
        { clear -He Hx. induction He; [destruct Hx|]. destruct Hx as [<-|Hx]; eauto. }
        eapply idna_plain; eauto. }
      unfold host_char in X. split.
      + intros c Hc. apply X in Hc. destruct Hc as [->|[(H1 & H2 & H3) H4]]; [cbn; lia|]. cbn [In] in H3. cbn. lia.
      + intros Hc. apply X in Hc. destruct Hc as [Hc|[(H1 & H2 & H3) H4]]; [lia|]. cbn [In] in H3. lia.
  Qed.
  Lemma scheme_lower_c c : scheme_letter c -> scheme_letter (lower_c c).
  Proof.
    unfold scheme_letter, lower_c, is_ascii_upper, between. destruct ((65 <=? c) && (c <=? 90)) eqn:E; [lia|].
    destruct ((192 <=? c) && (c <=? 222) && negb (c =? 215)) eqn:F; lia.
  Qed.
  Lemma lower_c_other c : ~ (65 <= c <= 90) -> c < 128 -> lower_c c = c.
  Proof.
    unfold lower_c, is_ascii_upper, between. intros. destruct ((65 <=? c) && (c <=? 90)) eqn:E; [lia|].
    destruct ((192 <=? c) && (c <=? 222) && negb (c =? 215)) eqn:F; lia.
  Qed.
  Lemma escaped_free bad safe s q : ascii_text safe -> free_of bad s -> escaped false safe s q ->
    (forall c, In c bad -> c <> 37 /\ ~ (48 <= c <= 57) /\ ~ (65 <= c <= 70)) -> free_of bad q.
  Proof.
    intros Ha Hf He Hb c Hc. eapply escaped_in in Hc as [[Hc _]|Hc]; eauto. split; [|lia].
    intros X. apply Hb in X. lia.
  Qed.
  Lemma escaped_ascii safe s q : ascii_text safe -> escaped false safe s q -> ascii_text q.
  Proof. intros Ha He c Hc. eapply escaped_in in Hc as [[_ K]|Hc]; eauto; [apply kept_ascii in K; auto|lia]. Qed.

  Lemma uri_proper l l' : proper l -> as_uri idna l l' -> proper l'.
  Proof.
    intros P (Hs & Hp & Hu & Hh & Hpa & Hq & Hf).
    destruct (ascii_host _ _ (proj1 (pr_host _ _ _ P)) (proj1 (proj2 (pr_host _ _ _ P))) (proj2 (proj2 (pr_host _ _ _ P))) Hh) as (Hh1 & Hh2 & Hh3 & Hh4).
    assert (U : ascii_text (write_user (l_user l')) /\ (forall n w, l_user l' = Some (n, w) -> n <> [] /\ free_of (lit "/?#[]@:") n /\
      forall w', w = Some w' -> w' <> [] /\ free_of (lit "/?#[]@") w')).
    { pose proof (pr_user _ _ _ P) as PU. destruct (l_user l) as [[n w]|], (l_user l') as [[n' w']|]; cbn [user_by] in Hu; try tauto.
      - destruct (PU n w eq_refl) as (Hn & Hfn & Hw).
        assert (En : escaped false (lit "/:%") n n') by (destruct w, w'; tauto).
        assert (N : n' <> [] /\ free_of (lit "/?#[]@:") n' /\ ascii_text n').
        { split; [eapply escaped_nonnil; [| |eassumption]; [small_text|auto]|]. split; [|eapply escaped_ascii; [|exact En]; small_text].
          eapply escaped_free; [|exact Hfn|exact En|]; [small_text|]. intros c Hc. cbn in Hc. lia. }
        assert (W : forall v', w' = Some v' -> v' <> [] /\ free_of (lit "/?#[]@") v' /\ ascii_text v').
        { intros v' ->. destruct w as [v|]; [|tauto]. destruct Hu as [_ Ew]. destruct (Hw v eq_refl) as [H1 H2].
          split; [eapply escaped_nonnil; [| |eassumption]; [small_text|auto]|]. split; [|eapply escaped_ascii; [|exact Ew]; small_text].
          eapply escaped_free; [|exact H2|exact Ew|]; [small_text|]. intros c Hc. cbn in Hc. lia. }
        split.
        + destruct w' as [v'|]; cbn [write_user]; change (lit "@") with [64]; change (lit ":") with [58]; intros c Hc; rewrite !in_app_iff in Hc.
          * destruct (W v' eq_refl) as (_ & _ & W'). destruct Hc as [Hc|[[<-|[]]|[Hc|[<-|[]]]]]; try lia; [apply N; auto|apply W'; auto].
          * destruct Hc as [Hc|[<-|[]]]; try lia. apply N; auto.
        + intros n0 w0 E. inv E. split; [tauto|]. split; [tauto|]. intros w'' ->. destruct (W w'' eq_refl) as (? & ? & _). auto.
      - destruct w; tauto.
      - split; [intros c []|]. discriminate. }
    destruct U as [U1 U2]. constructor; auto.
    - destruct (pr_scheme _ _ _ P) as (c & r & Es & Hc & Hr). exists (lower_c c), (lower r). rewrite Hs, Es. split; auto.
      split; [apply scheme_lower_c; auto|]. intros d Hd. unfold lower in Hd. apply in_map_iff in Hd as (y & <- & Hy).
      destruct (Hr y Hy) as [X|[X|X]]; [left; apply scheme_lower_c; auto| |]; right.
      + left. rewrite lower_c_other; lia.
      + right. assert (~ (65 <= y <= 90) /\ y < 128) by (cbn in X; lia). rewrite lower_c_other; tauto.
    - rewrite Hp. apply (pr_port _ _ _ P).
    - split.
      + eapply rooted_escaped; [| |exact Hpa]; [right; cbn; auto|apply (pr_path _ _ _ P)].
      + eapply escaped_free; [|apply (pr_path _ _ _ P)|exact Hpa|]; [small_text|]. intros c Hc. cbn in Hc. lia.
    - eapply escaped_free; [|apply (pr_query _ _ _ P)|exact Hq|]; [small_text|]. intros c Hc. cbn in Hc. lia.
    - eapply escaped_free; [|apply (pr_fragment _ _ _ P)|exact Hf|]; [small_text|]. intros c [].
    - left. intros c Hc. unfold location in Hc. rewrite !in_app_iff in Hc. destruct Hc as [Hc|[Hc|Hc]]; [apply U1; auto| |].
      + rewrite write_host_eq in Hc. destruct (mem 58 _); [|auto]. destruct Hc as [<-|Hc]; [lia|].
        apply in_app_iff in Hc as [Hc|[<-|[]]]; [auto|lia].
      + apply port_in in Hc. lia.
  Qed.

  Lemma there_and_back err l l1 : proper l -> as_uri idna l l1 ->
    ~ In 37 (write_url l) -> ~ In 59 (l_path l) -> ~ In 64 (l_query l) -> ~ In 64 (l_fragment l) -> ~ In 35 (l_fragment l) ->
    host_to_text decode (l_host l1) (lower (l_host l)) ->
    uri_to_iri decode ip_ok nfkc_ok err (write_url l1) =
    Ok (write_url (Url (lower (l_scheme l)) (l_user l) (lower (l_host l)) (l_port l) (l_path l) (l_query l) (l_fragment l))).
  Proof.
    intros P U H37 H59 H64 H64f H35 Hh. pose proof (uri_proper _ _ P U) as P1. destruct U as (Hs & Hp & Hu & _ & Hpa & Hq & Hf).
    assert (N : forall x, (In x (write_user (l_user l)) \/ In x (l_path l) \/ In x (l_query l) \/ In x (l_fragment l)) -> In x (write_url l)).
    { intros x Hx. unfold write_url, location. rewrite !in_app_iff. destruct Hx as [Hx|[Hx|[Hx|Hx]]]; auto.
      - right; right; right; right; left. destruct (l_query l); [destruct Hx|]. right; auto.
      - right; right; right; right; right. destruct (l_fragment l); [destruct Hx|]. right; auto. }
    apply iri_by_parts; auto. split; [|split; [|split; [|split; [|split; [|split]]]]]; cbn [l_scheme l_user l_host l_port l_path l_query l_fragment]; auto.
    - rewrite Hs. rewrite lower_idem. auto.
    - assert (X : forall a b, ~ In 37 a -> escaped false (lit "/:%") a b -> shown Strict (lit "/:%") b a).
      { intros a b Ha He. eapply escaped_shown; [| |exact He|exact Ha|]; [small_text|small_text|]. intros c _ Hc. right; auto. }
      assert (Y : ~ In 37 (write_user (l_user l))) by auto. clear -Hu X Y.
      destruct (l_user l) as [[n [w|]]|], (l_user l1) as [[n' [w'|]]|]; cbn [user_by write_user] in *; auto; rewrite !in_app_iff in Y.
      + destruct Hu. split; apply X; auto; tauto.
      + apply X; auto; tauto.
    - eapply escaped_shown; [| |exact Hpa| |]; [small_text|small_text|intros X; apply H37, N; tauto|]. intros c Hc K. right.
      assert (c <> 37) by (intros ->; apply H37, N; tauto). assert (c <> 59) by (intros ->; auto).
      assert (c <> 63) by (intros ->; apply (pr_path _ _ _ P) in Hc as [Hc _]; apply Hc; cbn; auto). cbn in *. lia.
    - eapply escaped_shown; [| |exact Hq| |]; [small_text|small_text|intros X; apply H37, N; tauto|]. intros c Hc K. right.
      assert (c <> 37) by (intros ->; apply H37, N; tauto). assert (c <> 64) by (intros ->; auto).
      assert (c <> 35) by (intros ->; apply (pr_query _ _ _ P) in Hc as [Hc _]; apply Hc; cbn; auto). cbn in *. lia.
    - eapply escaped_shown; [| |exact Hf| |]; [small_text|small_text|intros X; apply H37, N; tauto|]. intros c Hc K. right.
      assert (c <> 37) by (intros ->; apply H37, N; tauto). assert (c <> 64) by (intros ->; auto). assert (c <> 35) by (intros ->; auto). cbn in *. lia.
  Qed.
End Back.

Lemma fix_drive idna ip_ok nfkc_ok c sep r p : scheme_letter c -> sep = 58 \/ sep = 124 -> free_of (lit "?#\") r ->
  escaped false (lit "/%+$!*'(),") (47 :: c :: sep :: 47 :: r) p ->
  url_fix idna ip_ok nfkc_ok (lit "file://" ++ c :: sep :: 47 :: r) = Ok (lit "file://" ++ p).
Proof.
  intros Hc Hsep Hr Hp. unfold url_fix. unfold scheme_letter in Hc.
  assert (F : forall x, In x (c :: sep :: 47 :: r) -> x <> 92 /\ x <> 63 /\ x <> 35 /\ x <> 9 /\ x <> 10 /\ x <> 13).
  { intros x [<-|[<-|[<-|Hx]]]; try lia. apply Hr in Hx as [H1 H2]. cbn in H1. lia. }
  rewrite slashes_id by (intros X; apply in_app_iff in X as [X|X]; [cbn in X; lia|apply F in X; lia]).
  assert (A : is_ascii_alpha c = true) by (apply letter_alpha; auto).
  assert (T : starts (lit ":/") (sep :: 47 :: r) || starts (lit "|/") (sep :: 47 :: r) = true) by (destruct Hsep; subst; auto).
  rewrite starts_app. change (skipn 7 (lit "file://" ++ c :: sep :: 47 :: r)) with (c :: sep :: 47 :: r). cbv zeta.
  cbv beta iota. rewrite A, T. cbn [andb].
  assert (C : url_clean (lit "file:///" ++ c :: sep :: 47 :: r) = lit "file:///" ++ c :: sep :: 47 :: r).
  { apply clean_id; [intros x y E; inv E; lia|]. intros x Hx. apply in_app_iff in Hx as [Hx|Hx]; [cbn in Hx; cbn; lia|].
    apply F in Hx. cbn. lia. }
  unfold urlsplit. rewrite C. change (lit "file:///" ++ c :: sep :: 47 :: r) with (lit "file" ++ 58 :: 47 :: 47 :: 47 :: c :: sep :: 47 :: r).
  rewrite split_scheme_some by (split; [|split]; reflexivity). cbn [starts N.eqb Pos.eqb andb skipn].
  change (cut (fun c0 => mem c0 [47; 63; 35]) (47 :: c :: sep :: 47 :: r)) with (@nil N, 47 :: c :: sep :: 47 :: r). cbv beta iota zeta.
  rewrite partition_none. 2:{ intros [X|X]; [lia|]. apply F in X. lia. }
  rewrite partition_none. 2:{ intros [X|X]; [lia|]. apply F in X. lia. }
  cbn [bracket_ok mem existsb negb is_ascii forallb andb orb bind u_netloc u_scheme u_path u_query u_fragment].
  change (encode_netloc idna []) with (Ok (A := str) []). cbn [bind].
  rewrite (escaped_quote (lit "/%+$!*'(),") _ _ ltac:(intros x Hx; cbn in Hx; lia) Hp). cbn [bind].
  change (urlquote_plus (lit ":&%=+$!*'(),") []) with (Ok (A := str) []). cbn [bind].
  f_equal. unfold urlunsplit. cbn [u_netloc u_scheme u_path u_query u_fragment is_nil negb orb].
  change (existsb (eqs (lit "file")) uses_netloc) with true. cbn [andb orb].
  assert (R : exists p', p = 47 :: p').
  { inv Hp; eauto. exfalso. apply H1. right. cbn; auto. }
  destruct R as [p' ->]. cbn. rewrite app_nil_r. reflexivity.
Qed.
