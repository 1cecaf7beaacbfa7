(** iri_to_uri: ASCII output and idempotence (C31). *)
From Coq Require Import Arith List NArith ZArith Bool Lia ZifyBool ZifyN ZifyNat.
From Verif Require Import PyStr PyStrFacts Utf8 Utf8Facts ModelUrls SpecUrls ProofUrls.
Import ListNotations.
Open Scope N_scope.

(** ** Quoting *)
Lemma quote_bytes_chars safe b c : bytes_text b -> In c (quote_bytes safe b) ->
  (In c b /\ quote_safe safe c = true) \/ c = 37 \/ 48 <= c <= 57 \/ 65 <= c <= 70.
Proof.
  intros Hb Hi. unfold quote_bytes in Hi. apply in_flat_map in Hi as (x & Hx & Hi).
  unfold quote_byte in Hi. destruct (quote_safe safe x) eqn:E.
  - destruct Hi as [<-|[]]. auto.
  - assert (x < 256) by auto. pose proof (hex_upper_range (x / 16)). pose proof (hex_upper_range (x mod 16)).
    assert (x / 16 < 16) by nsolve. assert (x mod 16 < 16) by nsolve.
    destruct Hi as [<-|[<-|[<-|[]]]]; lia.
Qed.
Lemma quote_bytes_safe safe b : bytes_text b -> In 37 safe ->
  forallb (quote_safe safe) (quote_bytes safe b) = true.
Proof.
  intros Hb H37. apply forallb_forall. intros c Hc. apply quote_bytes_chars in Hc; auto.
  destruct Hc as [[_ H]|Hc]; auto. apply quote_safe_spec. unfold unreserved.
  destruct Hc as [->|Hc]; [right; split; auto; lia|lia].
Qed.
Lemma quote_bytes_id safe s : forallb (quote_safe safe) s = true -> quote_bytes safe s = s.
Proof.
  induction s as [|c s IH]; intros H; auto. cbn [forallb] in H. apply andb_true_iff in H as [Hc Hs].
  change (quote_bytes safe (c :: s)) with (quote_byte safe c ++ quote_bytes safe s).
  unfold quote_byte. rewrite Hc, IH; auto.
Qed.
Lemma quote_safe_ascii safe s : forallb (quote_safe safe) s = true -> ascii_text s.
Proof. rewrite forallb_forall. intros H c Hc. specialize (H c Hc). unfold quote_safe in H. lia. Qed.
Lemma urlquote_id safe s : forallb (quote_safe safe) s = true -> urlquote safe s = Ok s.
Proof.
  intros H. unfold urlquote. pose proof (quote_safe_ascii _ _ H) as A. apply is_ascii_text in A.
  unfold is_ascii in A. rewrite utf8_ascii by auto. cbn [bind]. rewrite quote_bytes_id; auto.
Qed.
Lemma urlquote_safe safe s q : In 37 safe -> urlquote safe s = Ok q -> forallb (quote_safe safe) q = true.
Proof. intros H E. apply urlquote_spec in E as (b & _ & Hb & ->). apply quote_bytes_safe; auto. Qed.
Lemma urlquote_in safe s q c : urlquote safe s = Ok q -> In c q -> c < 128 -> ~ (48 <= c <= 57) -> ~ (65 <= c <= 70) ->
  c <> 37 -> In c s.
Proof.
  intros E Hi Hc H1 H2 H3. apply urlquote_spec in E as (b & Eb & Hb & ->).
  apply quote_bytes_chars in Hi; auto. destruct Hi as [[Hi _]|Hi]; [|lia].
  apply (utf8_in_ascii s b c); auto.
Qed.
Lemma urlquote_nil safe s q : urlquote safe s = Ok q -> is_nil q = is_nil s.
Proof.
  unfold urlquote, utf8_encode. destruct (forallb scalar s); cbn [bind]; [|discriminate]. intros H; inv H.
  destruct s as [|c s]; auto. cbn [flat_map].
  assert (exists x y, utf8_char c = x :: y) as (x & y & ->).
  { unfold utf8_char. destruct (c <? 128); [eauto|]. destruct (c <? 2048); [eauto|]. destruct (c <? 65536); eauto. }
  cbn [app]. change (quote_bytes safe (x :: (y ++ flat_map utf8_char s))) with
    (quote_byte safe x ++ quote_bytes safe (y ++ flat_map utf8_char s)).
  unfold quote_byte. destruct (quote_safe safe x); auto.
Qed.

(** ** Splitting helpers *)
Lemma rsplit1_none c s : rsplit1 c s = None <-> ~ In c s.
Proof.
  unfold rsplit1. destruct (split1 c (rev s)) as [[a b]|] eqn:E; split; try discriminate; auto.
  - intros H. exfalso. apply split1_some in E as [E _]. apply H. rewrite in_rev, E, in_app_iff. right; left; auto.
  - intros _. apply split1_none in E. rewrite in_rev. auto.
Qed.
Lemma rsplit1_some c s a b : rsplit1 c s = Some (a, b) <-> s = a ++ c :: b /\ ~ In c b.
Proof.
  unfold rsplit1. destruct (split1 c (rev s)) as [[x y]|] eqn:E; split.
  - intros H; inv H. apply split1_some in E as [E Hn]. rewrite <- (rev_involutive s), E.
    rewrite rev_app_distr. cbn [rev]. rewrite <- app_assoc. split; auto. rewrite <- in_rev. auto.
  - intros [-> Hn]. rewrite rev_app_distr in E. cbn [rev] in E. rewrite <- app_assoc in E. cbn [app] in E.
    rewrite split1_app in E by (rewrite <- in_rev; auto). inv E. rewrite !rev_involutive. auto.
  - discriminate.
  - intros [-> Hn]. apply split1_none in E. exfalso. apply E. rewrite <- in_rev, in_app_iff. right; left; auto.
Qed.
Lemma partition_none c s : ~ In c s -> partition c s = (s, []).
Proof. intros H. unfold partition. apply split1_none in H. rewrite H. auto. Qed.
Lemma partition_app c a b : ~ In c a -> partition c (a ++ c :: b) = (a, b).
Proof. intros H. unfold partition. rewrite split1_app; auto. Qed.
Lemma partition_spec c s a b : partition c s = (a, b) ->
  ~ In c a /\ (s = a ++ c :: b \/ (s = a /\ b = [])).
Proof.
  unfold partition. destruct (split1 c s) as [[x y]|] eqn:E; intros H; inv H.
  - apply split1_some in E as [-> Hn]. auto.
  - apply split1_none in E. auto.
Qed.
Lemma cut_spec p s a b : cut p s = (a, b) ->
  s = a ++ b /\ forallb (fun c => negb (p c)) a = true /\ (b = [] \/ exists c r, b = c :: r /\ p c = true).
Proof.
  revert a b; induction s as [|c s IH]; intros a b; cbn [cut].
  - intros H; inv H. auto.
  - destruct (p c) eqn:E.
    + intros H; inv H. split; auto. split; auto. right; eauto.
    + destruct (cut p s) as [a' b'] eqn:Ec. intros H; inv H. destruct (IH _ _ eq_refl) as (-> & H1 & H2).
      split; auto. cbn [forallb]. rewrite E, H1. auto.
Qed.
Lemma cut_app p a b : forallb (fun c => negb (p c)) a = true -> (b = [] \/ exists c r, b = c :: r /\ p c = true) ->
  cut p (a ++ b) = (a, b).
Proof.
  intros Ha Hb. induction a as [|c a IH]; cbn [app].
  - destruct Hb as [->|(c & r & -> & E)]; auto. cbn [cut]. rewrite E. auto.
  - cbn [forallb] in Ha. apply andb_true_iff in Ha as [Hc Ha]. cbn [cut]. destruct (p c); [discriminate|].
    rewrite IH; auto.
Qed.

Lemma clean_id s : (forall c r, s = c :: r -> 32 < c) -> (forall c, In c s -> ~ In c [9; 13; 10]) -> url_clean s = s.
Proof.
  intros H1 H2. unfold url_clean.
  assert (E : lstrip_by (fun c => c <=? 32) s = s).
  { destruct s as [|c s]; auto. cbn [lstrip_by]. specialize (H1 c s eq_refl). replace (c <=? 32) with false by lia. auto. }
  rewrite E. clear E H1. induction s as [|c s IH]; auto. cbn [filter].
  assert (M : mem c [9; 13; 10] = false) by (apply mem_not_In; apply H2; left; auto).
  rewrite M. cbn [negb]. f_equal. apply IH. intros x Hx. apply H2. right; auto.
Qed.
Lemma clean_chars s c : In c (url_clean s) -> ~ In c [9; 13; 10].
Proof.
  unfold url_clean. intros H. apply filter_In in H as [_ H]. apply mem_not_In.
  destruct (mem c [9; 13; 10]); auto; discriminate.
Qed.

(** ** Schemes *)
Definition good_scheme (s : str) : Prop :=
  match s with [] => False | c :: _ => is_ascii_alpha c = true end /\ forallb scheme_char s = true /\ lower s = s.
Definition scheme_like (p : str) : Prop :=
  exists a b, split1 58 p = Some (a, b) /\
    match a with [] => False | c :: _ => is_ascii_alpha c = true end /\ forallb scheme_char a = true.

Lemma scheme_char_spec c : scheme_char c = true <->
  (48 <= c <= 57) \/ (65 <= c <= 90) \/ (97 <= c <= 122) \/ c = 43 \/ c = 45 \/ c = 46.
Proof.
  unfold scheme_char, is_ascii_alnum, is_ascii_alpha, is_ascii_upper, is_ascii_lower, is_ascii_digit, between, mem.
  change (lit "+-.") with [43; 45; 46]. cbn [existsb]. lia.
Qed.
Lemma scheme_char_lower c : scheme_char c = true -> scheme_char (lower_c c) = true.
Proof.
  rewrite !scheme_char_spec. unfold lower_c, is_ascii_upper, between.
  destruct ((65 <=? c) && (c <=? 90)) eqn:E; [lia|].
  destruct ((192 <=? c) && (c <=? 222) && negb (c =? 215)) eqn:E2; lia.
Qed.
Lemma scheme_no_special s : forallb scheme_char s = true -> forall c, In c s -> 32 < c < 128 /\ c <> 58 /\ c <> 37.
Proof. rewrite forallb_forall. intros H c Hc. specialize (H c Hc). apply scheme_char_spec in H. lia. Qed.
Lemma split_scheme_spec url sch rest : split_scheme url = (sch, rest) ->
  (good_scheme sch /\ exists a, url = a ++ 58 :: rest) \/ (sch = [] /\ rest = url /\ ~ scheme_like url).
Proof.
  unfold split_scheme, scheme_like. destruct (split1 58 url) as [[[|c a] b]|] eqn:E.
  - intros H; inv H. right. split; auto. split; auto. intros (a & b' & H & Hc & _). inv H. auto.
  - destruct (is_ascii_alpha c && forallb scheme_char (c :: a)) eqn:F; intros H; inv H.
    + left. apply andb_true_iff in F as [Fc Fa]. apply split1_some in E as [-> _]. split; [|eauto].
      split; [|split; [|apply (lower_idem (c :: a))]].
      * cbn [lower map]. unfold is_ascii_alpha, is_ascii_upper, is_ascii_lower, between, lower_c, is_ascii_upper, between in *.
        destruct ((65 <=? c) && (c <=? 90)) eqn:E; [lia|].
        destruct ((192 <=? c) && (c <=? 222) && negb (c =? 215)) eqn:E2; lia.
      * change (forallb scheme_char (map lower_c (c :: a)) = true). rewrite forallb_forall in *. intros x Hx. apply in_map_iff in Hx as (y & <- & Hy).
        apply scheme_char_lower; auto.
    + right. split; auto. split; auto. intros (a' & b' & H & Hc & Ha). inv H.
      rewrite Hc, Ha in F. discriminate.
  - intros H; inv H. right. split; auto. split; auto. intros (a & b & H & _). discriminate.
Qed.
Lemma split_scheme_none url : ~ scheme_like url -> split_scheme url = ([], url).
Proof.
  intros H. destruct (split_scheme url) as [s r] eqn:E.
  pose proof (split_scheme_spec _ _ _ E) as [(G & a & Eu)|(-> & -> & _)]; auto.
  exfalso. apply H. unfold split_scheme in E. unfold scheme_like.
  destruct (split1 58 url) as [[[|c a'] b']|] eqn:F.
  - inv E. destruct G as [[] _].
  - destruct (is_ascii_alpha c && forallb scheme_char (c :: a')) eqn:F2.
    + apply andb_true_iff in F2 as [F2 F3]. eexists _, _. split; [reflexivity|]. auto.
    + inv E. destruct G as [[] _].
  - inv E. destruct G as [[] _].
Qed.
Lemma split_scheme_some sch rest : good_scheme sch -> split_scheme (sch ++ 58 :: rest) = (sch, rest).
Proof.
  intros (H1 & H2 & H3). unfold split_scheme. rewrite split1_app.
  - destruct sch as [|c a]; [tauto|]. rewrite H1, H2, H3. auto.
  - intros Hi. apply (scheme_no_special _ H2) in Hi. lia.
Qed.

(** ** The split of a composed URL *)
Section Split.
  Variable ip_ok nfkc_ok : str -> bool.
  Notation urlsplit := (urlsplit ip_ok nfkc_ok).
  Notation bracket_ok := (bracket_ok ip_ok).

  Definition delim (c : N) : bool := mem c [47; 63; 35].
  Definition rooted (p : str) : Prop := p = [] \/ exists r, p = 47 :: r.

  Record wf (u : split_result) : Prop := Wf {
    wf_scheme : u_scheme u = [] \/ good_scheme (u_scheme u);
    wf_netloc : forall c, In c (u_netloc u) -> ~ In c [47; 63; 35; 9; 10; 13];
    wf_rooted : u_netloc u <> [] -> rooted (u_path u);
    wf_path : forall c, In c (u_path u) -> c <> 63 /\ c <> 35;
    wf_query : forall c, In c (u_query u) -> c <> 35;
    wf_like : u_scheme u = [] -> ~ scheme_like (u_path u)
  }.

  Lemma rooted_not_like p : rooted p -> ~ scheme_like p.
  Proof.
    intros [->|[r ->]] (a & b & E & Ha & _); [discriminate|].
    apply split1_some in E as [E _]. destruct a as [|c a]; [tauto|]. inv E. discriminate.
  Qed.
  Lemma scheme_like_app p t : scheme_like p -> scheme_like (p ++ t).
  Proof.
    intros (a & b & E & Ha & Hs). apply split1_some in E as [-> Hn]. exists a, (b ++ t).
    split; auto. apply split1_some. rewrite <- app_assoc. auto.
  Qed.

  Lemma urlsplit_wf iri u : urlsplit iri = Ok u ->
    wf u /\ bracket_ok (u_netloc u) = true.
  Proof.
    unfold ModelUrls.urlsplit. intros H.
    set (url := url_clean iri) in *. assert (Hclean : forall c, In c url -> ~ In c [9; 13; 10]) by apply clean_chars.
    destruct (split_scheme url) as [sch rest] eqn:Es.
    assert (Hrest : forall c, In c rest -> In c url).
    { apply split_scheme_spec in Es as [(_ & a & ->)|(_ & -> & _)]; auto.
      intros c Hc. apply in_app_iff. right; right; auto. }
    assert (Hl : sch = [] \/ good_scheme sch) by (apply split_scheme_spec in Es as [(G & _)|(-> & _)]; auto).
    assert (Hnl : sch = [] -> ~ scheme_like rest).
    { intros ->. apply split_scheme_spec in Es as [([G _] & _)|(_ & -> & G)]; [destruct G|auto]. }
    destruct (if starts [47; 47] rest then cut (fun c => mem c [47; 63; 35]) (skipn 2 rest) else ([], rest))
      as [nl p0] eqn:En.
    destruct (partition 35 p0) as [p1 f] eqn:Ef. destruct (partition 63 p1) as [p q] eqn:Eq.
    destruct (bracket_ok nl && (is_ascii nl || nfkc_ok nl)) eqn:Eb; inv H. apply andb_true_iff in Eb as [Eb _].
    split; [|exact Eb].
    apply partition_spec in Ef as [Hf Ef]. apply partition_spec in Eq as [Hq Eq].
    assert (P0 : exists t, p0 = p ++ t).
    { destruct Eq as [->|[-> ->]]; destruct Ef as [->|[-> ->]]; try rewrite <- app_assoc; eauto.
      - eexists. rewrite app_nil_r. reflexivity. }
    destruct P0 as [t P0].
    assert (N : (forall c, In c nl -> ~ In c [47; 63; 35; 9; 10; 13]) /\
                ((rooted p /\ starts [47; 47] rest = true) \/ (nl = [] /\ p0 = rest))).
    { destruct (starts [47; 47] rest) eqn:S.
      - apply cut_spec in En as (E & Hn & Hb). split.
        + intros c Hc. rewrite forallb_forall in Hn. specialize (Hn c Hc).
          assert (M : mem c [47; 63; 35] = false) by (destruct (mem c [47; 63; 35]); auto; discriminate).
          apply mem_not_In in M. assert (Hu : In c url).
          { apply Hrest. rewrite <- (firstn_skipn 2 rest), E, !in_app_iff. auto. }
          apply Hclean in Hu. cbn [In] in *. tauto.
        + left. split; auto. destruct Hb as [->|(c & r & -> & M)].
          * symmetry in P0. apply app_eq_nil in P0 as [-> _]. left; auto.
          * destruct p as [|x p]; [left; auto|]. right. cbn [app] in P0. inv P0. exists p.
            apply mem_In in M. f_equal. destruct M as [<-|[<-|[<-|[]]]]; auto; exfalso.
            -- apply Hq. left; auto.
            -- apply Hf. destruct Eq as [->|[-> _]]; [apply in_app_iff; left|]; left; auto.
      - inv En. split; [intros c []|right; auto]. }
    destruct N as [N1 N2]. constructor; cbn [u_scheme u_netloc u_path u_query u_fragment]; auto.
    - intros Hne. destruct N2 as [[? _]|[-> _]]; [auto|congruence].
    - intros c Hc. split; intros ->; [auto|]. apply Hf. destruct Eq as [->|[-> _]]; auto. apply in_app_iff; auto.
    - intros c Hc ->. apply Hf. destruct Eq as [->|[-> ->]]; [|destruct Hc]. apply in_app_iff. right; right; auto.
    - intros Hs. destruct N2 as [[R _]|[_ E]]; [apply rooted_not_like; auto|].
      intros L. apply (Hnl Hs). rewrite <- E, P0. apply scheme_like_app; auto.
  Qed.

  (** the path with the slash urlunsplit puts in front of it *)
  Definition with_slashes (u : split_result) : bool :=
    negb (is_nil (u_netloc u))
    || (negb (is_nil (u_scheme u)) && existsb (eqs (u_scheme u)) uses_netloc)
    || starts [47; 47] (u_path u).
  Definition fix_path (u : split_result) : str :=
    if with_slashes u && negb (is_nil (u_path u)) && negb (starts [47] (u_path u))
    then 47 :: u_path u else u_path u.
  Definition tail (u : split_result) : str := prefix_if (u_query u) [63] ++ prefix_if (u_fragment u) [35].
  Definition body (u : split_result) : str :=
    if with_slashes u then [47; 47] ++ u_netloc u ++ fix_path u else fix_path u.

  Lemma urlunsplit_eq u :
    urlunsplit u = (if is_nil (u_scheme u) then body u else u_scheme u ++ 58 :: body u) ++ tail u.
  Proof.
    unfold urlunsplit, body, fix_path, tail. fold (with_slashes u).
    destruct (with_slashes u); cbn [andb]; destruct (is_nil (u_scheme u)); auto.
  Qed.
  Lemma fix_path_rooted u : with_slashes u = true -> rooted (fix_path u).
  Proof.
    unfold fix_path. intros ->. cbn [andb]. destruct (u_path u) as [|c p] eqn:E; [left; auto|].
    cbn [is_nil negb andb starts]. destruct (47 =? c) eqn:F; cbn [andb negb].
    - apply N.eqb_eq in F. subst. right; eauto.
    - right; eauto.
  Qed.
  Lemma unsplit_fixed u : urlunsplit (Split (u_scheme u) (u_netloc u) (fix_path u) (u_query u) (u_fragment u)) = urlunsplit u.
  Proof.
    set (u2 := Split _ _ _ _ _). rewrite !urlunsplit_eq.
    assert (W : with_slashes u2 = with_slashes u).
    { unfold u2, fix_path, with_slashes. cbn [u_scheme u_netloc u_path].
      destruct (negb (is_nil (u_netloc u)) || _); [auto|]. cbn [orb].
      destruct (u_path u) as [|c p]; auto. cbn [is_nil negb andb starts].
      destruct (47 =? c) eqn:E; cbn [andb negb].
      - rewrite andb_false_r. cbn [starts]. rewrite E. auto.
      - rewrite E. auto. }
    assert (F : fix_path u2 = fix_path u).
    { unfold fix_path at 1. rewrite W. cbn [u2 u_path].
      destruct (with_slashes u) eqn:Wu; cbn [andb]; auto.
      destruct (fix_path_rooted u Wu) as [->|[r ->]]; auto. }
    unfold body. rewrite W, F. unfold tail. reflexivity.
  Qed.

  Lemma tail_shape u : tail u = [] \/ exists r, tail u = 63 :: r \/ tail u = 35 :: r.
  Proof.
    unfold tail, prefix_if. destruct (u_query u) as [|c q]; cbn [is_nil app].
    - destruct (u_fragment u); cbn [is_nil app]; eauto.
    - right. eexists. left. reflexivity.
  Qed.

  Lemma urlsplit_unsplit u : wf u -> bracket_ok (u_netloc u) = true -> is_ascii (u_netloc u) = true ->
    (forall c, In c (u_path u) \/ In c (u_query u) \/ In c (u_fragment u) -> 32 < c) ->
    urlsplit (urlunsplit u) = Ok (Split (u_scheme u) (u_netloc u) (fix_path u) (u_query u) (u_fragment u)).
  Proof.
    intros W Hbr Has Hch.
    assert (Hp : forall c, In c (fix_path u) -> 32 < c /\ c <> 63 /\ c <> 35).
    { assert (forall c, In c (u_path u) -> 32 < c /\ c <> 63 /\ c <> 35).
      { intros c Hc. split; [apply Hch; auto|apply (wf_path u W); auto]. }
      unfold fix_path. destruct (with_slashes u && _ && _); auto.
      intros c [<-|Hc]; auto. lia. }
    assert (Ht : forall c, In c (tail u) -> 32 < c).
    { intros c. unfold tail, prefix_if. rewrite in_app_iff.
      destruct (is_nil (u_query u)); destruct (is_nil (u_fragment u)); cbn [app In]; intros [H|H]; try tauto;
        destruct H as [<-|H]; try lia; apply Hch; tauto. }
    unfold ModelUrls.urlsplit.
    assert (Hcl : url_clean (urlunsplit u) = urlunsplit u).
    { rewrite urlunsplit_eq. apply clean_id.
      - intros c r. destruct (is_nil (u_scheme u)) eqn:Es.
        + unfold body. destruct (with_slashes u); [cbn [app]; intros E; inv E; lia|].
          destruct (fix_path u) as [|x p]; cbn [app].
          * intros E. apply Ht. rewrite E. left; auto.
          * intros E; inv E. apply Hp. left; auto.
        + destruct (wf_scheme u W) as [E|G]; [rewrite E in Es; discriminate|].
          destruct (u_scheme u) as [|x s]; [discriminate|]. cbn [app]. intros E; inv E.
          destruct G as (_ & G & _). apply (scheme_no_special _ G). left; auto.
      - intros c Hc. assert (Big : 32 < c -> ~ In c [9; 13; 10]) by (cbn [In]; lia).
        apply in_app_iff in Hc as [Hc|Hc]; [|auto].
        assert (Hb : In c (body u) -> ~ In c [9; 13; 10]).
        { unfold body. destruct (with_slashes u).
          - intros H. apply in_app_iff in H as [H|H]; [cbn [In] in H |- *; lia|].
            apply in_app_iff in H as [H|H]; [|apply Big, Hp; auto].
            apply (wf_netloc u W) in H. cbn [In] in *. tauto.
          - intros H. apply Big, Hp; auto. }
        destruct (is_nil (u_scheme u)); auto.
        apply in_app_iff in Hc as [Hc|[<-|Hc]]; auto; [|cbn [In]; lia].
        destruct (wf_scheme u W) as [E|(_ & G & _)]; [rewrite E in Hc; destruct Hc|].
        apply Big. apply (scheme_no_special _ G); auto. }
    rewrite Hcl.
    assert (Hsp : split_scheme (urlunsplit u) = (u_scheme u, body u ++ tail u)).
    { rewrite urlunsplit_eq. destruct (wf_scheme u W) as [E|G].
      - rewrite E. cbn [is_nil]. apply split_scheme_none. intros L.
        unfold body in L. destruct (with_slashes u) eqn:Ws.
        + apply (rooted_not_like ([47; 47] ++ u_netloc u ++ fix_path u ++ tail u)); [right; eexists; reflexivity|].
          rewrite !app_assoc. rewrite !app_assoc in L. auto.
        + assert (Fp : fix_path u = u_path u) by (unfold fix_path; rewrite Ws; auto).
          rewrite Fp in L. apply (wf_like u W E). destruct L as (a & b & Eq & Ha & Hs).
          destruct (split1 58 (u_path u)) as [[x y]|] eqn:Ep.
          * exists x, y. split; auto. apply split1_some in Ep as [Ep Hx]. apply split1_some in Eq as [Eq Hna].
            rewrite Ep, <- app_assoc in Eq. cbn [app] in Eq.
            assert (X : split1 58 (x ++ 58 :: y ++ tail u) = Some (x, y ++ tail u)) by (apply split1_app; auto).
            rewrite Eq, split1_app in X by auto. inv X. auto.
          * exfalso. apply split1_none in Ep. apply split1_some in Eq as [Eq Hna].
            destruct (tail_shape u) as [Et|[r Et]].
            -- rewrite Et, app_nil_r in Eq. apply Ep. rewrite Eq. apply in_app_iff. right; left; auto.
            -- assert (exists z, a = u_path u ++ z /\ tail u = z ++ 58 :: b) as (z & Ea & Ez).
               { clear - Ep Eq. revert a Eq. induction (u_path u) as [|c p IH]; intros a Eq.
                 - exists a. auto.
                 - destruct a as [|d a]; [inv Eq; exfalso; apply Ep; left; auto|]. cbn [app] in Eq. inv Eq.
                   destruct (IH (fun h => Ep (or_intror h)) a H1) as (z & -> & E). exists z. auto. }
               rewrite forallb_forall in Hs. destruct z as [|d z].
               ++ destruct Et as [Et|Et]; rewrite Et in Ez; inv Ez.
               ++ assert (Hd : scheme_char d = true) by (apply Hs; rewrite Ea; apply in_app_iff; right; left; auto).
                  apply scheme_char_spec in Hd. destruct Et as [Et|Et]; rewrite Et in Ez; inv Ez; lia.
      - destruct (is_nil (u_scheme u)) eqn:Es.
        { destruct (u_scheme u); [destruct G as [[] _]|discriminate]. }
        rewrite <- app_assoc. cbn [app]. apply split_scheme_some; auto. }
    rewrite Hsp.
    assert (Hnl : (if starts [47; 47] (body u ++ tail u)
                   then cut (fun c => mem c [47; 63; 35]) (skipn 2 (body u ++ tail u))
                   else ([], body u ++ tail u)) = (u_netloc u, fix_path u ++ tail u)).
    { unfold body. destruct (with_slashes u) eqn:Ws.
      - cbn [app starts andb skipn]. rewrite !N.eqb_refl. cbn [andb]. rewrite <- app_assoc. apply cut_app.
        + apply forallb_forall. intros c Hc. apply (wf_netloc u W) in Hc.
          assert (M : mem c [47; 63; 35] = false) by (apply mem_not_In; cbn [In] in *; tauto). rewrite M. auto.
        + destruct (fix_path_rooted u Ws) as [->|[r ->]].
          * cbn [app]. destruct (tail_shape u) as [E|[r [E|E]]]; auto; right; eexists _, _; (split; [exact E|auto]).
          * right. eexists _, _. split; [reflexivity|]. auto.
      - assert (Fp : fix_path u = u_path u) by (unfold fix_path; rewrite Ws; auto). rewrite Fp.
        assert (Nn : u_netloc u = []).
        { unfold with_slashes in Ws. apply orb_false_iff in Ws as [Ws _]. apply orb_false_iff in Ws as [Ws _].
          destruct (u_netloc u); auto; discriminate. }
        rewrite Nn.
        replace (starts [47; 47] (u_path u ++ tail u)) with false; auto. symmetry.
        assert (Sp : starts [47; 47] (u_path u) = false).
        { unfold with_slashes in Ws. apply orb_false_iff in Ws as [_ Ws]. auto. }
        destruct (u_path u) as [|c [|d p]].
        + cbn [app]. destruct (tail_shape u) as [E|[r [E|E]]]; rewrite E; auto.
        + cbn [app starts]. destruct (47 =? c); auto. cbn [andb].
          destruct (tail_shape u) as [E|[r [E|E]]]; rewrite E; auto.
        + cbn [app starts] in *. auto. }
    rewrite Hnl.
    assert (Hf : partition 35 (fix_path u ++ tail u) = (fix_path u ++ prefix_if (u_query u) [63], u_fragment u)).
    { assert (N35 : ~ In 35 (fix_path u ++ prefix_if (u_query u) [63])).
      { rewrite in_app_iff. intros [H|H]; [apply Hp in H; lia|]. unfold prefix_if in H.
        destruct (is_nil (u_query u)); [destruct H|]. destruct H as [H|H]; [lia|].
        apply (wf_query u W) in H. congruence. }
      unfold tail. rewrite app_assoc. unfold prefix_if at 2. destruct (u_fragment u) as [|c f]; cbn [is_nil].
      - rewrite app_nil_r. apply partition_none; auto.
      - cbn [app]. apply partition_app; auto. }
    rewrite Hf.
    assert (Hq : partition 63 (fix_path u ++ prefix_if (u_query u) [63]) = (fix_path u, u_query u)).
    { assert (N63 : ~ In 63 (fix_path u)) by (intros H; apply Hp in H; lia).
      unfold prefix_if. destruct (u_query u) as [|c q]; cbn [is_nil].
      - rewrite app_nil_r. apply partition_none; auto.
      - cbn [app]. apply partition_app; auto. }
    rewrite Hq, Hbr, Has. auto.
  Qed.
End Split.

(** ** The network location *)
Definition net_special (c : N) : Prop := In c [58; 64; 91; 93; 47; 63; 35; 9; 10; 13].
Definition lowered (h : str) : str :=
  match split1 37 h with Some (a, z) => lower a ++ 37 :: z | None => lower h end.

Lemma lower_c_small c : lower_c c < 97 -> c = lower_c c.
Proof.
  unfold lower_c, is_ascii_upper, between. destruct ((65 <=? c) && (c <=? 90)) eqn:E; [lia|].
  destruct ((192 <=? c) && (c <=? 222) && negb (c =? 215)) eqn:E2; lia.
Qed.
Lemma lowered_in h c : In c (lowered h) -> c < 97 -> In c h.
Proof.
  unfold lowered. intros Hi Hc. destruct (split1 37 h) as [[a z]|] eqn:E.
  - apply split1_some in E as [-> _]. apply in_app_iff in Hi as [Hi|Hi]; apply in_app_iff; [left|right; auto].
    unfold lower in Hi. apply in_map_iff in Hi as (y & <- & Hy). rewrite <- lower_c_small; auto.
  - unfold lower in Hi. apply in_map_iff in Hi as (y & <- & Hy). rewrite <- lower_c_small; auto.
Qed.
Lemma lowered_idem h : lowered (lowered h) = lowered h.
Proof.
  unfold lowered at 2 3. destruct (split1 37 h) as [[a z]|] eqn:E.
  - apply split1_some in E as [-> Hn]. unfold lowered. rewrite split1_app.
    + rewrite lower_idem. auto.
    + intros Hi. apply Hn. unfold lower in Hi. apply in_map_iff in Hi as (y & Ey & Hy).
      rewrite (lower_c_small y) in Hy; [|lia]. rewrite Ey in Hy. auto.
  - unfold lowered. apply split1_none in E.
    assert (N : split1 37 (lower h) = None).
    { apply split1_none. intros Hi. apply E. unfold lower in Hi. apply in_map_iff in Hi as (y & Ey & Hy).
      rewrite (lower_c_small y) in Hy; [|lia]. rewrite Ey in Hy. auto. }
    rewrite N. apply lower_idem.
Qed.
Lemma hostname_eq nl : hostname nl = lowered (fst (hostinfo nl)).
Proof. reflexivity. Qed.

Section Netloc.
  Variable idna_part : str -> res str.
  Hypothesis idna_plain : forall p e, idna_part p = Ok e -> forall c, In c e -> host_char c.
  Notation encode_netloc := (encode_netloc idna_part).
  Notation encode_idna := (encode_idna idna_part).

  Lemma in_join c sep l : In c (join sep l) -> In c sep \/ exists x, In x l /\ In c x.
  Proof.
    induction l as [|x [|y l] IH]; [intros []| |].
    - cbn [join]. intros H. right. exists x. split; auto. left; auto.
    - change (join sep (x :: y :: l)) with (x ++ sep ++ join sep (y :: l)). rewrite !in_app_iff.
      intros [H|[H|H]]; [right; exists x; split; [left; auto|auto]|auto|].
      destruct (IH H) as [?|(z & Hz & Hc)]; auto. right. exists z. split; [right; auto|auto].
  Qed.

  Lemma idna_parts_in l r : fold_right (fun p acc => do l <- acc; do e <- idna_part p; Ok (e :: l)) (Ok []) l = Ok r ->
    forall x, In x r -> exists p, idna_part p = Ok x.
  Proof.
    revert r; induction l as [|p l IH]; intros r; cbn [fold_right].
    - intros H; inv H. intros x [].
    - destruct (fold_right _ (Ok []) l) as [r'|]; cbn [bind]; [|discriminate].
      destruct (idna_part p) as [e|] eqn:E; cbn [bind]; [|discriminate]. intros H; inv H.
      intros x [<-|Hx]; [eauto|]. eapply IH; eauto.
  Qed.

  Lemma encode_idna_plain d r : encode_idna d = Ok r ->
    (is_ascii d = true /\ r = d) \/ (forall c, In c r -> host_char c).
  Proof.
    unfold ModelUrls.encode_idna. destruct (is_ascii d) eqn:E; [intros H; inv H; auto|].
    destruct (fold_right _ (Ok []) (split_on 46 d)) as [parts|] eqn:F; cbn [bind]; [|discriminate].
    intros H; inv H. right. intros c Hc. apply in_join in Hc as [[<-|[]]|(x & Hx & Hc)].
    - unfold host_char. cbn [In]. lia.
    - destruct (idna_parts_in _ _ F x Hx) as [p Hp]. eapply idna_plain; eauto.
  Qed.

  Definition host_of (nl : str) : res str :=
    if is_nil (hostname nl) then Ok []
    else do h <- encode_idna (hostname nl); if is_ascii h then Ok h else Raise UnicodeError.

  Lemma hostinfo_plain nl : ~ In 91 nl -> ~ In 93 nl ->
    exists pre h, nl = pre ++ h /\ ~ In 64 h /\ hostinfo nl = partition 58 h.
  Proof.
    intros H1 H2. unfold hostinfo. destruct (rsplit1 64 nl) as [[a h]|] eqn:E.
    - apply rsplit1_some in E as [-> Hn]. exists (a ++ [64]), h. rewrite <- app_assoc. split; auto. split; auto.
      assert (N : split1 91 h = None) by (apply split1_none; intros X; apply H1; apply in_app_iff; right; right; auto).
      rewrite N. auto.
    - apply rsplit1_none in E. exists [], nl. split; auto. split; auto. apply split1_none in H1. rewrite H1. auto.
  Qed.

  Lemma host_of_plain nl h : (forall c, In c nl -> ~ In c [47; 63; 35; 9; 10; 13]) -> ~ In 91 nl -> ~ In 93 nl ->
    host_of nl = Ok h ->
    ascii_text h /\ (forall c, In c h -> ~ net_special c) /\ lowered h = h.
  Proof.
    intros Hnl H91 H93. unfold host_of.
    assert (Hs : forall c, In c (hostname nl) -> ~ net_special c).
    { intros c Hc Hsp. assert (c < 97) by (unfold net_special in Hsp; cbn [In] in Hsp; lia).
      rewrite hostname_eq in Hc. apply lowered_in in Hc; auto.
      destruct (hostinfo_plain nl H91 H93) as (pre & h0 & E & H64 & Ei). rewrite Ei in Hc.
      destruct (partition 58 h0) as [a b] eqn:Ep. apply partition_spec in Ep as [Hn Ep]. cbn [fst] in Hc.
      assert (Hh : In c h0) by (destruct Ep as [->|[-> _]]; auto; apply in_app_iff; auto).
      assert (Hin : In c nl) by (rewrite E; apply in_app_iff; auto). pose proof (Hnl c Hin) as Q.
      unfold net_special in Hsp. cbn [In] in Hsp, Q.
      assert (c = 58 -> False) by (intros ->; auto). assert (c = 64 -> False) by (intros ->; auto).
      assert (c = 91 -> False) by (intros ->; auto). assert (c = 93 -> False) by (intros ->; auto). lia. }
    destruct (is_nil (hostname nl)).
    - intros H; inv H. split; [intros c []|]. split; [intros c []|auto].
    - destruct (encode_idna (hostname nl)) as [e|] eqn:E; cbn [bind]; [|discriminate].
      destruct (is_ascii e) eqn:A; [|discriminate]. intros H; inv H. apply is_ascii_text in A. split; auto.
      apply encode_idna_plain in E as [[_ ->]|Hc].
      + split; auto. rewrite hostname_eq. apply lowered_idem.
      + split; [intros c Hi Hsp; apply Hc in Hi as (_ & _ & Hi); auto|].
        assert (L : forall x, (forall c, In c x -> In c h) -> lower x = x).
        { induction x as [|c x IH]; intros Hx; auto. cbn [lower map]. f_equal; [|apply IH; intros y Hy; apply Hx; right; auto].
          destruct (Hc c) as (H1 & H2 & _); [apply Hx; left; auto|].
          unfold lower_c, is_ascii_upper, between. replace ((65 <=? c) && (c <=? 90)) with false by lia.
          replace ((192 <=? c) && (c <=? 222) && negb (c =? 215)) with false by lia. auto. }
        unfold lowered. destruct (split1 37 h) as [[a z]|] eqn:Es; [|apply L; auto].
        apply split1_some in Es as [-> _]. rewrite L; auto. intros c Hi. apply in_app_iff; auto.
  Qed.

  Lemma digits_in p c : In c (dec p) -> 48 <= c <= 57.
  Proof.
    intros H. pose proof (dec_digits p) as D. rewrite forallb_forall in D. apply D in H.
    unfold is_ascii_digit, between in H. lia.
  Qed.

  (** Shape of a rebuilt user information part. *)
  Definition auth_safe : str := lit "/:%".
  Lemma auth_spec nl a : convert_auth (urlquote auth_safe) nl = Ok (Some a) ->
    (forall c, In c nl -> ~ In c [47; 63; 35; 9; 10; 13]) ->
    (forall c, In c a -> 32 < c < 128 /\ ~ In c [47; 63; 35; 64; 91; 93]) /\
    exists u p, userinfo (a ++ 64 :: []) = Some (u, p) /\
      convert_auth (urlquote auth_safe) (a ++ 64 :: []) = Ok (Some a) /\
      (forall h, ~ In 64 h -> userinfo (a ++ 64 :: h) = userinfo (a ++ 64 :: [])).
  Proof.
    intros H Hnl. unfold convert_auth in H.
    assert (S37 : In 37 auth_safe) by (right; right; left; auto).
    destruct (userinfo nl) as [[u p]|] eqn:Eu; [|discriminate].
    assert (Hu : (forall c, In c u -> In c nl /\ c <> 58) /\ (forall p', p = Some p' -> forall c, In c p' -> In c nl)).
    { unfold userinfo in Eu. destruct (rsplit1 64 nl) as [[info h]|] eqn:Er; [|discriminate].
      apply rsplit1_some in Er as [-> _]. destruct (split1 58 info) as [[x y]|] eqn:Es; inv Eu.
      - apply split1_some in Es as [-> Hn]. split.
        + intros c Hc. split; [rewrite !in_app_iff; auto|intros ->; auto].
        + intros p' E c Hc. inv E. rewrite !in_app_iff. left; right; right; auto.
      - apply split1_none in Es. split; [|discriminate]. intros c Hc. split; [rewrite in_app_iff; auto|intros ->; auto]. }
    destruct Hu as [Hu Hp].
    assert (Good : forall s q, urlquote auth_safe s = Ok q -> (forall c, In c s -> In c nl) ->
                   forall c, In c q -> 32 < c < 128 /\ ~ In c [47; 63; 35; 64; 91; 93]).
    { intros s q Eq Hs c Hc. pose proof (urlquote_safe _ _ _ S37 Eq) as Q. rewrite forallb_forall in Q.
      pose proof (Q c Hc) as Qc. apply quote_safe_spec in Qc. change auth_safe with [47; 58; 37] in Qc.
      assert (N47 : c <> 47).
      { intros ->. assert (In 47 s) by (eapply urlquote_in; eauto; lia). apply Hs in H0. apply Hnl in H0.
        apply H0. left; auto. }
      unfold unreserved in Qc. cbn [In] in *. lia. }
    assert (Hr : forall x h, ~ In 64 h -> rsplit1 64 (x ++ 64 :: h) = Some (x, h)) by (intros; apply rsplit1_some; auto).
    assert (User : forall x h h', ~ In 64 h -> ~ In 64 h' -> userinfo (x ++ 64 :: h) = userinfo (x ++ 64 :: h')).
    { intros x h h' N1 N2. unfold userinfo. rewrite !Hr; auto. }
    set (pw := match p with Some p => p | None => [] end) in *.
    destruct (is_nil u && is_nil pw) eqn:En; [discriminate|].
    destruct (if is_nil u then Ok [] else urlquote auth_safe u) as [u'|] eqn:Eu'; cbn [bind] in H; [|discriminate].
    assert (Gu : forall c, In c u' -> (32 < c < 128 /\ ~ In c [47; 63; 35; 64; 91; 93]) /\ c <> 58).
    { intros c Hc. destruct (is_nil u) eqn:Nu; [inv Eu'; destruct Hc|]. split.
      - eapply Good; eauto. intros x Hx. apply Hu; auto.
      - intros ->. assert (X : In 58 u) by (eapply urlquote_in; eauto; lia). apply Hu in X. tauto. }
    assert (Nu : is_nil u' = is_nil u).
    { destruct (is_nil u) eqn:Nu; [inv Eu'; auto|]. rewrite (urlquote_nil _ _ _ Eu'). auto. }
    assert (Qu : (if is_nil u' then Ok [] else urlquote auth_safe u') = Ok u').
    { destruct (is_nil u') eqn:N'; [destruct u'; [auto|discriminate]|]. rewrite <- Nu in Eu'.
      apply urlquote_id. eapply urlquote_safe; eauto. }
    assert (U58 : ~ In 58 u') by (intros X; apply Gu in X; tauto).
    destruct (is_nil pw) eqn:Np.
    - inv H. split; [intros c Hc; apply Gu; auto|].
      assert (Ui : userinfo (a ++ [64]) = Some (a, None)).
      { unfold userinfo. rewrite Hr by (intros []). apply split1_none in U58. rewrite U58. auto. }
      exists a, None. split; auto. split; [|intros h Hh; apply User; auto].
      unfold convert_auth. rewrite Ui. cbn [is_nil]. rewrite andb_true_r.
      rewrite andb_true_r, <- Nu in En. rewrite En in *. rewrite Qu. cbn [bind]. auto.
    - destruct (urlquote auth_safe pw) as [p'|] eqn:Ep'; cbn [bind] in H; [|discriminate]. inv H.
      assert (Gp : forall c, In c p' -> 32 < c < 128 /\ ~ In c [47; 63; 35; 64; 91; 93]).
      { eapply Good; eauto. intros c Hc. destruct p as [p|]; [|destruct Hc]. eapply Hp; eauto. }
      split.
      { intros c Hc. apply in_app_iff in Hc as [Hc|[<-|Hc]]; [apply Gu; auto|cbn [In]; lia|auto]. }
      assert (Ui : userinfo ((u' ++ 58 :: p') ++ [64]) = Some (u', Some p')).
      { unfold userinfo. rewrite Hr by (intros []). rewrite split1_app; auto. }
      exists u', (Some p'). split; auto. split; [|intros h Hh; apply User; auto].
      unfold convert_auth. rewrite Ui.
      pose proof (urlquote_nil _ _ _ Ep') as Np'. rewrite Np in Np'. rewrite Np'.
      rewrite andb_false_r, Qu. cbn [bind].
      rewrite (urlquote_id auth_safe p') by (eapply urlquote_safe; eauto). cbn [bind]. auto.
  Qed.

  Lemma encode_netloc_stable nl nl' :
    (forall c, In c nl -> ~ In c [47; 63; 35; 9; 10; 13]) -> ~ In 91 nl -> ~ In 93 nl ->
    encode_netloc nl = Ok nl' ->
    encode_netloc nl' = Ok nl' /\ ascii_text nl' /\ (forall c, In c nl' -> ~ In c [47; 63; 35; 9; 10; 13; 91; 93]).
  Proof.
    intros Hnl H91 H93 H. unfold ModelUrls.encode_netloc in H. fold (host_of nl) in H.
    destruct (host_of nl) as [host|] eqn:Eh; cbn [bind] in H; [|discriminate].
    destruct (port nl) as [p|] eqn:Ep; cbn [bind] in H; [|discriminate].
    change (lit "/:%") with auth_safe in H.
    destruct (convert_auth (urlquote auth_safe) nl) as [auth|] eqn:Ea; cbn [bind] in H; [|discriminate]. inv H.
    pose proof (host_of_plain _ _ Hnl H91 H93 Eh) as (Ha & Hs & Hl).
    assert (Hp : p <= 65535).
    { unfold port in Ep. destruct (is_nil _); [inv Ep; lia|]. destruct (forallb _ _); [|discriminate].
      destruct (digits_val _ <=? 65535) eqn:L; inv Ep. lia. }
    assert (H58 : mem 58 host = false).
    { apply mem_not_In. intros X. apply Hs in X. apply X. left; auto. }
    set (core := if p =? 0 then host else host ++ 58 :: dec p).
    assert (Ecore : make_netloc host p auth = match auth with Some a => a ++ 64 :: core | None => core end).
    { unfold make_netloc. rewrite H58. auto. }
    assert (Hcore : forall c, In c core -> c < 128 /\ ~ In c [64; 47; 63; 35; 9; 10; 13; 91; 93]).
    { assert (forall c, In c host -> c < 128 /\ ~ In c [64; 47; 63; 35; 9; 10; 13; 91; 93]).
      { intros c Hc. split; [apply Ha; auto|]. apply Hs in Hc. unfold net_special in Hc. cbn [In] in *. tauto. }
      unfold core. destruct (p =? 0); auto. intros c Hc. apply in_app_iff in Hc as [Hc|[<-|Hc]]; auto.
      - cbn [In]. lia.
      - apply digits_in in Hc. cbn [In]. lia. }
    assert (Hc64 : ~ In 64 core) by (intros X; apply Hcore in X; cbn [In] in X; tauto).
    assert (Hc91 : ~ In 91 core) by (intros X; apply Hcore in X; cbn [In] in X; tauto).
    assert (Pc : partition 58 core = (host, if p =? 0 then [] else dec p)).
    { apply mem_not_In in H58. unfold core. destruct (p =? 0); [apply partition_none|apply partition_app]; auto. }
    assert (Port : forall x, snd (hostinfo x) = (if p =? 0 then [] else dec p) -> port x = Ok p).
    { intros x Ex. unfold port. rewrite Ex. destruct (p =? 0) eqn:P0; cbn [is_nil]; [f_equal; lia|].
      destruct (dec p) as [|d ds] eqn:Ed; [exfalso; eapply dec_nonnil; eauto|]. cbn [is_nil]. rewrite <- Ed.
      rewrite dec_digits, dec_val. replace (p <=? 65535) with true by lia. auto. }
    assert (Host : forall x, fst (hostinfo x) = host -> host_of x = Ok host).
    { intros x Ex. unfold host_of. rewrite hostname_eq, Ex, Hl. destruct host as [|c h]; cbn [is_nil]; auto.
      unfold ModelUrls.encode_idna. apply is_ascii_text in Ha. rewrite Ha. cbn [bind]. rewrite Ha. auto. }
    rewrite Ecore. unfold ModelUrls.encode_netloc. change (lit "/:%") with auth_safe.
    destruct auth as [a|].
    - pose proof (auth_spec _ _ Ea Hnl) as (Ga & u & pw & Eu & Ec & Eq).
      assert (Hi : hostinfo (a ++ 64 :: core) = (host, if p =? 0 then [] else dec p)).
      { unfold hostinfo. assert (R : rsplit1 64 (a ++ 64 :: core) = Some (a, core)) by (apply rsplit1_some; auto).
        rewrite R. apply split1_none in Hc91. rewrite Hc91. auto. }
      fold (host_of (a ++ 64 :: core)). rewrite Host, Port by (rewrite Hi; auto). cbn [bind].
      assert (Ec' : convert_auth (urlquote auth_safe) (a ++ 64 :: core) = Ok (Some a)).
      { rewrite <- Ec. unfold convert_auth. rewrite Eq by auto. auto. }
      rewrite Ec'. cbn [bind]. unfold make_netloc. rewrite H58. split; [auto|]. split.
      + intros c Hc. apply in_app_iff in Hc as [Hc|[<-|Hc]]; [apply Ga; auto|lia|apply Hcore; auto].
      + intros c Hc. apply in_app_iff in Hc as [Hc|[<-|Hc]].
        * apply Ga in Hc. cbn [In] in *. lia.
        * cbn [In]. lia.
        * apply Hcore in Hc. cbn [In] in *. tauto.
    - assert (Hr : rsplit1 64 core = None) by (apply rsplit1_none; auto).
      assert (Hi : hostinfo core = (host, if p =? 0 then [] else dec p)).
      { unfold hostinfo. rewrite Hr. apply split1_none in Hc91. rewrite Hc91. auto. }
      fold (host_of core). rewrite Host, Port by (rewrite Hi; auto). cbn [bind].
      unfold convert_auth, userinfo. rewrite Hr. cbn [bind]. unfold make_netloc. rewrite H58. split; [auto|]. split.
      + intros c Hc. apply Hcore; auto.
      + intros c Hc. apply Hcore in Hc. cbn [In] in *. tauto.
  Qed.
End Netloc.

(** ** The theorems *)
Lemma quote_like safe p p' : urlquote safe p = Ok p' -> scheme_like p' -> scheme_like p.
Proof.
  intros E (a & r & Es & Ha & Hs). apply split1_some in Es as [-> Hn].
  apply urlquote_spec in E as (b & Eb & Hb & Eq).
  assert (H37 : forall c, In c a -> c <> 37 /\ c < 128).
  { intros c Hc. pose proof (scheme_no_special _ Hs c Hc). lia. }
  assert (B : exists r0, b = a ++ 58 :: r0).
  { clear Ha Hs Hn Eb. revert b Hb Eq. induction a as [|c a IH]; intros b Hb Eq.
    - destruct b as [|x b]; [discriminate|]. cbn [app] in Eq.
      change (quote_bytes safe (x :: b)) with (quote_byte safe x ++ quote_bytes safe b) in Eq.
      unfold quote_byte in Eq. destruct (quote_safe safe x); cbn [pct app] in Eq; inv Eq. exists b. auto.
    - destruct b as [|x b]; [discriminate|]. cbn [app] in Eq.
      change (quote_bytes safe (x :: b)) with (quote_byte safe x ++ quote_bytes safe b) in Eq.
      unfold quote_byte in Eq. destruct (quote_safe safe x); cbn [pct app] in Eq; inv Eq.
      + destruct (IH (fun d h => H37 d (or_intror h)) b) as [r0 ->]; auto; [intros d Hd; apply Hb; right; auto|].
        exists r0. auto.
      + exfalso. destruct (H37 37); [left; auto|congruence]. }
  destruct B as [r0 ->].
  assert (P : exists p0, p = a ++ 58 :: p0).
  { clear Ha Hs Hn Eq Hb. unfold utf8_encode in Eb. destruct (forallb scalar p) eqn:Sc; [|discriminate]. inv Eb.
    revert p Sc H0. induction a as [|c a IH]; intros p Sc H0; (destruct p as [|x p]; [discriminate|]);
      cbn [forallb flat_map app] in *; apply andb_true_iff in Sc as [Sx Sp].
    - assert (Hx : In 58 (utf8_char x)).
      { destruct (utf8_char x) as [|y z] eqn:Ex; cbn [app] in H0.
        - unfold utf8_char in Ex. destruct (x <? 128); [discriminate|]. destruct (x <? 2048); [discriminate|].
          destruct (x <? 65536); discriminate.
        - inv H0. left; auto. }
      destruct (utf8_char_high x 58 Sx Hx) as [<- _]; [lia|]. exists p. auto.
    - assert (Hx : In c (utf8_char x)).
      { destruct (utf8_char x) as [|y z] eqn:Ex; cbn [app] in H0.
        - unfold utf8_char in Ex. destruct (x <? 128); [discriminate|]. destruct (x <? 2048); [discriminate|].
          destruct (x <? 65536); discriminate.
        - inv H0. left; auto. }
      destruct (utf8_char_high x c Sx Hx) as [<- Ex]; [apply H37; left; auto|]. rewrite Ex in H0. cbn [app] in H0. inv H0.
      destruct (IH (fun d h => H37 d (or_intror h)) p Sp H1) as [p0 ->]. exists p0. auto. }
  destruct P as [p0 ->]. exists a, p0. split; auto. apply split1_app; auto.
Qed.

Section Main.
  Variable idna_part : str -> res str.
  Variable ip_ok nfkc_ok : str -> bool.
  Notation iri_to_uri := (iri_to_uri idna_part ip_ok nfkc_ok).
  Notation urlsplit := (urlsplit ip_ok nfkc_ok).

  Lemma iri_to_uri_parts iri o : iri_to_uri iri = Ok o ->
    exists u nl p q f, urlsplit iri = Ok u /\ encode_netloc idna_part (u_netloc u) = Ok nl /\
      urlquote path_safe (u_path u) = Ok p /\ urlquote query_safe (u_query u) = Ok q /\
      urlquote fragment_safe (u_fragment u) = Ok f /\ o = urlunsplit (Split (u_scheme u) nl p q f).
  Proof.
    unfold ModelUrls.iri_to_uri. destruct (urlsplit iri) as [u|]; cbn [bind]; [|discriminate].
    destruct (encode_netloc idna_part (u_netloc u)) as [nl|] eqn:E1; cbn [bind]; [|discriminate].
    destruct (urlquote path_safe (u_path u)) as [p|] eqn:E2; cbn [bind]; [|discriminate].
    destruct (urlquote query_safe (u_query u)) as [q|] eqn:E3; cbn [bind]; [|discriminate].
    destruct (urlquote fragment_safe (u_fragment u)) as [f|] eqn:E4; cbn [bind]; [|discriminate].
    intros H; inv H. exists u, nl, p, q, f. repeat split; auto.
  Qed.

  Lemma s37_path : In 37 path_safe. Proof. right; right; right; right; left; auto. Qed.
  Lemma s37_query : In 37 query_safe. Proof. left; auto. Qed.
  Lemma s37_fragment : In 37 fragment_safe. Proof. right; left; auto. Qed.
  Lemma safe_big safe c : (forall x, In x safe -> 32 < x) -> quote_safe safe c = true -> 32 < c.
  Proof. intros H Hq. apply quote_safe_spec in Hq as [Hq|[Hq _]]; auto. unfold unreserved in Hq. lia. Qed.
  Lemma big_path x : In x path_safe -> 32 < x.
  Proof. change path_safe with [47; 58; 126; 43; 37]. cbn [In]. lia. Qed.
  Lemma big_query x : In x query_safe -> 32 < x.
  Proof.
    change query_safe with [37; 38; 91; 93; 58; 59; 36; 42; 40; 41; 43; 44; 33; 63; 42; 47; 61]. cbn [In]. lia.
  Qed.
  Lemma big_fragment x : In x fragment_safe -> 32 < x.
  Proof.
    change fragment_safe with [61; 37; 38; 91; 93; 58; 59; 36; 40; 41; 43; 44; 33; 63; 42; 47]. cbn [In]. lia.
  Qed.

  Lemma make_netloc_ascii nl h : encode_netloc idna_part nl = Ok h -> ascii_text h.
  Proof.
    unfold encode_netloc. destruct (if is_nil (hostname nl) then _ else _) as [host|] eqn:Eh; cbn [bind]; [|discriminate].
    destruct (port nl) as [p|]; cbn [bind]; [|discriminate].
    destruct (convert_auth (urlquote (lit "/:%")) nl) as [auth|] eqn:Ea; cbn [bind]; [|discriminate].
    intros H; inv H.
    assert (Hh : ascii_text host).
    { destruct (is_nil (hostname nl)); [inv Eh; intros c []|].
      destruct (encode_idna idna_part (hostname nl)) as [e|]; cbn [bind] in Eh; [|discriminate].
      destruct (is_ascii e) eqn:A; inv Eh. apply is_ascii_text; auto. }
    assert (Q : forall s q, urlquote (lit "/:%") s = Ok q -> ascii_text q).
    { intros s q E. eapply quote_safe_ascii. eapply urlquote_safe; eauto. right; right; left; auto. }
    assert (Aauth : forall a, auth = Some a -> ascii_text a).
    { intros a ->. unfold convert_auth in Ea. destruct (userinfo nl) as [[u pw]|]; [|discriminate].
      destruct (is_nil u && is_nil _); [discriminate|].
      destruct (if is_nil u then Ok [] else _) as [u'|] eqn:Eu; cbn [bind] in Ea; [|discriminate].
      assert (Au : ascii_text u') by (destruct (is_nil u); [inv Eu; intros c []|eapply Q; eauto]).
      set (w := match pw with Some p0 => p0 | None => [] end) in *.
      destruct (is_nil w); [inv Ea; auto|].
      destruct (urlquote (lit "/:%") w) as [p'|] eqn:Ep; cbn [bind] in Ea; [|discriminate].
      inv Ea. intros c Hc. apply in_app_iff in Hc as [Hc|[<-|Hc]]; [auto|lia|eapply Q; eauto]. }
    assert (Ab : ascii_text (if mem 58 host then 91 :: host ++ [93] else host)).
    { destruct (mem 58 host); auto. intros c [<-|Hc]; [lia|]. apply in_app_iff in Hc as [Hc|[<-|[]]]; [auto|lia]. }
    unfold make_netloc. set (hb := if mem 58 host then _ else _) in *.
    assert (Ac : ascii_text (if p =? 0 then hb else hb ++ 58 :: dec p)).
    { destruct (p =? 0); auto. intros c Hc. apply in_app_iff in Hc as [Hc|[<-|Hc]]; [auto|lia|].
      apply digits_in in Hc. lia. }
    destruct auth as [a|]; auto. intros c Hc. apply in_app_iff in Hc as [Hc|[<-|Hc]]; [eapply Aauth; eauto|lia|auto].
  Qed.

  Lemma iri_ascii iri o : iri_to_uri iri = Ok o -> ascii_text o.
  Proof.
    intros H. apply iri_to_uri_parts in H as (u & nl & p & q & f & Eu & En & Ep & Eq & Ef & ->).
    apply urlsplit_wf in Eu as [W _]. apply make_netloc_ascii in En.
    apply (urlquote_safe _ _ _ s37_path) in Ep. apply quote_safe_ascii in Ep.
    apply (urlquote_safe _ _ _ s37_query) in Eq. apply quote_safe_ascii in Eq.
    apply (urlquote_safe _ _ _ s37_fragment) in Ef. apply quote_safe_ascii in Ef.
    assert (As : ascii_text (u_scheme u)).
    { destruct (wf_scheme u W) as [->|(_ & G & _)]; [intros c []|]. intros c Hc.
      apply (scheme_no_special _ G) in Hc. lia. }
    rewrite urlunsplit_eq. set (u2 := Split _ _ _ _ _).
    assert (Ap : ascii_text (fix_path u2)).
    { unfold fix_path. destruct (_ && _ && _); auto. intros c [<-|Hc]; [lia|auto]. }
    assert (Ab : ascii_text (body u2)).
    { unfold body. destruct (with_slashes u2); auto. intros c Hc. cbn [app In] in Hc.
      destruct Hc as [<-|[<-|Hc]]; [lia|lia|]. apply in_app_iff in Hc as [Hc|Hc]; auto. }
    assert (At : ascii_text (tail u2)).
    { unfold tail, prefix_if. cbn [u2 u_query u_fragment]. intros c Hc. apply in_app_iff in Hc as [Hc|Hc].
      - destruct (is_nil q); [destruct Hc|]. destruct Hc as [<-|Hc]; [lia|auto].
      - destruct (is_nil f); [destruct Hc|]. destruct Hc as [<-|Hc]; [lia|auto]. }
    intros c Hc. apply in_app_iff in Hc as [Hc|Hc]; [|auto].
    destruct (is_nil (u_scheme u2)); auto. apply in_app_iff in Hc as [Hc|[<-|Hc]]; [auto|lia|auto].
  Qed.

  Hypothesis idna_plain : forall p e, idna_part p = Ok e -> forall c, In c e -> host_char c.

  Lemma iri_idempotent iri o u : iri_to_uri iri = Ok o -> urlsplit iri = Ok u -> ~ In 91 (u_netloc u) ->
    iri_to_uri o = Ok o.
  Proof.
    intros H Hu0 H91. apply iri_to_uri_parts in H as (u' & nl & p & q & f & Eu & En & Ep & Eq & Ef & ->).
    rewrite Eu in Hu0. inv Hu0. pose proof (urlsplit_wf _ _ _ _ Eu) as [W Hb].
    assert (H93 : ~ In 93 (u_netloc u)).
    { unfold bracket_ok in Hb. apply mem_not_In in H91. rewrite H91 in Hb. apply mem_not_In.
      destruct (mem 93 (u_netloc u)); auto; discriminate. }
    pose proof (encode_netloc_stable idna_part idna_plain _ _ (wf_netloc u W) H91 H93 En) as (Sn & An & Cn).
    pose proof (urlquote_safe _ _ _ s37_path Ep) as Sp.
    pose proof (urlquote_safe _ _ _ s37_query Eq) as Sq.
    pose proof (urlquote_safe _ _ _ s37_fragment Ef) as Sf.
    set (u2 := Split (u_scheme u) nl p q f).
    assert (W2 : wf u2).
    { constructor; unfold u2; cbn [u_scheme u_netloc u_path u_query u_fragment].
      - apply (wf_scheme u W).
      - intros c Hc. apply Cn in Hc. cbn [In] in *. tauto.
      - intros Hne. destruct (u_netloc u) as [|x y] eqn:Eun.
        + exfalso. apply Hne. unfold encode_netloc in En. cbn in En. inv En. auto.
        + assert (R : rooted (u_path u)) by (apply (wf_rooted u W); rewrite Eun; discriminate).
          destruct R as [R|[r R]]; rewrite R in Ep.
          * inv Ep. left; auto.
          * right. unfold urlquote, utf8_encode in Ep. destruct (forallb scalar (47 :: r)); [|discriminate].
            cbn [bind flat_map] in Ep. inv Ep. eexists. reflexivity.
      - intros c Hc. split; intros ->.
        + assert (X : In 63 (u_path u)) by (eapply urlquote_in; eauto; lia). apply (wf_path u W) in X. lia.
        + assert (X : In 35 (u_path u)) by (eapply urlquote_in; eauto; lia). apply (wf_path u W) in X. lia.
      - intros c Hc ->. assert (X : In 35 (u_query u)) by (eapply urlquote_in; eauto; lia).
        apply (wf_query u W) in X. lia.
      - intros Es L. apply (wf_like u W Es). eapply quote_like; eauto. }
    assert (B2 : bracket_ok ip_ok nl = true).
    { unfold bracket_ok. assert (M : mem 91 nl = false) by (apply mem_not_In; intros X; apply Cn in X; cbn [In] in X; tauto).
      rewrite M. assert (M2 : mem 93 nl = false) by (apply mem_not_In; intros X; apply Cn in X; cbn [In] in X; tauto).
      rewrite M2. auto. }
    assert (Big : forall c, In c (u_path u2) \/ In c (u_query u2) \/ In c (u_fragment u2) -> 32 < c).
    { cbn [u2 u_path u_query u_fragment]. rewrite forallb_forall in Sp, Sq, Sf. intros c [Hc|[Hc|Hc]].
      - eapply safe_big; [apply big_path|]; auto.
      - eapply safe_big; [apply big_query|]; auto.
      - eapply safe_big; [apply big_fragment|]; auto. }
    unfold ModelUrls.iri_to_uri.
    rewrite (urlsplit_unsplit ip_ok nfkc_ok u2 W2 B2) by (auto; apply is_ascii_text; auto). cbn [bind].
    cbn [u_scheme u_netloc u_path u_query u_fragment]. change (u_netloc u2) with nl. rewrite Sn. cbn [bind].
    assert (Fs : forallb (quote_safe path_safe) (fix_path u2) = true).
    { unfold fix_path. destruct (_ && _ && _); cbn [u2 u_path forallb]; auto. }
    rewrite (urlquote_id path_safe _ Fs). cbn [bind].
    change (u_query u2) with q. change (u_fragment u2) with f. change (u_scheme u2) with (u_scheme u).
    rewrite (urlquote_id query_safe q Sq). cbn [bind]. rewrite (urlquote_id fragment_safe f Sf). cbn [bind].
    f_equal. exact (unsplit_fixed u2).
  Qed.
End Main.
