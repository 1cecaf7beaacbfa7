(** Proofs about get_current_url. *)
From Coq Require Import Arith List NArith ZArith Bool Lia ZifyBool ZifyN ZifyNat.
From Verif Require Import PyStr PyStrFacts Utf8 Utf8Facts ModelUrls SpecUrls ProofUrls ProofIri ModelMultiDict ModelWsgi
  ModelRequest SpecRequest ProofRequest.
Import ListNotations.
Open Scope N_scope.
Ltac inv H := inversion H; subst; clear H.

(** ** Bytes partly written as escapes *)
Inductive partly_escaped : str -> str -> Prop :=
| pe_nil : partly_escaped [] []
| pe_same v b t : v <> 37 -> partly_escaped b t -> partly_escaped (v :: b) (v :: t)
| pe_escape e v b t : escape e v -> v < 128 -> partly_escaped b t -> partly_escaped (v :: b) (e ++ t).

Lemma partly_decodes b t : partly_escaped b t -> percent_decodes t b.
Proof.
  unfold percent_decodes. induction 1; [constructor|apply un_char; auto|apply un_escape; auto].
Qed.
Lemma hexdigit_ascii a x : hexdigit a x -> a < 128.
Proof. intros H. inv H; lia. Qed.
Lemma partly_app_high x b t : (forall c, In c x -> 128 <= c) -> partly_escaped (x ++ b) t -> exists t', t = x ++ t' /\ partly_escaped b t'.
Proof.
  revert t. induction x as [|c x IH]; intros t Hx H; cbn [app] in *; [eauto|].
  assert (128 <= c) by (apply Hx; left; auto). inversion H as [|v b0 t0 Hv P|e v b0 t0 He Hv P]; subst; [|lia].
  apply IH in P as (t' & -> & P); [exists t'; auto|]. intros y Hy. apply Hx. right; auto.
Qed.
Lemma utf8_char_cases c : scalar c = true -> (c < 128 /\ utf8_char c = [c]) \/ (forall b, In b (utf8_char c) -> 128 <= b).
Proof.
  intros H. destruct (N.lt_ge_cases c 128) as [L|L].
  - left. split; auto. unfold utf8_char. replace (c <? 128) with true by lia. auto.
  - right. intros b Hb. destruct (N.lt_ge_cases b 128) as [Lb|Lb]; auto.
    destruct (utf8_char_high c b H Hb Lb) as [-> _]. lia.
Qed.
Lemma utf8_app a b : forallb scalar a = true -> forallb scalar b = true ->
  utf8_encode (a ++ b) = Ok (flat_map utf8_char a ++ flat_map utf8_char b).
Proof. intros A B. unfold utf8_encode. rewrite forallb_app, A, B, flat_map_app. auto. Qed.
Lemma scalar_ascii c : c < 128 -> scalar c = true.
Proof. intros H. unfold scalar, between. lia. Qed.
Lemma partly_utf8 text b t : utf8_encode text = Ok b -> partly_escaped b t ->
  exists text', utf8_encode text' = Ok t /\ (forall c, In c text' -> In c text \/ 37 <= c < 128 /\ (c = 37 \/ unreserved c)).
Proof.
  unfold utf8_encode. destruct (forallb scalar text) eqn:S; [|discriminate]. intros E. inv E. revert t.
  induction text as [|c text IH]; intros t H; cbn [flat_map forallb] in *.
  - inv H. exists []. split; auto.
  - apply andb_true_iff in S as [Sc S]. destruct (utf8_char_cases c Sc) as [[L E]|L].
    + rewrite E in H. cbn [app] in H. inversion H as [|v b0 t0 Hv P|e v b0 t0 He Hv P]; subst; clear H.
      * destruct (IH S _ P) as (text' & U & C). exists (c :: text'). cbn [forallb flat_map]. rewrite Sc. cbn [andb].
        destruct (forallb scalar text') eqn:S'; [|discriminate]. inv U. rewrite E. split; auto.
        intros x [<-|Hx]; [left; left; auto|]. destruct (C _ Hx); [left; right; auto|auto].
      * destruct (IH S _ P) as (text' & U & C). exists (e ++ text').
        destruct (forallb scalar text') eqn:S'; [|discriminate]. inv U.
        inversion He as [a1 a2 x1 x2 X1 X2]; subst. pose proof (hexdigit_safe _ _ X1). pose proof (hexdigit_safe _ _ X2).
        cbn [app forallb flat_map]. rewrite S', !scalar_ascii by lia. cbn [andb]. split.
        { unfold utf8_char at 1 2 3. replace (a1 <? 128) with true by lia. replace (a2 <? 128) with true by lia. auto. }
        intros x [<-|[<-|[<-|Hx]]]; try (right; unfold unreserved in *; lia).
        destruct (C _ Hx); [left; right; auto|auto].
    + apply partly_app_high in H as (t' & -> & H); auto. destruct (IH S _ H) as (text' & U & C). exists (c :: text').
      cbn [forallb flat_map]. rewrite Sc. cbn [andb]. destruct (forallb scalar text') eqn:S'; [|discriminate]. inv U. split; auto.
      intros x [<-|Hx]; [left; left; auto|]. destruct (C _ Hx); [left; right; auto|auto].
Qed.

(** ** Paths *)
Lemma path_unsafe_in v : In v path_unsafe <-> v = 37 \/ v = 47 \/ v = 59 \/ v = 63.
Proof. change path_unsafe with [37; 47; 59; 63]. cbn [In]. intuition congruence. Qed.
Lemma shown_bytes b : bytes_text b -> unescapes (fun v => In v path_unsafe) (quote_bytes (lit "/") b) (flat_map shown_char b).
Proof.
  change (lit "/") with [47].
  induction b as [|c b IH]; intros H; [constructor|].
  change (quote_bytes [47] (c :: b)) with (quote_byte [47] c ++ quote_bytes [47] b). cbn [flat_map].
  assert (Hb : bytes_text b) by (intros x Hx; apply H; right; auto). specialize (IH Hb).
  assert (Hc : c < 256) by (apply H; left; auto).
  unfold quote_byte. destruct (quote_safe [47] c) eqn:Q.
  - apply quote_safe_spec in Q. unfold unreserved in Q. cbn [In] in Q.
    assert (shown_char c = [c]) as ->.
    { unfold shown_char. destruct (N.eqb_spec c 37), (N.eqb_spec c 59), (N.eqb_spec c 63); auto; lia. }
    apply un_char; auto. lia.
  - assert (NQ : c <> 47) by (intros ->; discriminate).
    unfold shown_char. destruct (N.eqb_spec c 37) as [->|N1]; [|destruct (N.eqb_spec c 59) as [->|N2]; [|destruct (N.eqb_spec c 63) as [->|N3]]].
    + apply (un_kept _ (pct 37) 37); auto; [apply escape_pct; lia|apply path_unsafe_in; auto].
    + apply (un_kept _ (pct 59) 59); auto; [apply escape_pct; lia|apply path_unsafe_in; auto].
    + apply (un_kept _ (pct 63) 63); auto; [apply escape_pct; lia|apply path_unsafe_in; auto].
    + apply un_escape; auto; [apply escape_pct; auto|]. rewrite path_unsafe_in. lia.
Qed.
Lemma shown_utf8_char c : scalar c = true -> flat_map shown_char (utf8_char c) = flat_map utf8_char (shown_char c).
Proof.
  intros H. destruct (utf8_char_cases c H) as [[L E]|L].
  - rewrite E. cbn [flat_map]. rewrite app_nil_r. unfold shown_char.
    destruct (N.eqb_spec c 37), (N.eqb_spec c 59), (N.eqb_spec c 63); auto. cbn [flat_map]. rewrite E. auto.
  - assert (P : forall x, 128 <= x -> shown_char x = [x]).
    { intros x Hx. unfold shown_char. destruct (N.eqb_spec x 37), (N.eqb_spec x 59), (N.eqb_spec x 63); auto; lia. }
    assert (128 <= c) as Hc.
    { destruct (N.lt_ge_cases c 128) as [Lc|Lc]; auto. apply L. unfold utf8_char. replace (c <? 128) with true by lia. left; auto. }
    rewrite (P c Hc). cbn [flat_map]. rewrite app_nil_r. induction (utf8_char c) as [|x l IH]; auto.
    cbn [flat_map]. rewrite P by (apply L; left; auto). cbn [app]. f_equal. apply IH. intros y Hy. apply L. right; auto.
Qed.
Lemma shown_text T b : utf8_encode T = Ok b -> utf8_encode (shown_path T) = Ok (flat_map shown_char b).
Proof.
  unfold utf8_encode, shown_path. destruct (forallb scalar T) eqn:S; [|discriminate]. intros E. inv E.
  induction T as [|c T IH]; auto. cbn [forallb flat_map] in *. apply andb_true_iff in S as [Sc S]. specialize (IH S).
  rewrite forallb_app. destruct (forallb scalar (flat_map shown_char T)); [|discriminate]. injection IH as IH.
  assert (forallb scalar (shown_char c) = true) as ->.
  { unfold shown_char. destruct (c =? 37), (c =? 59), (c =? 63); auto. cbn [forallb]. rewrite Sc. auto. }
  cbn [andb]. rewrite !flat_map_app, shown_utf8_char, IH; auto.
Qed.
Lemma ascii_utf8 s : ascii_text s -> utf8_encode s = Ok s.
Proof. intros H. apply utf8_ascii. apply forallb_forall. intros c Hc. apply N.ltb_lt. auto. Qed.
Lemma quoted_ascii safe b : bytes_text b -> ascii_text (quote_bytes safe b).
Proof.
  intros H c Hc. apply quote_bytes_chars in Hc; auto. destruct Hc as [[_ Hq]|Hc]; [|lia].
  apply quote_safe_spec in Hq. unfold unreserved in Hq. lia.
Qed.
Lemma unquote_path T b err : utf8_encode T = Ok b -> safe_unquote err path_unsafe (quote_bytes (lit "/") b) = Ok (shown_path T).
Proof.
  intros E. pose proof (utf8_encode_bytes _ _ E) as Hb. apply is_bytes_text in Hb.
  unfold safe_unquote. rewrite ascii_utf8 by (apply quoted_ascii; auto). cbn [bind].
  rewrite (unescapes_fun _ _ _ (safe_unquote_spec path_unsafe (quote_bytes (lit "/") b)) _ (shown_bytes b Hb)).
  eapply utf8_roundtrip. apply shown_text. auto.
Qed.
Lemma shown_partly b : partly_escaped b (flat_map shown_char b).
Proof.
  induction b as [|c b IH]; [constructor|]. cbn [flat_map]. unfold shown_char.
  destruct (N.eqb_spec c 37) as [->|N1]; [|destruct (N.eqb_spec c 59) as [->|N2]; [|destruct (N.eqb_spec c 63) as [->|N3]]].
  - apply (pe_escape (pct 37)); auto; [apply escape_pct|]; lia.
  - apply (pe_escape (pct 59)); auto; [apply escape_pct|]; lia.
  - apply (pe_escape (pct 63)); auto; [apply escape_pct|]; lia.
  - apply pe_same; auto.
Qed.

(** ** Queries *)
Lemma all_escapes_quote safe s : In 37 safe -> bytes_text s -> all_escapes s -> all_escapes (quote_bytes safe s).
Proof.
  intros Hs. intros Hb H. revert Hb. induction H as [|c s Hc H IH|e v s He H IH]; intros Hb; [constructor| |].
  - change (quote_bytes safe (c :: s)) with (quote_byte safe c ++ quote_bytes safe s).
    assert (all_escapes (quote_bytes safe s)) by (apply IH; intros x Hx; apply Hb; right; auto).
    unfold quote_byte. destruct (quote_safe safe c); [apply ae_char; auto|]. eapply ae_escape; eauto. apply escape_pct. apply Hb. left; auto.
  - inversion He as [x y p q Hx Hy]; subst. cbn [app].
    rewrite quote_cons_safe by (apply quote_safe_spec; right; split; [auto|lia]).
    rewrite quote_cons_safe by (eapply hexdigit_quote; eauto). rewrite quote_cons_safe by (eapply hexdigit_quote; eauto).
    apply (ae_escape [37; x; y] _ _ He). apply IH. intros z Hz. apply Hb. right; right; right; auto.
Qed.
Lemma un_nil_inv keep t : unescapes keep [] t -> t = [].
Proof.
  intros U. inversion U as [E|c s' t' Hc U' E|e' v' s' t' He' Hk U' E|e' v' s' t' He' Hk U' E|s' t' N U' E]; subst; auto;
    inversion He'; subst; discriminate.
Qed.
Lemma un_char_inv keep c s t : c <> 37 -> unescapes keep (c :: s) t -> exists t', t = c :: t' /\ unescapes keep s t'.
Proof.
  intros Hn U. inversion U as [E|c' s' t' Hc U' E|e' v' s' t' He' Hk U' E|e' v' s' t' He' Hk U' E|s' t' N U' E]; subst; eauto; try congruence;
    inversion He'; subst; cbn in E; congruence.
Qed.
Lemma unescape_partly (keep : N -> Prop) s t b : (forall v, keep v -> v < 128) -> keep 37 -> all_escapes s -> unescapes keep s t -> percent_decodes s b ->
  partly_escaped b t.
Proof.
  intros K K37 A. revert t b. induction A as [|c s Hc A IH|e v s He A IH]; intros t b U D.
  - apply un_nil_inv in U, D. subst. constructor.
  - apply un_char_inv in U as (t' & -> & U); auto. apply un_char_inv in D as (b' & -> & D); auto. apply pe_same; auto.
  - assert (Z : forall s', (e ++ s = 37 :: s' -> ~ starts_with_escape (37 :: s') -> False)).
    { intros s' E N. apply N. rewrite <- E. exists e, v, s. auto. }
    assert (D' : exists b', b = v :: b' /\ percent_decodes s b').
    { inversion D as [E|c s' t' Hc D' E|e' v' s' t' He' Hk D' E|e' v' s' t' He' Hk D' E|s' t' N D' E]; subst.
      - destruct e; [inv He|discriminate].
      - inversion He; subst. cbn in E. inv E. congruence.
      - destruct (escape_prefix _ _ _ _ _ _ He He' (eq_sym E)) as [-> ->]. rewrite (escape_fun _ _ _ He He'). eauto.
      - destruct Hk.
      - exfalso. eapply Z; eauto. }
    destruct D' as (b' & -> & D').
    inversion U as [E|c s' t' Hc U' E|e' v' s' t' He' Hk U' E|e' v' s' t' He' Hk U' E|s' t' N U' E]; subst.
    + destruct e; [inv He|discriminate].
    + inversion He; subst. cbn in E. inv E. congruence.
    + destruct (escape_prefix _ _ _ _ _ _ He He' (eq_sym E)) as [-> ->]. rewrite (escape_fun _ _ _ He He').
      apply pe_same; auto. intros ->. auto.
    + destruct (escape_prefix _ _ _ _ _ _ He He' (eq_sym E)) as [-> ->]. rewrite (escape_fun _ _ _ He He').
      apply pe_escape; auto.
    + exfalso. eapply Z; eauto.
Qed.
Lemma query_unsafe_in v : In v query_unsafe -> v < 128.
Proof. change query_unsafe with [37; 59; 47; 63; 58; 64; 38; 61; 43; 44; 36; 35]. cbn [In]. lia. Qed.
Lemma unquote_query err q b T : ascii_text q -> all_escapes q -> percent_decodes q b -> utf8_encode T = Ok b ->
  exists q', safe_unquote err query_unsafe q = Ok q' /\ stands_for q' b /\
    (forall c, In c q' -> In c T \/ 37 <= c < 128).
Proof.
  intros Ha He Hd HT. unfold safe_unquote. rewrite ascii_utf8 by auto. cbn [bind].
  pose proof (safe_unquote_spec query_unsafe q) as U.
  assert (P : partly_escaped b (safe_unquote_bytes query_unsafe q)).
  { eapply unescape_partly; eauto; [apply query_unsafe_in|left; auto]. }
  destruct (partly_utf8 _ _ _ HT P) as (q' & Q & C). exists q'. split; [eapply utf8_roundtrip; eauto|]. split.
  - eexists. split; [exact Q|]. apply partly_decodes; auto.
  - intros c Hc. destruct (C c Hc); [auto|right; lia].
Qed.

(** a kept escape stays, so a query without a raw # gets none *)
Lemma unescapes_kept_char (keep : N -> Prop) s t c : unescapes keep s t -> keep c -> c <> 37 -> In c t -> In c s.
Proof.
  intros U K Hc. induction U as [|x s t Hx U IH|e v s t He Hk U IH|e v s t He Hk U IH|s t N U IH]; cbn [In]; auto.
  - intros [->|H]; auto.
  - intros [->|H]; [contradiction|]. apply in_or_app. auto.
  - intros H. apply in_app_iff in H as [H|H]; apply in_or_app; auto.
  - intros [H|H]; auto.
Qed.

(** ** Hosts *)
Section host.
  Variables (idna_decode_part : str -> res str) (ip_ok nfkc_ok : str -> bool).
  Lemma name_plain name c : (forall c, In c name -> name_char c) -> In c name ->
    32 < c < 128 /\ ~ In c [58; 64; 91; 93; 47; 63; 35; 37].
  Proof. intros H Hc. apply H in Hc. unfold name_char in Hc. cbn [In]. lia. Qed.
  Lemma lower_name name : (forall c, In c name -> name_char c) -> lower name = name.
  Proof.
    intros H. unfold lower. rewrite <- (map_id name) at 2. apply map_ext_in. intros c Hc. apply H in Hc. unfold name_char in Hc.
    unfold lower_c, is_ascii_upper, between. destruct ((65 <=? c) && (c <=? 90)) eqn:E; [lia|].
    destruct ((192 <=? c) && (c <=? 222) && negb (c =? 215)) eqn:E2; lia.
  Qed.
  Lemma host_parts name host : plain_host name host ->
    exists p, hostname host = name /\ port host = Ok p /\ make_netloc name p None = host /\ userinfo host = None /\
      (forall c, In c host -> 32 < c < 128 /\ ~ In c [64; 91; 93; 47; 63; 35]) /\ name <> [] /\ host <> [].
  Proof.
    intros H.
    assert (exists tail p, host = name ++ tail /\ (tail = [] /\ p = 0 \/ tail = 58 :: dec p /\ 0 < p <= 65535) /\
              name <> [] /\ (forall c, In c name -> name_char c)) as (tail & p & -> & Ht & Hn & Hc).
    { inv H; [exists [], 0; rewrite app_nil_r; auto|exists (58 :: dec p), p; auto 6]. }
    assert (Hd : forall c, In c tail -> 47 < c < 59).
    { intros c Hi. destruct Ht as [[-> _]|[-> Hp]]; [destruct Hi|]. destruct Hi as [<-|Hi]; [lia|]. apply digits_in in Hi. lia. }
    assert (Hall : forall c, In c (name ++ tail) -> 32 < c < 128 /\ ~ In c [64; 91; 93; 47; 63; 35]).
    { intros c Hi. apply in_app_iff in Hi as [Hi|Hi].
      - apply (name_plain name) in Hi; auto. cbn [In] in *. lia.
      - apply Hd in Hi. cbn [In]. lia. }
    assert (R : rsplit1 64 (name ++ tail) = None) by (apply rsplit1_none; intros X; apply Hall in X; cbn [In] in X; tauto).
    assert (S : split1 91 (name ++ tail) = None) by (apply split1_none; intros X; apply Hall in X; cbn [In] in X; tauto).
    assert (I : hostinfo (name ++ tail) = (name, if p =? 0 then [] else dec p)).
    { unfold hostinfo. rewrite R, S. assert (~ In 58 name) as N58 by (intros X; apply (name_plain name) in X; auto; cbn [In] in X; tauto).
      destruct Ht as [[-> ->]|[-> Hp]].
      - rewrite app_nil_r. cbn [N.eqb]. apply partition_none; auto.
      - rewrite partition_app by auto. destruct (N.eqb_spec p 0); [lia|]. auto. }
    exists p. split; [|split; [|split; [|split; [|split; [|split]]]]]; auto.
    - unfold hostname. rewrite I. cbn [fst]. replace (split1 37 name) with (@None (str * str)).
      + apply lower_name; auto.
      + symmetry. apply split1_none. intros X. apply (name_plain name) in X; auto. cbn [In] in X. tauto.
    - unfold port. rewrite I. cbn [snd]. destruct Ht as [[_ ->]|[_ Hp]]; [reflexivity|].
      destruct (N.eqb_spec p 0); [lia|]. destruct (dec p) as [|c0 d0] eqn:E; [destruct (dec_nonnil p); auto|]. cbn [is_nil]. rewrite <- E.
      rewrite dec_digits, dec_val. destruct (N.leb_spec p 65535); [auto|lia].
    - unfold make_netloc. replace (mem 58 name) with false.
      + destruct Ht as [[-> ->]|[-> Hp]]; [rewrite app_nil_r; reflexivity|]. destruct (N.eqb_spec p 0); [lia|]. auto.
      + symmetry. apply mem_not_In. intros X. apply (name_plain name) in X; auto. cbn [In] in X. tauto.
    - unfold userinfo. rewrite R. auto.
    - destruct name; [congruence|discriminate].
  Qed.
  Lemma decode_plain name : (forall c, In c name -> name_char c) -> (forall p, In p (split_on 46 name) -> idna_decode_part p = Ok p) ->
    decode_idna idna_decode_part name = name.
  Proof.
    intros Hc H. unfold decode_idna. destruct (is_ascii name); auto. rewrite <- (join_split 46 name) at 2. f_equal.
    rewrite <- (map_id (split_on 46 name)) at 2. apply map_ext_in. intros p Hp. rewrite H; auto.
  Qed.
  Lemma web_scheme scheme : scheme = lit "http" \/ scheme = lit "https" -> good_scheme scheme /\ scheme <> [].
  Proof. intros [->| ->]; (split; [|discriminate]); (split; [reflexivity|split; reflexivity]). Qed.
  (* a composed address *)
  Definition address (scheme host path query : str) : str :=
    scheme ++ lit "://" ++ host ++ path ++ match query with [] => [] | _ => 63 :: query end.
  Lemma unsplit_address scheme host path query : scheme <> [] -> host <> [] ->
    urlunsplit (Split scheme host (47 :: path) query []) = address scheme host (47 :: path) query.
  Proof.
    intros Hs Hh. unfold urlunsplit, address. cbn [u_scheme u_netloc u_path u_query u_fragment].
    destruct host as [|h0 host]; [congruence|]. destruct scheme as [|s0 scheme]; [congruence|]. cbn [is_nil negb orb andb starts].
    rewrite N.eqb_refl. cbn [andb negb prefix_if is_nil]. rewrite app_nil_r. unfold prefix_if.
    change (lit "://") with [58; 47; 47]. rewrite <- !app_assoc. cbn [app]. rewrite <- app_assoc.
    destruct query; cbn [is_nil app]; auto.
  Qed.
  (* the parts of a composed address *)
  Lemma split_address scheme name host path query :
    scheme = lit "http" \/ scheme = lit "https" -> plain_host name host ->
    (forall c, In c path -> c <> 63 /\ c <> 35) -> ~ In 35 query -> one_line path -> one_line query ->
    urlsplit ip_ok nfkc_ok (address scheme host (47 :: path) query) = Ok (Split scheme host (47 :: path) query []).
  Proof.
    intros Hs Hh Hp Hq Lp Lq. destruct (host_parts _ _ Hh) as (p & _ & _ & _ & _ & Hc & _ & Hne).
    unfold urlsplit.
    assert (C : url_clean (address scheme host (47 :: path) query) = address scheme host (47 :: path) query).
    { apply clean_id.
      - intros c r E. destruct Hs as [->| ->]; cbn in E; inv E; lia.
      - intros c Hi. unfold address in Hi. unfold one_line in *. rewrite !in_app_iff in Hi. cbn [In]. destruct Hi as [Hi|[Hi|[Hi|[[Hi|Hi]|Hi]]]].
        + destruct Hs as [->| ->]; cbn in Hi; lia.
        + cbn in Hi. lia.
        + apply Hc in Hi. lia.
        + lia.
        + intros [<-|[<-|[<-|[]]]]; tauto.
        + destruct query as [|q0 q]; [destruct Hi|]. destruct Hi as [<-|Hi]; [lia|]. intros [<-|[<-|[<-|[]]]]; tauto. }
    rewrite C. clear C. unfold address. change (lit "://") with (58 :: [47; 47]). cbn [app].
    rewrite split_scheme_some by (apply web_scheme; auto). cbn [starts andb]. rewrite !N.eqb_refl. cbn [andb skipn].
    rewrite cut_app.
    - change (47 :: path ++ match query with [] => [] | _ :: _ => 63 :: query end) with ((47 :: path) ++ match query with [] => [] | _ :: _ => 63 :: query end).
      assert (P35 : ~ In 35 (47 :: path)) by (intros [X|X]; [lia|apply Hp in X; tauto]).
      assert (P63 : ~ In 63 (47 :: path)) by (intros [X|X]; [lia|apply Hp in X; tauto]).
      rewrite partition_none.
      + assert (B : bracket_ok ip_ok host && (is_ascii host || nfkc_ok host) = true).
        { unfold bracket_ok. replace (mem 91 host) with false; [replace (mem 93 host) with false; [replace (is_ascii host) with true; auto|]|].
          - symmetry. apply is_ascii_text. intros c Hi. apply Hc in Hi. lia.
          - symmetry. apply mem_not_In. intros X. apply Hc in X. cbn [In] in X. tauto.
          - symmetry. apply mem_not_In. intros X. apply Hc in X. cbn [In] in X. tauto. }
        destruct query as [|q0 q].
        * rewrite app_nil_r, partition_none by auto. rewrite B. auto.
        * rewrite partition_app by auto. rewrite B. auto.
      + rewrite in_app_iff. intros [X|X]; [auto|]. destruct query as [|q0 q]; [destruct X|]. destruct X as [X|X]; [lia|auto].
    - apply forallb_forall. intros c Hi. apply Hc in Hi. assert (mem c [47; 63; 35] = false) as ->; auto.
      apply mem_not_In. cbn [In] in *. tauto.
    - right. eexists _, _. split; [reflexivity|]. auto.
  Qed.
  Lemma iri_address scheme name host T b query q' :
    scheme = lit "http" \/ scheme = lit "https" -> plain_host name host -> (forall p, In p (split_on 46 name) -> idna_decode_part p = Ok p) ->
    utf8_encode (47 :: T) = Ok b -> (forall c, In c query -> 32 < c < 128 /\ c <> 35) ->
    safe_unquote Replace query_unsafe query = Ok q' ->
    uri_to_iri idna_decode_part ip_ok nfkc_ok Replace (address scheme host (quote_bytes (lit "/") b) query) =
      Ok (address scheme host (shown_path (47 :: T)) q').
  Proof.
    intros Hs Hh Hi HT Hq Hq'.
    destruct (host_parts _ _ Hh) as (p & P1 & P2 & P3 & P4 & Hc & Hn & Hne).
    pose proof (utf8_encode_bytes _ _ HT) as Hb. apply is_bytes_text in Hb.
    assert (exists b0, b = 47 :: b0) as [b0 ->].
    { unfold utf8_encode in HT. destruct (forallb scalar (47 :: T)); [|discriminate]. inv HT. eexists. reflexivity. }
    pose proof (unquote_path _ _ Replace HT) as U.
    change (quote_bytes (lit "/") (47 :: b0)) with (47 :: quote_bytes (lit "/") b0) in *.
    assert (B0 : bytes_text b0) by (intros x Hx; apply Hb; right; auto).
    assert (Hp : forall c, In c (quote_bytes (lit "/") b0) -> 32 < c < 128 /\ c <> 63 /\ c <> 35).
    { intros c X. apply quote_bytes_chars in X; auto. rewrite quote_safe_spec in X. unfold unreserved in X.
      change (lit "/") with [47] in X. cbn [In] in X. lia. }
    unfold uri_to_iri. rewrite (split_address scheme name).
    - cbn [bind u_netloc u_path u_query u_fragment u_scheme]. rewrite P1, P2. cbn [bind]. unfold convert_auth. rewrite P4. cbn [bind].
      rewrite U. cbn [bind]. rewrite Hq'. cbn [bind].
      change (safe_unquote Replace query_unsafe []) with (@Ok str []). cbn [bind].
      destruct name as [|n0 name]; [congruence|]. cbn [is_nil]. rewrite decode_plain; auto.
      + rewrite P3. f_equal. change (shown_path (47 :: T)) with (47 :: shown_path T). apply unsplit_address; auto.
        destruct Hs as [->| ->]; discriminate.
      + inv Hh; auto.
    - auto.
    - auto.
    - intros c X. apply Hp in X. tauto.
    - intros X. apply Hq in X. tauto.
    - split; [|split]; intros X; apply Hp in X; lia.
    - split; [|split]; intros X; apply Hq in X; lia.
  Qed.
End host.

(** ** get_current_url *)
Lemma utf8_split a b w : utf8_encode (a ++ b) = Ok w -> exists x y, utf8_encode a = Ok x /\ utf8_encode b = Ok y /\ w = x ++ y.
Proof.
  unfold utf8_encode. rewrite forallb_app. destruct (forallb scalar a), (forallb scalar b); cbn [andb]; try discriminate.
  intros H. inv H. eexists _, _. split; [reflexivity|]. split; [reflexivity|]. apply flat_map_app.
Qed.
Lemma utf8_join a b x y : utf8_encode a = Ok x -> utf8_encode b = Ok y -> utf8_encode (a ++ b) = Ok (x ++ y).
Proof.
  unfold utf8_encode. rewrite forallb_app. destruct (forallb scalar a), (forallb scalar b); try discriminate. cbn [andb].
  intros H1 H2. inv H1. inv H2. rewrite flat_map_app. auto.
Qed.
Lemma utf8_slashes n : utf8_encode (repeat 47 n) = Ok (repeat 47 n).
Proof. apply ascii_utf8. intros c Hc. apply repeat_spec in Hc. lia. Qed.
Lemma quote_app safe a b : quote_bytes safe (a ++ b) = quote_bytes safe a ++ quote_bytes safe b.
Proof. unfold quote_bytes. apply flat_map_app. Qed.
Lemma quote_slashes n : quote_bytes (lit "/") (repeat 47 n) = repeat 47 n.
Proof. induction n; auto. cbn [repeat]. change (quote_bytes (lit "/") (47 :: repeat 47 n)) with (47 :: quote_bytes (lit "/") (repeat 47 n)). rewrite IHn. auto. Qed.
Lemma utf8_no_final s b : utf8_encode s = Ok b -> no_final_slash s -> no_final_slash b.
Proof.
  intros E H r ->. destruct s as [|c s] using rev_ind; [inv E; destruct r; discriminate|].
  apply utf8_split in E as (x & y & _ & E & Eq). unfold utf8_encode in E. destruct (forallb scalar [c]) eqn:S; [|discriminate].
  injection E as E. cbn [flat_map] in E. rewrite app_nil_r in E. cbn [forallb] in S. rewrite andb_true_r in S.
  assert (In 47 (utf8_char c)) as I.
  { rewrite E. destruct y as [|z y _] using rev_ind; [|rewrite app_assoc in Eq; apply app_inj_tail in Eq as [_ <-]; apply in_or_app; right; left; auto].
    exfalso. unfold utf8_char in E. destruct (c <? 128); [discriminate|]. destruct (c <? 2048); [discriminate|]. destruct (c <? 65536); discriminate. }
  destruct (utf8_char_high c 47 S I) as [<- _]; [lia|]. eapply H; eauto.
Qed.
Lemma utf8_no_first s b : utf8_encode s = Ok b -> no_first_slash s -> no_first_slash b.
Proof.
  intros E H r ->. destruct s as [|c s]; [inv E|].
  change (c :: s) with ([c] ++ s) in E.
  apply utf8_split in E as (x & y & E & _ & Eq). unfold utf8_encode in E. destruct (forallb scalar [c]) eqn:S; [|discriminate].
  injection E as E. cbn [flat_map] in E. rewrite app_nil_r in E. cbn [forallb] in S. rewrite andb_true_r in S.
  assert (In 47 (utf8_char c)) as I.
  { rewrite E. destruct x as [|z x]; [|inv Eq; left; auto].
    exfalso. unfold utf8_char in E. destruct (c <? 128); [discriminate|]. destruct (c <? 2048); [discriminate|]. destruct (c <? 65536); discriminate. }
  destruct (utf8_char_high c 47 S I) as [<- _]; [lia|]. eapply H; eauto.
Qed.
Lemma quote_no_final b : bytes_text b -> no_final_slash b -> no_final_slash (quote_bytes (lit "/") b).
Proof.
  intros Hb H r E. destruct b as [|c b _] using rev_ind; [destruct r; discriminate|].
  rewrite quote_app in E. unfold quote_bytes in E at 2. cbn [flat_map] in E. rewrite app_nil_r in E. unfold quote_byte in E.
  destruct (quote_safe _ c) eqn:Q.
  - apply app_inj_tail in E as [_ ->]. eapply H; eauto.
  - assert (c < 256) as L by (apply Hb; apply in_or_app; right; left; auto).
    unfold pct in E. change (?x ++ [37; ?y; ?z]) with (x ++ [37; y] ++ [z]) in E. rewrite app_assoc in E. apply app_inj_tail in E as [_ E].
    pose proof (hex_upper_range (c mod 16)) as R. assert (c mod 16 < 16) by (apply N.mod_lt; lia). lia.
Qed.

Section current.
  Variables (idna_part idna_decode_part : str -> res str) (ip_ok nfkc_ok : str -> bool).
  Notation current := (get_current_url idna_part idna_decode_part ip_ok nfkc_ok).

  Notation ordinary := (ordinary idna_part idna_decode_part).
  Lemma wsgi_bytes_ok s w : utf8_encode s = Ok w -> wsgi_get_bytes w = Ok w.
  Proof.
    intros E. apply utf8_encode_bytes in E. unfold wsgi_get_bytes, latin1_encode. unfold is_bytes in E. rewrite E. auto.
  Qed.
  Lemma current_parts environ trusted scheme host script path root strip qs q' :
    ordinary environ trusted scheme host script path ->
    (if root || strip then qs = [] else get_query_string environ = Ok qs) ->
    safe_unquote Replace query_unsafe qs = Ok q' -> (forall c, In c qs -> 32 < c < 128 /\ c <> 35) ->
    current environ root strip false trusted =
      Ok (address scheme host (shown_path (script ++ [47] ++ if root then [] else path)) q').
  Proof.
    intros [O1 O2 O3 (name & O4 & O4') (n & w & S1 & S2 & S3 & S4) (m & v & P1 & P2 & P3)] Hq Hq' Hc.
    unfold wsgi_encoding_dance in *.
    destruct (utf8_split _ _ _ S2) as (bs & z & S5 & S6 & ->). rewrite utf8_slashes in S6. inv S6.
    destruct (utf8_split _ _ _ P2) as (z & bp & P6 & P5 & ->). rewrite utf8_slashes in P6. inv P6.
    assert (Bs : bytes_text bs) by (apply is_bytes_text; eapply utf8_encode_bytes; eauto).
    assert (Hs : rstrip_by (N.eqb 47) (quote_bytes (lit "/") (bs ++ repeat 47 n)) = quote_bytes (lit "/") bs).
    { rewrite quote_app, quote_slashes. apply rstrip_slashes. apply quote_no_final; auto. eapply utf8_no_final; eauto. }
    assert (Hp : lstrip_by (N.eqb 47) (repeat 47 m ++ bp) = bp) by (apply lstrip_slashes; eapply utf8_no_first; eauto).
    assert (U : forall t bt, utf8_encode t = Ok bt -> exists T, script ++ [47] ++ t = 47 :: T /\
                 utf8_encode (47 :: T) = Ok (bs ++ [47] ++ bt)).
    { intros t bt Et. assert (X : utf8_encode (script ++ [47] ++ t) = Ok (bs ++ [47] ++ bt)).
      { apply utf8_join; auto. apply (utf8_join [47] t [47] bt); auto. }
      destruct S4 as [->|[r ->]]; cbn [app] in *; eexists; (split; [reflexivity|exact X]). }
    unfold get_current_url. rewrite O1, O3. cbn [bind]. unfold env_or. rewrite S1, P1, (wsgi_bytes_ok _ _ S2). cbn [bind].
    rewrite Hs. rewrite (wsgi_bytes_ok _ _ P2). cbn [bind]. rewrite Hp.
    assert (A : forall t bt, utf8_encode t = Ok bt ->
              uri_to_iri idna_decode_part ip_ok nfkc_ok Replace
                ((scheme ++ lit "://" ++ host) ++ quote_bytes (lit "/") bs ++ [47] ++ quote_bytes (lit "/") bt ++ match qs with [] => [] | _ :: _ => 63 :: qs end) =
              Ok (address scheme host (shown_path (script ++ [47] ++ t)) q')).
    { intros t bt Et. destruct (U _ _ Et) as (T & ET & EU). rewrite ET.
      rewrite <- (iri_address idna_decode_part ip_ok nfkc_ok scheme name host T _ qs q' O2 O4 O4' EU Hc Hq').
      f_equal. unfold address. rewrite !quote_app. rewrite <- !app_assoc. reflexivity. }
    destruct root.
    - cbn [bind]. cbn [orb] in Hq. subst qs. rewrite <- (A [] []); auto. cbn [quote_bytes flat_map app]. rewrite <- !app_assoc. cbn [app]. rewrite ?app_nil_r. auto.
    - destruct strip; cbn [orb] in Hq.
      + subst qs. cbn [bind]. rewrite <- (A path bp); auto. rewrite app_nil_r. rewrite <- !app_assoc. auto.
      + rewrite Hq. cbn [bind]. rewrite <- (A path bp); auto. rewrite <- !app_assoc. auto.
  Qed.
  Lemma current_plain environ trusted scheme host script path root :
    ordinary environ trusted scheme host script path ->
    current environ root true false trusted =
      Ok (scheme ++ lit "://" ++ host ++ shown_path (script ++ [47] ++ if root then [] else path)).
  Proof.
    intros O. rewrite (current_parts _ _ _ _ _ _ root true [] [] O); auto.
    - unfold address. rewrite app_nil_r. auto.
    - destruct root; reflexivity.
    - intros c [].
  Qed.
  Lemma current_host environ trusted scheme host root strip :
    dget environ (lit "wsgi.url_scheme") = Some scheme -> scheme = lit "http" \/ scheme = lit "https" ->
    get_host idna_part environ trusted = Ok host ->
    (exists name, plain_host name host /\ forall p, In p (split_on 46 name) -> idna_decode_part p = Ok p) ->
    current environ root strip true trusted = Ok (scheme ++ lit "://" ++ host ++ [47]).
  Proof.
    intros O1 O2 O3 (name & O4 & O5). unfold get_current_url. rewrite O1, O3. cbn [bind].
    pose proof (iri_address idna_decode_part ip_ok nfkc_ok scheme name host [] [47] [] [] O2 O4 O5 eq_refl) as A.
    unfold address in A. rewrite !app_nil_r in A. rewrite <- app_assoc. rewrite <- app_assoc. apply A; auto. intros c [].
  Qed.
  Lemma current_query environ trusted scheme host script path w b T :
    ordinary environ trusted scheme host script path ->
    dget environ (lit "QUERY_STRING") = Some w -> bytes_text w -> all_escapes w -> percent_decodes w b -> utf8_encode T = Ok b ->
    exists q', current environ false false false trusted = Ok (address scheme host (shown_path (script ++ [47] ++ path)) q') /\
      stands_for q' b /\ ~ In 35 q' /\ (one_line T -> one_line q').
  Proof.
    intros O Q Hw Ha Hd HT. set (safe := lit ":&%=+$!*'(),").
    assert (G : get_query_string environ = Ok (quote_bytes safe w)).
    { unfold get_query_string. rewrite Q. unfold wsgi_get_bytes, latin1_encode. apply is_bytes_text in Hw. unfold is_bytes in Hw. rewrite Hw. auto. }
    assert (S37 : In 37 safe) by (vm_compute; auto).
    assert (Hch : forall c, In c (quote_bytes safe w) -> 32 < c < 128 /\ c <> 35).
    { intros c X. apply quote_bytes_chars in X; auto. rewrite quote_safe_spec in X. unfold unreserved in X.
      change safe with [58; 38; 37; 61; 43; 36; 33; 42; 39; 40; 41; 44] in X. cbn [In] in X. lia. }
    destruct (unquote_query Replace (quote_bytes safe w) b T) as (q' & U & St & Cq); auto.
    - apply quoted_ascii; auto.
    - apply all_escapes_quote; auto.
    - apply quote_keeps_meaning; auto.
    - exists q'. split; [|split; [|split]]; auto.
      + apply (current_parts _ _ _ _ _ _ false false _ _ O G U Hch).
      + intros X. unfold safe_unquote in U. rewrite ascii_utf8 in U by (apply quoted_ascii; auto). cbn [bind] in U.
        destruct St as (e & E1 & _). assert (Ee : e = safe_unquote_bytes query_unsafe (quote_bytes safe w)).
        { assert (P : partly_escaped b (safe_unquote_bytes query_unsafe (quote_bytes safe w))).
          { eapply unescape_partly; [apply query_unsafe_in|left; reflexivity| |apply safe_unquote_spec|].
            - apply all_escapes_quote; auto.
            - apply quote_keeps_meaning; auto. }
          destruct (partly_utf8 _ _ _ HT P) as (q2 & E2 & _). rewrite (utf8_roundtrip Replace _ _ E2) in U. inv U. congruence. }
        apply (utf8_in_ascii _ _ 35 E1) in X; [|lia]. rewrite Ee in X.
        apply (unescapes_kept_char _ _ _ 35 (safe_unquote_spec query_unsafe (quote_bytes safe w))) in X; [|vm_compute; auto 20|lia].
        apply Hch in X. lia.
      + intros (L1 & L2 & L3). split; [|split]; intros X; apply Cq in X as [X|X]; auto; lia.
  Qed.
  Lemma shown_in c p : In c (shown_path p) -> In c p \/ In c (lit "%253BF").
  Proof.
    unfold shown_path. intros H. apply in_flat_map in H as (x & Hx & H). unfold shown_char in H.
    destruct (x =? 37); [right; cbn in *; intuition|].
    destruct (x =? 59); [right; cbn in *; intuition|]. destruct (x =? 63); [right; cbn in *; intuition|].
    destruct H as [<-|[]]. auto.
  Qed.
  Lemma shown_no_question p : ~ In 63 (shown_path p).
  Proof.
    unfold shown_path. intros H. apply in_flat_map in H as (x & Hx & H). unfold shown_char in H.
    destruct (N.eqb_spec x 37); [cbn in H; lia|]. destruct (N.eqb_spec x 59); [cbn in H; lia|]. destruct (N.eqb_spec x 63); [cbn in H; lia|].
    destruct H as [H|[]]. congruence.
  Qed.
  Lemma current_back environ trusted scheme host script path w b T :
    ordinary environ trusted scheme host script path ->
    ~ In 35 script -> ~ In 35 path -> one_line script -> one_line path -> one_line T ->
    dget environ (lit "QUERY_STRING") = Some w -> bytes_text w -> all_escapes w -> percent_decodes w b -> utf8_encode T = Ok b ->
    exists url p q bp, current environ false false false trusted = Ok url /\
      urlsplit ip_ok nfkc_ok url = Ok (Split scheme host p q []) /\
      utf8_encode (script ++ [47] ++ path) = Ok bp /\ stands_for p bp /\ stands_for q b.
  Proof.
    intros O H1 H2 L1 L2 L3 Q Hw Ha Hd HT. pose proof O as [O1 O2 O3 (name & O4 & O5) (n & ws & S1 & S2 & S3 & S4) (m & v & P1 & P2 & P3)].
    destruct (current_query _ _ _ _ _ _ _ _ _ O Q Hw Ha Hd HT) as (q' & C & St & N35 & Lq).
    unfold wsgi_encoding_dance in *.
    destruct (utf8_split _ _ _ S2) as (bs & z & S5 & S6 & ->). destruct (utf8_split _ _ _ P2) as (z2 & bp & P6 & P5 & ->).
    assert (X : utf8_encode (script ++ [47] ++ path) = Ok (bs ++ [47] ++ bp)).
    { apply utf8_join; auto. apply (utf8_join [47] path [47] bp); auto. }
    assert (exists T', script ++ [47] ++ path = 47 :: T') as [T' ET] by (destruct S4 as [->|[r ->]]; cbn [app]; eauto).
    assert (I : forall c, In c T' -> In c (script ++ [47] ++ path)) by (intros c Hc; rewrite ET; right; auto).
    assert (Nin : forall c, c <> 47 -> ~ In c script -> ~ In c path -> ~ In c (lit "%253BF") -> ~ In c (shown_path T')).
    { intros c N1 N2 N3 N4 Hc. apply shown_in in Hc as [Hc|Hc]; auto. apply I in Hc. rewrite !in_app_iff in Hc. cbn [In] in Hc. intuition congruence. }
    exists (address scheme host (shown_path (script ++ [47] ++ path)) q'), (shown_path (script ++ [47] ++ path)), q', (bs ++ [47] ++ bp).
    split; auto. split; [|split; [auto|split; [|auto]]].
    - rewrite ET. change (shown_path (47 :: T')) with (47 :: shown_path T'). eapply split_address; eauto.
      + intros c Hc. split; intros ->; [apply (shown_no_question T'); auto|]. revert Hc. apply Nin; auto; cbn; lia.
      + destruct L1 as (A1 & A2 & A3), L2 as (B1 & B2 & B3). split; [|split]; apply Nin; auto; cbn; lia.
    - exists (flat_map shown_char (bs ++ [47] ++ bp)). split; [apply shown_text; auto|]. apply partly_decodes. apply shown_partly.
  Qed.
End current.
