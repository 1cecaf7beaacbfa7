(** Proofs about quoting, unquoting and transcoding. *)
From Coq Require Import Arith List NArith ZArith Bool Lia ZifyBool ZifyN ZifyNat.
From Verif Require Import PyStr PyStrFacts Utf8 Utf8Facts ModelUrls SpecUrls.
Import ListNotations.
Open Scope N_scope.

(** ** Hexadecimal digits *)
Lemma hexval_spec c v : hexval c = Some v <-> hexdigit c v.
Proof.
  unfold hexval, is_ascii_digit, between. split.
  - destruct ((48 <=? c) && (c <=? 57)) eqn:E1.
    { intros H; inv H. replace c with (48 + (c - 48)) at 1 by lia. constructor. lia. }
    destruct ((65 <=? c) && (c <=? 70)) eqn:E2.
    { intros H; inv H. replace c with (55 + (c - 55)) at 1 by lia. apply hd_up. lia. }
    destruct ((97 <=? c) && (c <=? 102)) eqn:E3; [|discriminate].
    intros H; inv H. replace c with (87 + (c - 87)) at 1 by lia. apply hd_low. lia.
  - intros H; inv H.
    + replace ((48 <=? 48 + v) && (48 + v <=? 57)) with true by lia. f_equal. lia.
    + replace ((48 <=? 55 + v) && (55 + v <=? 57)) with false by lia.
      replace ((65 <=? 55 + v) && (55 + v <=? 70)) with true by lia. f_equal. lia.
    + replace ((48 <=? 87 + v) && (87 + v <=? 57)) with false by lia.
      replace ((65 <=? 87 + v) && (87 + v <=? 70)) with false by lia.
      replace ((97 <=? 87 + v) && (87 + v <=? 102)) with true by lia. f_equal. lia.
Qed.
Lemma hexdigit_fun c v w : hexdigit c v -> hexdigit c w -> v = w.
Proof. rewrite <- !hexval_spec. congruence. Qed.
Lemma hex_upper_digit d : d < 16 -> hexdigit (hex_upper d) d.
Proof. intros H. unfold hex_upper. destruct (d <? 10) eqn:E; [apply hd_dec|apply hd_up]; lia. Qed.
Lemma hex_upper_range d : d < 16 -> 48 <= hex_upper d <= 57 \/ 65 <= hex_upper d <= 70.
Proof. intros H. unfold hex_upper. destruct (d <? 10) eqn:E; lia. Qed.
Lemma hextobyte_spec a b v : hextobyte a b = Some v <-> escape [37; a; b] v.
Proof.
  unfold hextobyte. split.
  - destruct (hexval a) as [x|] eqn:Ea; [|discriminate]. destruct (hexval b) as [y|] eqn:Eb; [|discriminate].
    intros H; inv H. constructor; apply hexval_spec; auto.
  - intros H; inversion H as [a' b' x y Hx Hy]; subst. apply hexval_spec in Hx. apply hexval_spec in Hy.
    rewrite Hx, Hy. auto.
Qed.
Lemma escape_pct c : c < 256 -> escape (pct c) c.
Proof.
  intros H. unfold pct. replace c with (16 * (c / 16) + c mod 16) at 3 by nsolve.
  constructor; apply hex_upper_digit; nsolve.
Qed.

(** ** C30: the unquoting relation *)
Lemma escape_shape e v : escape e v -> exists a b, e = [37; a; b] /\ hextobyte a b = Some v.
Proof. intros H. destruct H as [a b x y Ha Hb]. exists a, b. split; auto. apply hextobyte_spec. constructor; auto. Qed.
Lemma escape_fun e v w : escape e v -> escape e w -> v = w.
Proof.
  intros H1 H2. apply escape_shape in H1 as (a & b & -> & H1). apply hextobyte_spec in H2. congruence.
Qed.
Lemma escape_prefix e e' r r' v v' : escape e v -> escape e' v' -> e ++ r = e' ++ r' -> e = e' /\ r = r'.
Proof.
  intros H1 H2 E. apply escape_shape in H1 as (a & b & -> & _). apply escape_shape in H2 as (c & d & -> & _).
  cbn [app] in E. inv E. auto.
Qed.

Lemma unescapes_inv keep s t : unescapes keep s t ->
  match s with
  | [] => t = []
  | c :: s1 =>
      (c <> 37 /\ exists t1, t = c :: t1 /\ unescapes keep s1 t1) \/
      (exists e v r t1, s = e ++ r /\ escape e v /\ ~ keep v /\ t = v :: t1 /\ unescapes keep r t1) \/
      (exists e v r t1, s = e ++ r /\ escape e v /\ keep v /\ t = e ++ t1 /\ unescapes keep r t1) \/
      (c = 37 /\ ~ starts_with_escape s /\ exists t1, t = 37 :: t1 /\ unescapes keep s1 t1)
  end.
Proof.
  intros H. destruct H as [|c s t Hc H|e v s t He Hk H|e v s t He Hk H|s t Hn H]; auto.
  - left. eauto.
  - pose proof (escape_shape _ _ He) as (a & b & -> & _). cbn [app]. right; left.
    exists [37; a; b], v, s, t. auto.
  - pose proof (escape_shape _ _ He) as (a & b & -> & _). cbn [app]. right; right; left.
    exists [37; a; b], v, s, t. auto.
  - right; right; right. eauto 6.
Qed.

Lemma unescapes_fun keep s t1 : unescapes keep s t1 -> forall t2, unescapes keep s t2 -> t1 = t2.
Proof.
  assert (E37 : forall e v r c s', e ++ r = c :: s' -> escape e v -> c = 37).
  { intros e v r c s' E He. apply escape_shape in He as (a & b & -> & _). inv E. auto. }
  induction 1 as [|c s t Hc H IH|e v s t He Hk H IH|e v s t He Hk H IH|s t Hn H IH]; intros t2 H2;
    apply unescapes_inv in H2.
  - auto.
  - destruct H2 as [(_ & t1 & -> & H2)|[(e & v & r & t1 & E & He & _)|[(e & v & r & t1 & E & He & _)|(-> & _)]]];
      [f_equal; auto| | |congruence]; symmetry in E; eapply E37 in E; eauto; congruence.
  - pose proof (escape_shape _ _ He) as (a & b & Ee & _). subst e. cbn [app] in H2.
    destruct H2 as [(C & _)|[(e & w & r & t1 & E & He' & Hw & -> & H2)|[(e & w & r & t1 & E & He' & Hw & -> & H2)|(_ & C & _)]]];
      [congruence| | |exfalso; apply C; exists [37; a; b], v, s; auto];
      destruct (escape_prefix [37; a; b] e s r v w He He' E) as [<- <-]; rewrite (escape_fun _ _ _ He He') in *;
      [f_equal; auto|tauto].
  - pose proof (escape_shape _ _ He) as (a & b & Ee & _). subst e. cbn [app] in H2.
    destruct H2 as [(C & _)|[(e & w & r & t1 & E & He' & Hw & -> & H2)|[(e & w & r & t1 & E & He' & Hw & -> & H2)|(_ & C & _)]]];
      [congruence| | |exfalso; apply C; exists [37; a; b], v, s; auto];
      destruct (escape_prefix [37; a; b] e s r v w He He' E) as [<- <-]; rewrite (escape_fun _ _ _ He He') in *;
      [tauto|f_equal; auto].
  - destruct H2 as [(C & _)|[(e & v & r & t1 & E & He & _)|[(e & v & r & t1 & E & He & _)|(_ & _ & t1 & -> & H2)]]];
      [congruence| | |f_equal; auto]; exfalso; apply Hn; exists e, v, r; auto.
Qed.

Lemma unescapes_plain keep a s t : ~ In 37 a -> unescapes keep s t -> unescapes keep (a ++ s) (a ++ t).
Proof.
  induction a as [|c a IH]; intros H H2; cbn [app]; auto. constructor.
  - intros ->. apply H. left; auto.
  - apply IH; auto. intros Hi. apply H. right; auto.
Qed.

Lemma unquote_item_spec unsafe item s t : ~ In 37 item -> (s = [] \/ exists r, s = 37 :: r) ->
  unescapes (fun v => In v unsafe) s t ->
  unescapes (fun v => In v unsafe) (37 :: item ++ s) (unquote_item unsafe item ++ t).
Proof.
  intros Hi Hs H. unfold unquote_item.
  assert (Bad : ~ starts_with_escape (37 :: item ++ s) ->
                unescapes (fun v => In v unsafe) (37 :: item ++ s) ((37 :: item) ++ t)).
  { intros Hn. cbn [app]. apply un_malformed; auto. apply unescapes_plain; auto. }
  assert (Hs37 : forall a r v, s = a :: r -> ~ hexdigit a v).
  { intros a r v -> Hh. destruct Hs as [Hs|[r' Hs]]; inv Hs. apply hexval_spec in Hh. discriminate. }
  assert (Esc : forall a b r, starts_with_escape (37 :: a :: b :: r) -> exists v, hextobyte a b = Some v).
  { intros a b r (e & v & r' & E & He). apply escape_shape in He as (a' & b' & -> & E'). inv E. eauto. }
  destruct item as [|a [|b r]].
  - apply Bad. intros (e & v & r' & E & He). cbn [app] in E. inversion He as [a b x y Ha Hb]; subst.
    inv E. eapply Hs37; eauto.
  - apply Bad. intros (e & v & r' & E & He). cbn [app] in E. inversion He as [a' b x y Ha Hb]; subst.
    inv E. eapply Hs37; eauto.
  - destruct (hextobyte a b) as [c|] eqn:E.
    + apply hextobyte_spec in E.
      assert (Hr : ~ In 37 r) by (intros X; apply Hi; right; right; auto).
      destruct (mem c unsafe) eqn:M.
      * apply mem_In in M.
        change (37 :: (a :: b :: r) ++ s) with ([37; a; b] ++ (r ++ s)).
        change ((37 :: a :: b :: r) ++ t) with ([37; a; b] ++ (r ++ t)).
        eapply un_kept; eauto. apply unescapes_plain; auto.
      * apply mem_not_In in M.
        change (37 :: (a :: b :: r) ++ s) with ([37; a; b] ++ (r ++ s)).
        change ((c :: r) ++ t) with (c :: (r ++ t)). eapply un_escape; eauto. apply unescapes_plain; auto.
    + apply Bad. intros X. cbn [app] in X. apply Esc in X as [v X]. congruence.
Qed.

Lemma split_concat c s a l : split_on c s = a :: l -> s = a ++ flat_map (fun p => c :: p) l.
Proof.
  intros H. rewrite <- (join_split c s), H. clear H. revert a. induction l as [|b l IH]; intros a.
  - cbn [join flat_map]. rewrite app_nil_r. auto.
  - cbn [flat_map]. change (join [c] (a :: b :: l)) with (a ++ [c] ++ join [c] (b :: l)). rewrite IH. reflexivity.
Qed.

Lemma safe_unquote_spec unsafe s :
  unescapes (fun v => In v unsafe) s (safe_unquote_bytes unsafe s).
Proof.
  unfold safe_unquote_bytes. destruct (split_on 37 s) as [|a l] eqn:E; [exfalso; eapply split_on_nonnil; eauto|].
  pose proof (split_on_parts 37 s) as P. rewrite E in P. apply split_concat in E. subst s.
  inversion P as [|? ? Pa Pl]; subst.
  apply unescapes_plain; auto. clear Pa P a.
  induction Pl as [|p l Hp Hl IH]; cbn [flat_map]; [constructor|].
  change ((37 :: p) ++ flat_map (fun p => 37 :: p) l) with (37 :: p ++ flat_map (fun p => 37 :: p) l).
  apply unquote_item_spec; auto. destruct l; cbn [flat_map]; [auto|right; eexists; reflexivity].
Qed.

(** Reserved bytes neither appear nor disappear. *)
Lemma count_cons c x s : count c (x :: s) = ((if N.eqb c x then 1 else 0) + count c s)%nat.
Proof. unfold count. cbn [filter]. destruct (c =? x); auto. Qed.
Lemma unescapes_count keep s t c : unescapes keep s t -> keep c -> (forall v, ~ hexdigit c v) -> c <> 37 ->
  count c t = count c s.
Proof.
  intros H Hk Hx H37. induction H as [|x s t Hc H IH|e v s t He Hv H IH|e v s t He Hv H IH|s t Hn H IH].
  - auto.
  - rewrite !count_cons, IH. auto.
  - inversion He as [a b x y Ha Hb]; subst. cbn [app]. rewrite !count_cons, IH.
    replace (c =? 16 * x + y) with false; [replace (c =? 37) with false by lia;
      replace (c =? a) with false; [replace (c =? b) with false; auto|]|].
    + symmetry. apply N.eqb_neq. intros ->. eapply Hx; eauto.
    + symmetry. apply N.eqb_neq. intros ->. eapply Hx; eauto.
    + symmetry. apply N.eqb_neq. intros ->. auto.
  - inversion He as [a b x y Ha Hb]; subst. cbn [app]. rewrite !count_cons, IH. auto.
  - rewrite !count_cons, IH. auto.
Qed.

(** ** C29 *)
Lemma always_safe_spec c : always_safe c = true <-> unreserved c.
Proof.
  unfold always_safe, unreserved, is_ascii_alnum, is_ascii_alpha, is_ascii_upper, is_ascii_lower,
    is_ascii_digit, between, mem. change (lit "_.-~") with [95; 46; 45; 126]. cbn [existsb]. lia.
Qed.
Lemma quote_safe_spec safe c : quote_safe safe c = true <-> unreserved c \/ (In c safe /\ c < 128).
Proof.
  unfold quote_safe. rewrite andb_true_iff, orb_true_iff, always_safe_spec, mem_In.
  unfold unreserved. split; [|intros [H|[H1 H2]]; split; auto; lia]. intros [H1 [H2|H2]]; auto. right; split; auto; lia.
Qed.

Lemma quote_roundtrip safe b : ~ In 37 safe -> bytes_text b -> percent_decodes (quote_bytes safe b) b.
Proof.
  intros Hs. unfold percent_decodes. induction b as [|c b IH]; intros Hb; [constructor|].
  assert (Hc : c < 256) by (apply Hb; left; auto).
  assert (Hr : bytes_text b) by (intros x Hx; apply Hb; right; auto).
  change (quote_bytes safe (c :: b)) with (quote_byte safe c ++ quote_bytes safe b).
  unfold quote_byte. destruct (quote_safe safe c) eqn:E.
  - cbn [app]. constructor; [|auto]. intros ->. apply quote_safe_spec in E as [E|[E _]]; [|auto].
    unfold unreserved in E. lia.
  - eapply un_escape; [apply escape_pct; auto| |]; auto.
Qed.

Lemma quote_quoted_form safe b : bytes_text b -> quoted_form safe (quote_bytes safe b).
Proof.
  induction b as [|c b IH]; intros Hb; [constructor|].
  assert (Hc : c < 256) by (apply Hb; left; auto).
  assert (Hr : bytes_text b) by (intros x Hx; apply Hb; right; auto).
  change (quote_bytes safe (c :: b)) with (quote_byte safe c ++ quote_bytes safe b).
  unfold quote_byte. destruct (quote_safe safe c) eqn:E.
  - cbn [app]. constructor; auto. apply quote_safe_spec; auto.
  - eapply qf_escape; [apply escape_pct; auto| |auto]. unfold pct. intros x Hx.
    pose proof (hex_upper_range (c / 16)). pose proof (hex_upper_range (c mod 16)).
    assert (c / 16 < 16) by nsolve. assert (c mod 16 < 16) by nsolve.
    destruct Hx as [<-|[<-|[<-|[]]]]; lia.
Qed.

Lemma is_bytes_text b : is_bytes b = true <-> bytes_text b.
Proof. unfold is_bytes, bytes_text. rewrite forallb_forall. split; intros H c Hc; specialize (H c Hc); lia. Qed.
Lemma is_ascii_text b : is_ascii b = true <-> ascii_text b.
Proof. unfold is_ascii, ascii_text. rewrite forallb_forall. split; intros H c Hc; specialize (H c Hc); lia. Qed.
Lemma scalar_text s : forallb scalar s = true <-> unicode_text s.
Proof.
  unfold unicode_text, scalar, between. rewrite forallb_forall. split; intros H c Hc; specialize (H c Hc); lia.
Qed.

Lemma urlquote_spec safe s q : urlquote safe s = Ok q ->
  exists b, utf8_encode s = Ok b /\ bytes_text b /\ q = quote_bytes safe b.
Proof.
  unfold urlquote. destruct (utf8_encode s) as [b|] eqn:E; cbn [bind]; [|discriminate]. intros H; inv H.
  exists b. split; auto. split; auto. apply is_bytes_text. eapply utf8_encode_bytes; eauto.
Qed.
Lemma urlquote_ok safe s : unicode_text s -> exists q, urlquote safe s = Ok q.
Proof. intros H. unfold urlquote, utf8_encode. apply scalar_text in H. rewrite H. cbn [bind]. eauto. Qed.

Lemma urlquote_roundtrip safe s q : ~ In 37 safe -> urlquote safe s = Ok q ->
  exists b, percent_decodes q b /\ utf8_decode Strict b = Ok s.
Proof.
  intros Hs H. apply urlquote_spec in H as (b & Hb & Ht & ->). exists b. split.
  - apply quote_roundtrip; auto.
  - eapply utf8_roundtrip; eauto.
Qed.

(** ** C32 *)
Lemma dance_roundtrip s w : wsgi_encoding_dance s = Ok w ->
  bytes_text w /\ forall err, wsgi_decoding_dance err w = Ok s.
Proof.
  unfold wsgi_encoding_dance, wsgi_decoding_dance, latin1_encode. intros H.
  pose proof (utf8_encode_bytes _ _ H) as Hb. split; [apply is_bytes_text; auto|].
  intros err. unfold is_bytes in Hb. rewrite Hb. cbn [bind]. eapply utf8_roundtrip; eauto.
Qed.
Lemma environ_text err environ s w : wsgi_encoding_dance s = Ok w ->
  (dget environ (lit "PATH_INFO") = Some w -> get_path_info err environ = Ok s) /\
  (dget environ (lit "SCRIPT_NAME") = Some w -> get_script_name err environ = Ok s).
Proof.
  intros H. apply dance_roundtrip in H as [_ H]. specialize (H err).
  unfold get_path_info, get_script_name, get_environ_text, wsgi_get_bytes. unfold wsgi_decoding_dance in H.
  split; intros ->; exact H.
Qed.
Lemma environ_no_text err environ :
  (dget environ (lit "PATH_INFO") = None -> get_path_info err environ = Ok []) /\
  (dget environ (lit "SCRIPT_NAME") = None -> get_script_name err environ = Ok []).
Proof. unfold get_path_info, get_script_name, get_environ_text. split; intros ->; destruct err; reflexivity. Qed.
Lemma encoding_dance_ok s : unicode_text s <-> exists w, wsgi_encoding_dance s = Ok w.
Proof.
  unfold wsgi_encoding_dance, utf8_encode. rewrite <- scalar_text. destruct (forallb scalar s); split; eauto.
  - discriminate.
  - intros [w H]. discriminate.
Qed.

Lemma utf8_dec_replace_total err : err <> Strict -> forall s n, exists t, utf8_dec err n s = Ok t.
Proof.
  intros He. induction s as [|c s IH]; intros n; cbn [utf8_dec]; [eauto|]. destruct n; [|apply IH].
  destruct (utf8_next c s) as [x k|k].
  - destruct (IH (k - 1)%nat) as [t ->]. cbn [bind]. eauto.
  - destruct err; [congruence| |apply IH]. destruct (IH (k - 1)%nat) as [t ->]. cbn [bind]. eauto.
Qed.
Lemma utf8_dec_agree err s : forall n t, utf8_dec Strict n s = Ok t -> utf8_dec err n s = Ok t.
Proof.
  induction s as [|c s IH]; intros n t; cbn [utf8_dec]; auto. destruct n; [|apply IH].
  destruct (utf8_next c s) as [x k|k]; [|discriminate].
  destruct (utf8_dec Strict (k - 1) s) as [r|] eqn:E; cbn [bind]; [|discriminate]. intros H; inv H.
  rewrite (IH _ _ E). auto.
Qed.
Lemma decoding_total err w : err <> Strict -> bytes_text w -> exists t, wsgi_decoding_dance err w = Ok t.
Proof.
  intros He Hw. unfold wsgi_decoding_dance, latin1_encode. apply is_bytes_text in Hw. unfold is_bytes in Hw.
  rewrite Hw. cbn [bind]. apply utf8_dec_replace_total; auto.
Qed.
Lemma decoding_strict w t : wsgi_decoding_dance Strict w = Ok t ->
  (forall err, wsgi_decoding_dance err w = Ok t) /\ wsgi_encoding_dance t = Ok w.
Proof.
  unfold wsgi_decoding_dance, latin1_encode, wsgi_encoding_dance.
  destruct (forallb (fun c => c <? 256) w) eqn:E; cbn [bind]; [|discriminate]. intros H. split.
  - intros err. apply utf8_dec_agree; auto.
  - apply utf8_strict_inv; auto.
Qed.
(** Decoded text never contains a surrogate or a value out of range. *)
Lemma utf8_next_scalar c s x n : utf8_next c s = Good x n -> is_bytes (c :: s) = true -> scalar x = true.
Proof. intros H Hb. apply utf8_next_good in H; tauto. Qed.
Lemma utf8_dec_scalar err s : forall n t, is_bytes s = true -> utf8_dec err n s = Ok t -> forallb scalar t = true.
Proof.
  induction s as [|c s IH]; intros n t Hb; cbn [utf8_dec]; [intros H; inv H; auto|].
  assert (Hb' : is_bytes s = true) by (unfold is_bytes in *; cbn [forallb] in Hb; apply andb_true_iff in Hb; tauto).
  destruct n; [|apply IH; auto].
  destruct (utf8_next c s) as [x k|k] eqn:E.
  - destruct (utf8_dec err (k - 1) s) as [r|] eqn:Er; cbn [bind]; [|discriminate]. intros H; inv H.
    cbn [forallb]. rewrite (utf8_next_scalar _ _ _ _ E Hb), (IH _ _ Hb' Er). auto.
  - destruct err; [discriminate| |apply IH; auto].
    destruct (utf8_dec Replace (k - 1) s) as [r|] eqn:Er; cbn [bind]; [|discriminate]. intros H; inv H.
    cbn [forallb]. rewrite (IH _ _ Hb' Er). auto.
Qed.
Lemma decoding_text err w t : wsgi_decoding_dance err w = Ok t -> unicode_text t.
Proof.
  unfold wsgi_decoding_dance, latin1_encode. destruct (forallb (fun c => c <? 256) w) eqn:E; cbn [bind]; [|discriminate].
  intros H. apply scalar_text. eapply utf8_dec_scalar; eauto.
Qed.

(** ** C71 *)
Lemma hexdigit_safe a x : hexdigit a x -> a < 128 /\ unreserved a.
Proof. intros [v H|v H|v H]; unfold unreserved; lia. Qed.
Lemma quote_cons_safe safe c b : quote_safe safe c = true -> quote_bytes safe (c :: b) = c :: quote_bytes safe b.
Proof. intros H. change (quote_bytes safe (c :: b)) with (quote_byte safe c ++ quote_bytes safe b). unfold quote_byte. rewrite H. auto. Qed.
Lemma hexdigit_quote safe a x : hexdigit a x -> quote_safe safe a = true.
Proof.
  intros H. apply quote_safe_spec. left. apply hexdigit_safe in H as [_ H]. auto.
Qed.
Lemma escape_quote safe s : In 37 safe -> starts_with_escape (quote_bytes safe (37 :: s)) -> starts_with_escape (37 :: s).
Proof.
  intros Hs (e & v & r & E & Esc). inversion Esc as [a b x y Ha Hb]; subst. clear Esc.
  rewrite quote_cons_safe in E by (apply quote_safe_spec; right; split; [auto|lia]). cbn [app] in E. injection E as E.
  assert (P : forall c t (z : N) w, quote_bytes safe t = c :: w -> hexdigit c z -> exists t', t = c :: t' /\ quote_bytes safe t' = w).
  { intros c t z w Q Hc. destruct t as [|d t]; [discriminate|]. change (quote_bytes safe (d :: t)) with (quote_byte safe d ++ quote_bytes safe t) in Q.
    unfold quote_byte in Q. destruct (quote_safe safe d); cbn [app] in Q.
    - injection Q as Q1 Q2. subst. eauto.
    - unfold pct in Q. cbn [app] in Q. injection Q as Q1 _. apply hexdigit_safe in Hc as [_ Hc]. unfold unreserved in Hc. lia. }
  destruct (P _ _ _ _ E Ha) as (t1 & -> & E1). destruct (P _ _ _ _ E1 Hb) as (t2 & -> & _).
  exists [37; a; b], (16 * x + y), t2. split; [reflexivity|]. constructor; auto.
Qed.
Lemma quote_keeps_meaning safe w b : In 37 safe -> bytes_text w -> percent_decodes w b -> percent_decodes (quote_bytes safe w) b.
Proof.
  intros Hs Hw D. revert Hw. unfold percent_decodes in *. induction D as [|c s t Hc D IH|e v s t E Hk D IH|e v s t E Hk D IH|s t Hm D IH]; intros Hw.
  - constructor.
  - change (quote_bytes safe (c :: s)) with (quote_byte safe c ++ quote_bytes safe s). unfold quote_byte.
    assert (bytes_text s) by (intros z Hz; apply Hw; right; auto).
    destruct (quote_safe safe c); [cbn [app]; apply un_char; auto|]. apply un_escape; auto. apply escape_pct. apply Hw. left. auto.
  - inversion E as [x y p q Hx Hy]; subst. cbn [app]. assert (bytes_text s) by (intros z Hz; apply Hw; right; right; right; auto).
    rewrite quote_cons_safe by (apply quote_safe_spec; right; split; [auto|lia]).
    rewrite quote_cons_safe by (eapply hexdigit_quote; eauto). rewrite quote_cons_safe by (eapply hexdigit_quote; eauto).
    apply (un_escape _ [37; x; y]); auto.
  - contradiction.
  - assert (bytes_text s) by (intros z Hz; apply Hw; right; auto). assert (~ starts_with_escape (quote_bytes safe (37 :: s))) as Hm' by (intros X; apply Hm; eapply escape_quote; eauto).
    rewrite quote_cons_safe in * by (apply quote_safe_spec; right; split; [auto|lia]). apply un_malformed; auto.
Qed.
Lemma query_string_spec environ q : get_query_string environ = Ok q ->
  exists w, (dget environ (lit "QUERY_STRING") = Some w \/ (dget environ (lit "QUERY_STRING") = None /\ w = [])) /\
    quoted_form (lit ":&%=+$!*'(),") q /\ forall b, percent_decodes w b -> percent_decodes q b.
Proof.
  unfold get_query_string, wsgi_get_bytes, latin1_encode. set (w := match dget environ (lit "QUERY_STRING") with Some v => v | None => [] end).
  destruct (forallb _ w) eqn:F; cbn [bind]; [|discriminate]. intros H. inv H. assert (B : bytes_text w) by (apply is_bytes_text; exact F).
  exists w. split; [unfold w; destruct (dget environ (lit "QUERY_STRING")); auto|]. split; [apply quote_quoted_form; auto|].
  intros b D. apply quote_keeps_meaning; auto. vm_compute. auto.
Qed.
