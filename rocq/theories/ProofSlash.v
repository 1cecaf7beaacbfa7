(** Lemmas about the URL to which append_slash_redirect leads (C128). *)
From Coq Require Import Arith List NArith ZArith Bool Lia ZifyBool ZifyN ZifyNat.
From Verif Require Import PyStr PyStrFacts Utf8 Utf8Facts ModelHeaders SpecHeaders ProofHeaders ModelUrls SpecUrls ProofUrls ProofIri SpecIri ProofIriParts
  ModelWsgi ModelResponse SpecResponse ProofResponse SpecEtag SpecRequest SpecJoin SpecLocation ProofLocation PropsLocation SpecSlash.
From Verif Require ModelUtils SpecUtils ProofUtils SpecUrlMap.
Import ListNotations.
Open Scope N_scope.
Ltac inv H := inversion H; subst; clear H.

Lemma escaped_app safe a b a' b' : escaped false safe a a' -> escaped false safe b b' -> escaped false safe (a ++ b) (a' ++ b').
Proof.
  intros H K. induction H; cbn [app]; auto.
  - apply es_kept; auto.
  - discriminate.
  - rewrite <- app_assoc. eapply es_code; eauto.
Qed.
Lemma kept_escaped safe s : (forall c, In c s -> kept safe c) -> escaped false safe s s.
Proof. induction s as [|c s IH]; intros H; constructor; [apply H; left; auto|]. apply IH. intros x Hx. apply H. right. auto. Qed.
Lemma path_ascii : SpecUrls.ascii_text (lit "/:~+%").
Proof. intros c Hc. cbn in Hc. lia. Qed.

Lemma parts_escaped dirs dirs' : Forall2 part_as dirs dirs' -> escaped false (lit "/:~+%") (folders dirs) (folders dirs').
Proof.
  intros H. induction H as [|d d' l l' H _ IH]; [constructor|]. unfold folders. cbn [flat_map]. fold (folders l). fold (folders l').
  apply escaped_app; auto. apply escaped_app; auto. apply kept_escaped. intros c [<-|[]]. right. cbn. auto.
Qed.
(** What stands in an escaped part *)
Lemma part_chars d d' c : part d -> part_as d d' -> In c d' -> 32 < c < 127 /\ ~ In c (lit "/?#:") /\ kept (lit "/:~+%") c.
Proof.
  intros (_ & _ & _ & P) E H. apply (escaped_in _ _ _ _ path_ascii E) in H. unfold kept, unreserved in *.
  destruct H as [[H K]|H].
  - destruct (P c H) as [R N]. split; [|split; [|exact K]].
    + destruct K as [K|K]; [lia|cbn in K; lia].
    + cbn in N |- *. lia.
  - split; [lia|]. split; [cbn; lia|]. destruct H as [->|H]; [right; cbn; auto 10|left; lia].
Qed.
Lemma no_escapes safe d d' : escaped false safe d d' -> ~ In 37 d' -> d = d'.
Proof.
  intros H. induction H as [|c s q Hk H IH|s q X|c bytes es s q Hk Hp Hb Hes H IH]; intros N; auto.
  - f_equal. apply IH. intros X. apply N. right. auto.
  - discriminate.
  - exfalso. apply N. apply in_or_app. left. destruct Hes as [|e b es' bs' [Fe _] _]; [exact (encode_nonnil _ Hb)|].
    inv Fe. cbn. auto.
Qed.
Lemma part_folder d d' : part d -> part_as d d' -> folder d' /\ d' <> lit "." /\ d' <> lit ".." /\ ~ In 58 d'.
Proof.
  intros P E. split; [split|].
  - intros c Hc. destruct (part_chars _ _ _ P E Hc) as (A & B & _). cbn in B. lia.
  - apply (escaped_nonnil _ _ _ path_ascii (proj1 P) E).
  - pose proof P as (_ & P1 & P2 & _). split; [|split].
    + intros ->. apply P1. apply (no_escapes _ _ _ E). cbn. lia.
    + intros ->. apply P2. apply (no_escapes _ _ _ E). cbn. lia.
    + intros H. destruct (part_chars _ _ _ P E H) as (_ & B & _). apply B. cbn. auto 10.
Qed.
Lemma folders_in dirs c : In c (folders dirs) -> c = 47 \/ exists d, In d dirs /\ In c d.
Proof.
  unfold folders. intros H. apply in_flat_map in H as (d & Hd & H). apply in_app_or in H as [H|[H|[]]]; [right; eauto|left; auto].
Qed.
Lemma query_kept q c : plain_query q -> In c q -> c <> 35 /\ 32 < c.
Proof. intros P H. specialize (P c H). unfold kept, unreserved in P. destruct P as [P|P]; [lia|cbn in P; lia]. Qed.

Lemma is_reference p q : (forall c, In c p -> 32 <= c < 127 /\ ~ In c (lit "?#:")) -> (forall c r, p = c :: r -> c <> 47 /\ c <> 32) ->
  plain_query q -> reference p q [].
Proof.
  intros P F Q. constructor.
  - intros c Hc. destruct (P c Hc) as [A B]. cbn in B |- *. lia.
  - intros c Hc. destruct (query_kept q c Q Hc). cbn. lia.
  - intros c [].
  - intros c r E. destruct (F c r E). destruct (P c); [rewrite E; left; auto|]. lia.
  - intros r E. destruct (F _ _ E). congruence.
  - exists p, []. rewrite app_nil_r. split; auto. split; auto. intros H. destruct (P _ H) as [_ N]. apply N. cbn. auto.
Qed.

Lemma folders_body dirs : dirs <> [] -> Forall part dirs ->
  exists b, folders dirs = b ++ [47] /\ (forall c r, b = c :: r -> c <> 47) /\ (forall c r, b = r ++ [c] -> c <> 47).
Proof.
  intros N P. destruct (exists_last N) as (l & d & ->). apply Forall_app in P as [Pl Pd]. inv Pd. rename H1 into D. clear H2.
  exists (folders l ++ d). split; [|split].
  - unfold folders. rewrite flat_map_app. cbn [flat_map]. rewrite app_nil_r, app_assoc. reflexivity.
  - assert (K : forall d0 t c r, part d0 -> d0 ++ t = c :: r -> c <> 47).
    { intros [|x d0] t c r (A & _ & _ & B) E; [congruence|]. injection E as -> _. destruct (B c) as [_ C]; [left; auto|].
      intros ->. apply C. cbn. auto. }
    intros c r E. destruct Pl as [|d0 l Pd0 Pl]; [rewrite <- (app_nil_r (folders [] ++ d)) in E; eapply (K d); eauto|].
    unfold folders in E. cbn [flat_map] in E. rewrite <- !app_assoc in E. eapply (K d0); eauto.
  - intros c r E. destruct D as (A & _ & _ & B). destruct (exists_last A) as (d0 & x & ->). rewrite app_assoc in E. apply app_inj_tail in E as [_ <-].
    destruct (B x) as [_ C]; [apply in_or_app; right; left; auto|]. intros ->. apply C. cbn. auto.
Qed.
Lemma slash_location p dirs environ q : dirs <> [] -> Forall part dirs -> p ++ [47] = 47 :: folders dirs -> query_given environ q ->
  ModelUtils.slash_path p (dget environ (lit "QUERY_STRING")) = write_reference (folders dirs) q [].
Proof.
  intros N P E Q. destruct (folders_body dirs N P) as (b & Eb & B1 & B2).
  assert (p = 47 :: b) as ->.
  { rewrite Eb in E. change (47 :: b ++ [47]) with ((47 :: b) ++ [47]) in E. apply app_inj_tail in E. tauto. }
  assert (S : strip_by (N.eqb 47) (47 :: b) = b).
  { unfold strip_by. change (47 :: b) with ([47] ++ b). rewrite lstrip_by_app by reflexivity. rewrite lstrip_by_id.
    - apply rstrip_by_id. intros c r X. apply N.eqb_neq. intros <-. exact (B2 _ _ X eq_refl).
    - intros c r X. apply N.eqb_neq. intros <-. exact (B1 _ _ X eq_refl). }
  unfold ModelUtils.slash_path. rewrite S. unfold write_reference. rewrite Eb. cbn [with_mark]. rewrite app_nil_r.
  destruct Q as [->|[-> ->]]; cbn [with_mark]; [|rewrite app_nil_r; auto].
  destruct q; cbn [with_mark]; [rewrite app_nil_r; auto|]. reflexivity.
Qed.

Lemma walk_down dirs : forall root, Forall (fun d => d <> lit "." /\ d <> lit "..") dirs -> walks root dirs (root ++ dirs).
Proof.
  induction dirs as [|d dirs IH]; intros root H; [rewrite app_nil_r; constructor|]. inv H. destruct H2.
  apply wa_down; auto. replace (root ++ d :: dirs) with ((root ++ [d]) ++ dirs) by (rewrite <- app_assoc; reflexivity). auto.
Qed.
Lemma slash_leads scheme host root dirs dirs' q : dirs <> [] -> Forall part dirs -> Forall2 part_as dirs dirs' -> plain_query q ->
  leads scheme host root (write_reference (folders dirs') q []) (scheme ++ lit "://" ++ host ++ [47] ++ folders root ++ folders dirs' ++ SpecUrlMap.query_suffix q).
Proof.
  intros N P E Q.
  assert (F : Forall (fun d => folder d /\ d <> lit "." /\ d <> lit ".." /\ ~ In 58 d) dirs').
  { clear N. induction E; constructor; inv P; auto. eapply part_folder; eauto. }
  assert (N' : dirs' <> []) by (intros ->; inv E; congruence).
  assert (W : write_reference (folders dirs') q [] = folders dirs' ++ [] ++ SpecUrlMap.query_suffix q).
  { unfold write_reference. rewrite mark_query. change (with_mark (lit "#") []) with ([] : str). rewrite app_nil_r. reflexivity. }
  assert (W2 : folders root ++ folders dirs' ++ SpecUrlMap.query_suffix q = folders (root ++ dirs') ++ [] ++ SpecUrlMap.query_suffix q).
  { unfold folders. rewrite flat_map_app, <- app_assoc. reflexivity. }
  rewrite W, W2.
  apply le_relative.
  - eapply Forall_impl; [|exact F]. cbv beta. intros d0 (F1 & F2 & F3 & F4). auto.
  - apply fi_name; [intros c []|intros []].
  - destruct F as [|d l [[_ D] _] _]; [congruence|]. destruct d; [congruence|discriminate].
  - destruct F as [|d l D _]; [intros []|]. cbn [hd]. tauto.
  - exists q, []. split; [rewrite app_nil_r; reflexivity|]. split; [intros H; destruct (query_kept q _ Q H); congruence|].
    split; [|repeat split; intros []]. repeat split; intros H; destruct (query_kept q _ Q H); lia.
  - apply ar_file; [|discriminate|discriminate]. apply walk_down. eapply Forall_impl; [|exact F]. cbv beta. intros d0 (F1 & F2 & F3 & F4). auto.
Qed.

Lemma header_auto r k v r' e : set_header r k v = (r', e) -> rs_autolocation r' = rs_autolocation r.
Proof. unfold set_header. destruct (h_set _ _ _ _); intros H; inv H; reflexivity. Qed.
Lemma data_auto r i r' e : set_data r i = (r', e) -> rs_autolocation r' = rs_autolocation r.
Proof.
  unfold set_data. destruct (encode_item i); [|intros H; inv H; reflexivity]. destruct (rs_autolength _).
  - intros H. apply header_auto in H. rewrite H. reflexivity.
  - intros H. inv H. reflexivity.
Qed.
Lemma redirect_auto idna ip nf location code r : ModelUtils.redirect idna ip nf location code = Ok r -> rs_autolocation r = true.
Proof.
  unfold ModelUtils.redirect. destruct (iri_to_uri _ _ _ _); cbn [bind]; [|discriminate].
  destruct (ModelUtils.text_response _ _ _) as [r1 [e|]] eqn:E; [discriminate|].
  destruct (set_header r1 _ _) as [r2 [e|]] eqn:E2; [discriminate|]. intros H. inv H.
  rewrite (header_auto _ _ _ _ _ E2). unfold ModelUtils.text_response in E.
  destruct (set_header _ (lit "Content-Type") _) as [r0 [e|]] eqn:E0; [discriminate|].
  rewrite (data_auto _ _ _ _ E), (header_auto _ _ _ _ _ E0). reflexivity.
Qed.

Section Slash.
  Variables (idna_part idna_decode_part : str -> res str) (ip_ok nfkc_ok : str -> bool).
  Lemma slash_uri dirs dirs' q : dirs <> [] -> Forall part dirs -> Forall2 part_as dirs dirs' -> plain_query q ->
    (forall c r, folders dirs = c :: r -> c <> 32) ->
    location_uri idna_part ip_ok nfkc_ok (write_reference (folders dirs) q []) (write_reference (folders dirs') q []) /\
    location_uri idna_part ip_ok nfkc_ok (write_reference (folders dirs') q []) (write_reference (folders dirs') q []).
  Proof.
    intros N P E Q B.
    assert (N' : dirs' <> []) by (intros ->; inv E; congruence).
    assert (C' : forall c, In c (folders dirs') -> 32 < c < 127 /\ ~ In c (lit "?#:") /\ kept (lit "/:~+%") c).
    { intros c Hc. apply folders_in in Hc as [->|(d' & Hd & Hc)]; [split; [lia|split; [cbn; lia|right; cbn; auto]]|].
      assert (exists d, part d /\ part_as d d') as (d & Pd & Ed).
      { clear - P E Hd. induction E; [destruct Hd|]. inv P. destruct Hd as [<-|Hd]; eauto. }
      destruct (part_chars _ _ _ Pd Ed Hc) as (X & Y & Z). cbn in Y |- *. split; [lia|split; [lia|exact Z]]. }
    assert (Eq : escaped false (lit "%&[]:;$*()+,!?*/=") q q) by (apply kept_escaped; exact Q).
    destruct (folders_body dirs N P) as (b & Eb & B1 & _).
    assert (R1 : reference (folders dirs) q [] /\ reference (folders dirs') q []); [split; apply is_reference; auto|].
    - intros c Hc. apply folders_in in Hc as [->|(d & Hd & Hc)]; [split; [lia|cbn; lia]|].
      rewrite Forall_forall in P. destruct (P d Hd) as (_ & _ & _ & K). destruct (K c Hc) as [K1 K2]. split; [lia|]. cbn in K2 |- *. lia.
    - intros c r X. split; [|eapply B; eauto]. destruct b as [|x b]; [|rewrite Eb in X; injection X as -> _; eapply B1; reflexivity].
      exfalso. destruct P as [|d l (D & _ & _ & K) _]; [congruence|]. destruct d as [|y d]; [congruence|]. rewrite Eb in X. injection X as <- <-.
      unfold folders in Eb. cbn in Eb. injection Eb as -> _. destruct (K 47) as [_ K']; [left; auto|]. apply K'. cbn. auto.
    - intros c Hc. destruct (C' c Hc) as (X & Y & _). split; [lia|auto].
    - intros c r X. destruct E as [|d d' l l' Ed E]; [congruence|]. inv P. destruct (part_folder d d') as ((W & Nd) & _); auto.
      destruct d' as [|y d']; [congruence|]. unfold folders in X. cbn in X. injection X as -> _. destruct (W c) as (A1 & A2 & _); [left; auto|]. lia.
    - destruct R1. split; apply lu_reference; auto; try apply es_nil; [apply parts_escaped; assumption|].
      apply kept_escaped; intros c Hc; apply C'; exact Hc.
  Qed.
  Lemma slash_sent environ code r line h it scheme host script path root dirs dirs' p q :
    ModelUtils.append_slash_redirect idna_part ip_ok nfkc_ok environ code = Ok r ->
    serve idna_part idna_decode_part ip_ok nfkc_ok environ r = Ok (line, h, it) ->
    ordinary idna_part idna_decode_part environ None scheme host script path ->
    ~ In 35 script -> SpecRequest.one_line script -> root_folders script root ->
    dget environ (lit "PATH_INFO") = Some p -> p ++ [47] = 47 :: folders dirs ->
    dirs <> [] -> Forall part dirs -> (forall c r, folders dirs = c :: r -> c <> 32) -> Forall2 part_as dirs dirs' ->
    query_given environ q -> plain_query q ->
    values_of (lit "Location") h [scheme ++ lit "://" ++ host ++ [47] ++ folders root ++ folders dirs' ++ SpecUrlMap.query_suffix q].
  Proof.
    intros R S O N35 L RF Ep Ed N P B E G Q.
    destruct (slash_uri dirs dirs' q N P E Q B) as [U1 U2].
    unfold ModelUtils.append_slash_redirect in R. rewrite Ep, (slash_location p dirs environ q) in R by assumption.
    pose proof (redirect_auto _ _ _ _ _ _ R) as A.
    apply ProofUtils.redirect_spec in R as (uri & e1 & e2 & b & Ei & _ & _ & _ & _ & _ & _ & Lo).
    rewrite (location_converted _ _ _ _ _ U1) in Ei. injection Ei as <-.
    assert (V : values_of (lit "Location") (rs_headers r) ([] ++ [write_reference (folders dirs') q []])).
    { cbn [app]. rewrite <- Lo. apply values_of_filter. }
    destruct (C125_absolute idna_part idna_decode_part ip_ok nfkc_ok environ r line h it scheme host script path root [] _ _ _ S A O N35 L RF V U2
      (slash_leads scheme host root dirs dirs' q N P E Q)) as [K _]. apply K. right. reflexivity.
  Qed.
  Lemma slash_answers environ code dirs p q : (forall x e, idna_part x = Ok e -> SpecHeaders.one_line e) ->
    dget environ (lit "PATH_INFO") = Some p -> p ++ [47] = 47 :: folders dirs ->
    dirs <> [] -> Forall part dirs -> (forall c r, folders dirs = c :: r -> c <> 32) ->
    query_given environ q -> plain_query q ->
    exists r, ModelUtils.append_slash_redirect idna_part ip_ok nfkc_ok environ code = Ok r /\ rs_status r = set_status_code code.
  Proof.
    intros I Ep Ed N P B G Q.
    assert (exists dirs', Forall2 part_as dirs dirs') as (dirs' & E).
    { clear - P. induction P as [|d l (_ & _ & _ & D) _ [l' IH]]; [exists []; constructor|].
      destruct (escaped_total false (lit "/:~+%") d) as (d' & E); [|exists (d' :: l'); constructor; auto].
      intros c Hc; enough (c < 128) by lia. destruct (D c Hc). lia. }
    destruct (slash_uri dirs dirs' q N P E Q B) as [U1 _].
    unfold ModelUtils.append_slash_redirect. rewrite Ep, (slash_location p dirs environ q) by assumption.
    destruct (ProofUtils.redirect_total idna_part ip_ok nfkc_ok I (write_reference (folders dirs) q []) (write_reference (folders dirs') q []) code) as (r & Er); [|apply location_converted; exact U1|].
    - intros c Hc; enough (c < 128) by lia. unfold write_reference in Hc. cbn [with_mark] in Hc. rewrite app_nil_r in Hc.
      apply in_app_or in Hc as [Hc|Hc].
      + apply folders_in in Hc as [->|(d & Hd & Hc)]; [lia|]. rewrite Forall_forall in P. destruct (P d Hd) as (_ & _ & _ & K). destruct (K c Hc). lia.
      + destruct q as [|x q]; [destruct Hc|]. cbn [with_mark] in Hc. apply in_app_or in Hc as [Hc|Hc]; [cbn in Hc; lia|].
        specialize (Q c Hc). unfold kept, unreserved in Q. destruct Q as [Q|Q]; [lia|cbn in Q; lia].
    - exists r. split; auto. apply ProofUtils.redirect_spec in Er as (? & ? & ? & ? & _ & _ & _ & _ & _ & S & _). exact S.
  Qed.
End Slash.
