(** Lemmas about the Location header that is sent (C125). *)
From Coq Require Import Arith List NArith ZArith Bool Lia ZifyBool ZifyN ZifyNat.
From Verif Require Import PyStr PyStrFacts Utf8 Utf8Facts ModelHeaders SpecHeaders ProofHeaders ModelUrls SpecUrls ProofUrls ProofIri SpecIri ProofIriParts
  ModelWsgi ModelResponse SpecResponse ProofResponse SpecEtag SpecRequest SpecJoin SpecLocation.
From Verif Require ModelUrlMap SpecUrlMap ModelRequest ProofCurrent ProofJoin ProofEtag.
Import ListNotations.
Open Scope N_scope.
Ltac inv H := inversion H; subst; clear H.

(** ** Escaping *)
Lemma encode_nonnil c : utf8_encode [c] <> Ok [].
Proof.
  intros H. pose proof (urlquote_nil [] [c] []) as N. unfold urlquote in N. rewrite H in N. cbn [bind] in N.
  specialize (N eq_refl). discriminate.
Qed.
Lemma escaped_first safe c s q : escaped false safe (c :: s) q -> exists d r, q = d :: r /\ (d = c \/ d = 37).
Proof.
  intros H. inv H; [eauto|discriminate|].
  match goal with E : utf8_encode _ = Ok _, F : Forall2 _ _ _ |- _ => destruct F as [|e b es' bs' [Fe Fu] _]; [exfalso; exact (encode_nonnil _ E)|] end.
  rewrite (escape_upper _ _ Fe Fu). cbn. eauto.
Qed.
Lemma escaped_slashes safe p p' : escaped false safe p p' -> (forall r, p <> 47 :: 47 :: r) -> starts [47; 47] p' = false.
Proof.
  intros H N. destruct p' as [|a [|b p']]; [reflexivity|cbn [starts]; destruct (47 =? a); reflexivity|].
  cbn [starts]. destruct (N.eqb_spec 47 a) as [<-|]; [|reflexivity]. destruct (N.eqb_spec 47 b) as [<-|]; [|reflexivity].
  exfalso. destruct p as [|x p]; [inv H|]. pose proof (escaped_first _ _ _ _ H) as (d & r & E & D). assert (x = 47) as -> by (injection E; intros; destruct D; subst; [reflexivity|discriminate]). clear d r E D.
  inv H.
  - destruct p as [|y p]; [match goal with E : escaped _ _ [] _ |- _ => inv E end|].
    match goal with E : escaped _ _ (y :: p) _ |- _ => pose proof (escaped_first _ _ _ _ E) as (d & r & E' & D) end.
    assert (y = 47) as -> by (injection E'; intros; destruct D; subst; [reflexivity|discriminate]).
    eapply N. reflexivity.
  - match goal with E : utf8_encode _ = Ok _, F : Forall2 _ _ _ |- _ => destruct F as [|e b es' bs' [Fe Fu] _]; [exact (encode_nonnil _ E)|] end.
    rewrite (escape_upper _ _ Fe Fu) in *. discriminate.
Qed.

Lemma mark_query q : with_mark (lit "?") q = SpecUrlMap.query_suffix q. Proof. destruct q; reflexivity. Qed.
Lemma mark_fragment f : with_mark (lit "#") f = fragment_suffix f. Proof. destruct f; reflexivity. Qed.
Lemma reference_tail p q f : write_reference p q f = p ++ ProofJoin.tail_of q f.
Proof. unfold write_reference, ProofJoin.tail_of. rewrite mark_query, mark_fragment. reflexivity. Qed.

Section Reference.
  Variables (idna : str -> res str) (ip_ok nfkc_ok : str -> bool).

  Lemma reference_no_scheme p q f : reference p q f -> split_scheme (p ++ ProofJoin.tail_of q f) = ([], p ++ ProofJoin.tail_of q f).
  Proof.
    intros R. destruct (re_colon _ _ _ R) as (a & b & E & Ha & Hb). subst p. rewrite <- app_assoc. destruct Hb as [->|[r ->]].
    - cbn [app]. destruct (ProofJoin.tail_first q f) as [X|(r & [X|X])]; rewrite X.
      + rewrite app_nil_r. apply ProofJoin.no_scheme_end. exact Ha.
      + apply ProofJoin.no_scheme; [exact Ha|lia|reflexivity].
      + apply ProofJoin.no_scheme; [exact Ha|lia|reflexivity].
    - cbn [app]. apply ProofJoin.no_scheme; [exact Ha|lia|reflexivity].
  Qed.
  Lemma split_reference p q f : reference p q f -> urlsplit ip_ok nfkc_ok (write_reference p q f) = Ok (Split [] [] p q f).
  Proof.
    intros R. rewrite reference_tail. unfold urlsplit. rewrite clean_id.
    2:{ intros c r E. destruct p as [|x p]; cbn [app] in E; [|injection E as -> _; eapply (re_begins _ _ _ R); reflexivity].
        destruct (ProofJoin.tail_first q f) as [X|(r' & [X|X])]; rewrite X in E; inv E; lia. }
    2:{ intros c Hc. assert (C : c <> 9 /\ c <> 10 /\ c <> 13); [|cbn [In]; lia].
        rewrite in_app_iff in Hc. destruct Hc as [Hc|Hc]; [apply (re_path _ _ _ R) in Hc; lia|].
        unfold ProofJoin.tail_of in Hc. rewrite in_app_iff in Hc. destruct Hc as [Hc|Hc].
        - destruct q as [|x q]; [destruct Hc|]. destruct Hc as [<-|Hc]; [lia|]. apply (re_query _ _ _ R) in Hc. lia.
        - destruct f as [|x f]; [destruct Hc|]. destruct Hc as [<-|Hc]; [lia|]. apply (re_fragment _ _ _ R) in Hc. lia. }
    rewrite (reference_no_scheme _ _ _ R).
    assert (Ho' : starts [47; 47] (p ++ ProofJoin.tail_of q f) = false).
    { destruct p as [|x [|y p]].
      - destruct (ProofJoin.tail_first q f) as [X|(r & [X|X])]; rewrite X; reflexivity.
      - cbn [app]. destruct (ProofJoin.tail_first q f) as [X|(r & [X|X])]; rewrite X; cbn [starts]; destruct (47 =? x); reflexivity.
      - cbn [app starts]. destruct (N.eqb_spec 47 x) as [<-|]; [|reflexivity]. destruct (N.eqb_spec 47 y) as [<-|]; [|reflexivity].
        exfalso. eapply (re_slashes _ _ _ R). reflexivity. }
    rewrite Ho'.
    assert (P35 : ~ In 35 p) by (intros X; apply (re_path _ _ _ R) in X; cbn [lit In] in X; cbn in X; lia).
    assert (P63 : ~ In 63 p) by (intros X; apply (re_path _ _ _ R) in X; cbn in X; lia).
    assert (Q35 : ~ In 35 q) by (intros X; apply (re_query _ _ _ R) in X; cbn in X; lia).
    assert (N : ~ In 35 (p ++ SpecUrlMap.query_suffix q)).
    { rewrite in_app_iff. intros [X|X]; auto. destruct q; [destruct X|]. destruct X as [X|X]; [lia|auto]. }
    assert (E1 : partition 35 (p ++ ProofJoin.tail_of q f) = (p ++ SpecUrlMap.query_suffix q, f)).
    { unfold ProofJoin.tail_of. rewrite app_assoc. destruct f as [|x f]; cbn [fragment_suffix]; [rewrite app_nil_r; apply partition_none; auto|apply partition_app; auto]. }
    assert (E2 : partition 63 (p ++ SpecUrlMap.query_suffix q) = (p, q)).
    { destruct q as [|x q]; cbn [SpecUrlMap.query_suffix]; [rewrite app_nil_r; apply partition_none; auto|apply partition_app; auto]. }
    rewrite E1, E2. reflexivity.
  Qed.
  Lemma unsplit_reference p q f : starts [47; 47] p = false -> urlunsplit (Split [] [] p q f) = write_reference p q f.
  Proof.
    intros H. unfold urlunsplit, write_reference. cbn [u_scheme u_netloc u_path u_query u_fragment is_nil negb orb andb]. rewrite ?H.
    unfold prefix_if, with_mark. destruct q, f; cbn [is_nil]; rewrite <- ?app_assoc; reflexivity.
  Qed.
  Lemma location_converted old t : location_uri idna ip_ok nfkc_ok old t -> iri_to_uri idna ip_ok nfkc_ok old = Ok t.
  Proof.
    intros [l l' P U|p q f p' q' f' R Hp Hq Hf].
    - apply (uri_by_parts idna idna); auto.
    - unfold iri_to_uri. rewrite split_reference by auto. cbn [bind u_netloc u_scheme u_path u_query u_fragment].
      replace (encode_netloc idna []) with (Ok (@nil N)) by reflexivity. cbn [bind].
      rewrite (escaped_quote path_safe _ _ ltac:(small_text) Hp). cbn [bind]. rewrite (escaped_quote query_safe _ _ ltac:(small_text) Hq). cbn [bind].
      rewrite (escaped_quote fragment_safe _ _ ltac:(small_text) Hf). cbn [bind]. f_equal. apply unsplit_reference.
      eapply escaped_slashes; [exact Hp|]. apply (re_slashes _ _ _ R).
  Qed.
End Reference.

(** ** The root *)
Section Root.
  Variables (idna_part idna_decode_part : str -> res str) (ip_ok nfkc_ok : str -> bool).
  Notation ordinary := (ordinary idna_part idna_decode_part).

  Lemma root_current environ : root_url idna_part idna_decode_part ip_ok nfkc_ok environ =
    ModelRequest.get_current_url idna_part idna_decode_part ip_ok nfkc_ok environ true false false None.
  Proof.
    unfold root_url, ModelRequest.get_current_url. destruct (dget environ (lit "wsgi.url_scheme")) as [scheme|]; [|reflexivity].
    destruct (get_host idna_part environ None) as [host|e]; [|reflexivity]. cbn [bind].
    change (ModelRequest.env_or environ (lit "SCRIPT_NAME")) with (getenv environ (lit "SCRIPT_NAME")).
    destruct (wsgi_get_bytes (getenv environ (lit "SCRIPT_NAME"))) as [s|e]; [|reflexivity]. cbn [bind].
    rewrite app_nil_r, <- !app_assoc.
    replace (rstrip_by ModelUrlMap.is_slash (quote_bytes (lit "/") s)) with (rstrip_by (N.eqb 47) (quote_bytes (lit "/") s)); [reflexivity|].
    unfold rstrip_by. f_equal. generalize (rev (quote_bytes (lit "/") s)). clear. intros l.
    induction l as [|c l IH]; [reflexivity|]. cbn [lstrip_by]. unfold ModelUrlMap.is_slash at 1. rewrite (N.eqb_sym c 47), IH. reflexivity.
  Qed.

  Lemma plain_parts name host : plain_host name host -> exists port, host = write_host name ++ write_port port /\ name <> [] /\
    (forall c, In c name -> SpecRequest.name_char c) /\ forall n, port = Some n -> 0 < n <= 65535.
  Proof.
    assert (W : forall n, (forall c, In c n -> SpecRequest.name_char c) -> write_host n = n).
    { intros n H. unfold write_host. destruct (existsb (N.eqb 58) n) eqn:E; [|reflexivity].
      apply existsb_exists in E as (c & Hc & E). apply N.eqb_eq in E. subst c. apply H in Hc. unfold SpecRequest.name_char in Hc. lia. }
    intros [n N C|n p N C P].
    - exists None. rewrite (W _ C). cbn [write_port]. rewrite app_nil_r. repeat split; auto; discriminate.
    - exists (Some p). rewrite (W _ C). split; [reflexivity|]. split; auto. split; auto. intros m E. injection E as <-. exact P.
  Qed.
  Lemma shown_in c s : In c (shown_path s) -> In c s \/ In c (lit "%253BF").
  Proof.
    unfold shown_path. rewrite in_flat_map. intros (x & Hx & Hc). unfold shown_char in Hc.
    destruct (x =? 37); [right; cbn in *; tauto|]. destruct (x =? 59); [right; cbn in *; tauto|]. destruct (x =? 63); [right; cbn in *; tauto|].
    destruct Hc as [<-|[]]. auto.
  Qed.
  Lemma shown_question s : ~ In 63 (shown_path s).
  Proof.
    unfold shown_path. rewrite in_flat_map. intros (x & _ & Hc). unfold shown_char in Hc.
    destruct (N.eqb_spec x 37); [cbn in Hc; intuition discriminate|]. destruct (N.eqb_spec x 59); [cbn in Hc; intuition discriminate|].
    destruct (N.eqb_spec x 63); [cbn in Hc; intuition discriminate|]. destruct Hc as [E|[]]. auto.
  Qed.
  Lemma root_uri environ scheme host script path root :
    ordinary environ None scheme host script path -> ~ In 35 script -> SpecRequest.one_line script -> root_folders script root ->
    (do u <- root_url idna_part idna_decode_part ip_ok nfkc_ok environ; iri_to_uri idna_part ip_ok nfkc_ok u) =
    Ok (scheme ++ lit "://" ++ host ++ 47 :: folders root).
  Proof.
    intros O N35 (L9 & L10 & L13) (Hr & _). rewrite root_current.
    rewrite (ProofCurrent.current_parts idna_part idna_decode_part ip_ok nfkc_ok environ None scheme host script path true false [] [] O);
      [|reflexivity|reflexivity|intros c []]. cbn [bind]. unfold ProofCurrent.address. rewrite !app_nil_r.
    destruct (or_plain _ _ _ _ _ _ _ _ O) as (name & Ph & _). destruct (plain_parts _ _ Ph) as (port & -> & Nn & Nc & Np).
    set (l := Url scheme None name port (shown_path (script ++ [47])) [] []).
    set (l' := Url scheme None name port (47 :: folders root) [] []).
    assert (Sl : lower scheme = scheme) by (destruct (or_web _ _ _ _ _ _ _ _ O) as [-> | ->]; reflexivity).
    assert (Nl : lower name = name) by (apply ProofCurrent.lower_name; assumption).
    assert (Na : forall c, In c name -> c < 128 /\ 32 < c /\ c <> 47 /\ c <> 63 /\ c <> 35 /\ c <> 91 /\ c <> 93 /\ c <> 64 /\ c <> 37 /\ c <> 58).
    { intros c Hc. apply Nc in Hc. unfold SpecRequest.name_char in Hc. lia. }
    assert (P : proper ip_ok nfkc_ok l).
    { constructor; cbn [l l_scheme l_user l_host l_port l_path l_query l_fragment].
      - destruct (or_web _ _ _ _ _ _ _ _ O) as [-> | ->].
        + exists 104, (lit "ttp"). split; [reflexivity|]. split; [right; lia|]. intros d H. left. right. cbn in H. lia.
        + exists 104, (lit "ttps"). split; [reflexivity|]. split; [right; lia|]. intros d H. left. right. cbn in H. lia.
      - discriminate.
      - split; [exact Nn|]. split; [|intros X; apply Na in X; lia].
        intros c Hc. apply Na in Hc. cbn. lia.
      - exact Np.
      - assert (Sc : exists r, shown_path (script ++ [47]) = 47 :: r).
        { destruct (or_script _ _ _ _ _ _ _ _ O) as (n & w & _ & _ & _ & [->|[r ->]]); eexists; reflexivity. }
        split; [right; exact Sc|]. intros c Hc. pose proof (shown_question (script ++ [47])) as Q.
        assert (c <> 63) by (intros ->; auto).
        assert (c <> 35 /\ c <> 9 /\ c <> 10 /\ c <> 13); [|cbn; lia].
        apply shown_in in Hc as [Hc|Hc]; [|cbn in Hc; lia]. apply in_app_iff in Hc as [Hc|[<-|[]]]; [|lia].
        repeat split; intros ->; auto.
      - intros c [].
      - intros c [].
      - left. unfold location, l. cbn [l_user l_host l_port write_user app]. intros c Hc. apply in_app_iff in Hc as [Hc|Hc].
        + unfold write_host in Hc. destruct (existsb (N.eqb 58) name); [|apply Na in Hc; lia].
          rewrite !in_app_iff in Hc. destruct Hc as [Hc|[Hc|Hc]]; [cbn in Hc; lia|apply Na in Hc; lia|cbn in Hc; lia].
        + destruct port as [n|]; [|destruct Hc]. cbn [write_port] in Hc. apply in_app_iff in Hc as [Hc|Hc]; [cbn in Hc; lia|].
          pose proof (dec_digits n) as D. rewrite forallb_forall in D. apply D in Hc. unfold is_ascii_digit, between in Hc. lia. }
    assert (U : as_uri idna_part l l').
    { unfold as_uri, same_but. cbn [l l' l_scheme l_user l_host l_port l_path l_query l_fragment user_by]. rewrite Sl.
      split; [reflexivity|]. split; [reflexivity|]. split; [exact I|]. split; [|split; [exact Hr|split; constructor]].
      split; [exact Nn|]. left. rewrite Nl. split; [|reflexivity]. intros c Hc. apply Na in Hc. lia. }
    pose proof (uri_by_parts idna_part idna_part ip_ok nfkc_ok l l' P U) as E.
    unfold write_url, location in E. unfold l, l' in E. cbn [l_scheme l_user l_host l_port l_path l_query l_fragment with_mark write_user app] in E.
    rewrite !app_nil_r in E.
    rewrite <- !app_assoc in E |- *. exact E.
  Qed.

  Lemma location_fixed environ scheme host script path root old t u :
    ordinary environ None scheme host script path -> ~ In 35 script -> SpecRequest.one_line script -> root_folders script root ->
    location_uri idna_part ip_ok nfkc_ok old t -> leads scheme host root t u ->
    fix_location idna_part idna_decode_part ip_ok nfkc_ok environ true old = Ok u.
  Proof.
    intros O N35 L R C D. unfold fix_location. rewrite (location_converted _ _ _ _ _ C). cbn [bind].
    pose proof (root_uri _ _ _ _ _ _ O N35 L R) as E. destruct (root_url idna_part idna_decode_part ip_ok nfkc_ok environ) as [v|e]; [|discriminate E].
    cbn [bind] in E |- *. rewrite E. cbn [bind]. destruct (or_plain _ _ _ _ _ _ _ _ O) as (name & Ph & _).
    destruct R as (_ & F & D1 & D2). apply (ProofJoin.join_leads ip_ok nfkc_ok scheme name); auto. exact (or_web _ _ _ _ _ _ _ _ O).
  Qed.

  Lemma last_value_app_list l k : forall vs v, h_getlist l k = vs ++ [v] -> last_value l (lower k) = Some v.
  Proof.
    induction l as [|[n x] l IH] using rev_ind; intros vs v H.
    - destruct vs; discriminate.
    - rewrite last_value_app. rewrite getlist_app, getlist_one in H. cbn [last_value fold_left fst snd].
      change (eqs (lower n) (lower k)) with (same n k). destruct (same n k).
      + apply app_inj_tail in H as [_ ->]. reflexivity.
      + rewrite app_nil_r in H. eapply IH. exact H.
  Qed.

  Lemma finished_getlist r h2 h3 k : finished r h2 h3 -> ~ same_name k (lit "Content-Length") ->
    (forall n, In n entity_names -> same_name k n -> n = lit "Content-Location") -> h_getlist h3 k = h_getlist h2 k.
  Proof.
    intros L3 N3 N4. destruct L3 as [[_ L3]|[[F ->]|[_ [[-> _]|(q & _ & _ & _ & L3)]]]]; auto.
    - apply set_get in L3 as [_ L3]. apply L3. unfold same_name in *. intros X. apply N3. symmetry. exact X.
    - unfold remove_entity_headers. apply getlist_filter. intros n v Hn. cbn [fst].
      destruct (is_entity_header n) eqn:En; [|reflexivity]. cbn [negb orb].
      apply entity_spec in En as (m & Hm & Hs).
      assert (m = lit "Content-Location") as -> by (apply N4; auto; unfold same_name in *; congruence).
      unfold same_name in Hs. rewrite Hs. reflexivity.
    - apply set_get in L3 as [_ L3]. apply L3. unfold same_name in *. intros X. apply N3. symmetry. exact X.
  Qed.
End Root.
