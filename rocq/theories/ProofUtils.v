(** * Proofs: redirects, cached and header properties, abort *)
From Coq Require Import Arith List NArith ZArith Bool Lia ZifyBool ZifyN ZifyNat.
From Verif Require Import PyStr PyStrFacts Utf8 Utf8Facts SpecHeaders ModelHeaders ProofHeaders ModelUrls SpecUrls ProofUrls
  ProofIri ModelResponse SpecResponse ProofResponse ModelWsgi ModelUtils SpecUtils.
Import ListNotations.
Open Scope N_scope.

(** ** Escaping *)
Definition esc (c : N) : str :=
  if c =? 38 then lit "&amp;" else if c =? 60 then lit "&lt;" else if c =? 62 then lit "&gt;"
  else if c =? 34 then lit "&quot;" else if c =? 39 then lit "&#x27;" else [c].

Lemma replace_one x new s : replace [x] new s = flat_map (fun c => if c =? x then new else [c]) s.
Proof.
  induction s as [|c s IH]; [reflexivity|]. cbn [flat_map].
  destruct (c =? x) eqn:E.
  - apply N.eqb_eq in E. subst c. change (x :: s) with ([x] ++ s).
    rewrite replace_hit by discriminate. rewrite IH. reflexivity.
  - rewrite replace_miss, IH; [reflexivity|]. cbn [starts]. rewrite N.eqb_sym, E. reflexivity.
Qed.
Lemma flat_map_flat_map {A B C} (f : A -> list B) (g : B -> list C) l :
  flat_map g (flat_map f l) = flat_map (fun x => flat_map g (f x)) l.
Proof. induction l as [|a l IH]; [reflexivity|]. cbn [flat_map]. rewrite flat_map_app, IH. reflexivity. Qed.
Lemma escape_eq s : escape s = flat_map esc s.
Proof.
  unfold escape. change (lit "&") with [38]. change (lit "<") with [60]. change (lit ">") with [62].
  change (lit """") with [34]. change (lit "'") with [39].
  rewrite !replace_one, !flat_map_flat_map. apply flat_map_ext. intros c. unfold esc.
  destruct (c =? 38) eqn:E1; [apply N.eqb_eq in E1; subst c; reflexivity|].
  cbn [flat_map app]. destruct (c =? 60) eqn:E2; [apply N.eqb_eq in E2; subst c; reflexivity|].
  cbn [flat_map app]. destruct (c =? 62) eqn:E3; [apply N.eqb_eq in E3; subst c; reflexivity|].
  cbn [flat_map app]. destruct (c =? 34) eqn:E4; [apply N.eqb_eq in E4; subst c; reflexivity|].
  cbn [flat_map app]. destruct (c =? 39) eqn:E5; reflexivity.
Qed.
Lemma markup_not c : ~ markup c <-> c <> 38 /\ c <> 60 /\ c <> 62 /\ c <> 34 /\ c <> 39.
Proof. unfold markup. change (lit "&<>""'") with [38; 60; 62; 34; 39]. cbn [In]. lia. Qed.
Lemma escape_shown s : shown (escape s) s.
Proof.
  rewrite escape_eq. induction s as [|c s IH]; cbn [flat_map]; [constructor|]. unfold esc at 1.
  destruct (c =? 38) eqn:E1; [apply N.eqb_eq in E1; subst c; exact (sh_amp _ _ IH)|].
  destruct (c =? 60) eqn:E2; [apply N.eqb_eq in E2; subst c; exact (sh_lt _ _ IH)|].
  destruct (c =? 62) eqn:E3; [apply N.eqb_eq in E3; subst c; exact (sh_gt _ _ IH)|].
  destruct (c =? 34) eqn:E4; [apply N.eqb_eq in E4; subst c; exact (sh_quot _ _ IH)|].
  destruct (c =? 39) eqn:E5; [apply N.eqb_eq in E5; subst c; exact (sh_apos _ _ IH)|].
  apply sh_char; [|exact IH]. apply markup_not. lia.
Qed.
Lemma shown_harmless e s : shown e s -> harmless e.
Proof.
  unfold harmless. change (lit "<>""'") with [60; 62; 34; 39].
  induction 1; intros x Hx; [destruct Hx| |..].
  - destruct Hx as [<-|Hx]; [|exact (IHshown x Hx)]. apply markup_not in H. cbn [In]. lia.
  - apply in_app_or in Hx. destruct Hx as [Hx|Hx]; [|exact (IHshown x Hx)].
    change (lit "&amp;") with [38; 97; 109; 112; 59] in Hx. cbn [In] in *. lia.
  - apply in_app_or in Hx. destruct Hx as [Hx|Hx]; [|exact (IHshown x Hx)].
    change (lit "&lt;") with [38; 108; 116; 59] in Hx. cbn [In] in *. lia.
  - apply in_app_or in Hx. destruct Hx as [Hx|Hx]; [|exact (IHshown x Hx)].
    change (lit "&gt;") with [38; 103; 116; 59] in Hx. cbn [In] in *. lia.
  - apply in_app_or in Hx. destruct Hx as [Hx|Hx]; [|exact (IHshown x Hx)].
    change (lit "&quot;") with [38; 113; 117; 111; 116; 59] in Hx. cbn [In] in *. lia.
  - apply in_app_or in Hx. destruct Hx as [Hx|Hx]; [|exact (IHshown x Hx)].
    change (lit "&#x27;") with [38; 35; 120; 50; 55; 59] in Hx. cbn [In] in *. lia.
Qed.
Lemma shown_fun e s : shown e s -> forall t, shown e t -> s = t.
Proof.
  assert (M : markup 38) by (left; reflexivity).
  induction 1; intros t Ht.
  - inversion Ht; reflexivity.
  - inversion Ht; subst; try (exfalso; apply H; exact M). f_equal. auto.
  - inversion Ht; subst; [contradiction|]. f_equal. auto.
  - inversion Ht; subst; [contradiction|]. f_equal. auto.
  - inversion Ht; subst; [contradiction|]. f_equal. auto.
  - inversion Ht; subst; [contradiction|]. f_equal. auto.
  - inversion Ht; subst; [contradiction|]. f_equal. auto.
Qed.

(** ** The response *)
Lemma h_set_get l k v h : h_set l k v [] = Ok h ->
  (forall k', same_name k k' -> h_getlist h k' = [text v]) /\
  (forall k', ~ same_name k k' -> h_getlist h k' = h_getlist l k').
Proof.
  intros H. pose proof (step_spec l (HSetItem k v)) as S. cbn [h_step] in S. rewrite H in S. cbn [keep fst snd] in S.
  inversion S; subst. apply set_get. assumption.
Qed.
Lemma h_set_one_line l k v : one_line (text v) -> exists h, h_set l k v [] = Ok h.
Proof.
  intros H. pose proof (step_spec l (HSetItem k v)) as S. cbn [h_step] in S.
  destruct (h_set l k v []) as [h|e]; [eauto|]. cbn [keep fst snd] in S. inversion S; subst. contradiction.
Qed.
Lemma set_header_get r k v r' : set_header r k v = (r', None) ->
  (forall k', same_name k k' -> h_getlist (rs_headers r') k' = [v]) /\
  (forall k', ~ same_name k k' -> h_getlist (rs_headers r') k' = h_getlist (rs_headers r) k') /\
  rs_body r' = rs_body r /\ rs_status r' = rs_status r.
Proof.
  unfold set_header. destruct (h_set (rs_headers r) k (HStr v) []) as [h|e] eqn:E; [|discriminate].
  intros H. assert (r' = with_headers r h) as -> by congruence. cbn [with_headers rs_headers rs_body rs_status].
  destruct (h_set_get _ _ _ _ E) as [H1 H2]. auto.
Qed.

Lemma text_response_ok t code m r : text_response t code m = (r, None) ->
  h_getlist (rs_headers r) (lit "Content-Type") = [get_content_type m (lit "utf-8")]
  /\ rs_status r = set_status_code code
  /\ exists b, utf8_encode t = Ok b /\ rs_body r = BSeq [IBytes b].
Proof.
  unfold text_response. set (r0 := Response _ _ _ _ _ _ _ _).
  destruct (set_header r0 (lit "Content-Type") _) as [r1 [e|]] eqn:E; [discriminate|].
  apply set_header_get in E. destruct E as (H1 & _ & H3 & H4).
  unfold set_data. cbn [encode_item]. destruct (utf8_encode t) as [b|e] eqn:Eb; [|discriminate].
  set (r2 := with_body r1 (BSeq [IBytes b])).
  assert (K : h_getlist (rs_headers r2) (lit "Content-Type") = [get_content_type m (lit "utf-8")])
    by (apply H1; reflexivity).
  destruct (rs_autolength r2).
  - intros E. apply set_header_get in E. destruct E as (_ & N & B & S).
    rewrite N, B, S by discriminate. split; [exact K|]. split; [exact H4|]. exists b. auto.
  - intros E. assert (r = r2) as -> by congruence. split; [exact K|]. split; [exact H4|]. exists b. auto.
Qed.

Lemma redirect_spec idna ip nf location code r : redirect idna ip nf location code = Ok r ->
  exists uri e1 e2 b,
    iri_to_uri idna ip nf location = Ok uri /\ shown e1 uri /\ shown e2 location /\
    utf8_encode (page_head ++ e1 ++ page_middle ++ e2 ++ page_foot) = Ok b /\
    rs_body r = BSeq [IBytes b] /\ rs_status r = set_status_code code /\
    h_getlist (rs_headers r) (lit "Content-Type") = [lit "text/html; charset=utf-8"] /\
    h_getlist (rs_headers r) (lit "Location") = [uri].
Proof.
  unfold redirect. destruct (iri_to_uri idna ip nf location) as [uri|e] eqn:E; cbn [bind]; [|discriminate].
  destruct (text_response _ code (lit "text/html")) as [r1 [e|]] eqn:Et; [discriminate|].
  apply text_response_ok in Et. destruct Et as (C & S & b & Eb & B).
  destruct (set_header r1 (lit "Location") uri) as [r2 [e|]] eqn:El; [discriminate|].
  intros H. assert (r2 = r) as -> by congruence. apply set_header_get in El. destruct El as (L & N & B2 & S2).
  exists uri, (escape uri), (escape location), b.
  split; [reflexivity|]. split; [apply escape_shown|]. split; [apply escape_shown|].
  split; [exact Eb|]. split; [congruence|]. split; [congruence|].
  split; [rewrite N by discriminate; exact C | apply L; reflexivity].
Qed.

(** ** The converted location is one line *)
Section one_line.
  Variable idna_part : str -> res str.
  Variable ip_ok nfkc_ok : str -> bool.
  Hypothesis idna_line : forall p e, idna_part p = Ok e -> one_line e.
  Definition no_break (c : N) : Prop := c <> 10 /\ c <> 13.

  Lemma lines s : one_line s <-> forall c, In c s -> no_break c.
  Proof.
    unfold one_line, no_break. split.
    - intros [A B] c Hc. split; intros ->; auto.
    - intros H. split; intros Hc; destruct (H _ Hc); auto.
  Qed.
  Lemma encode_idna_line d e : (forall c, In c d -> no_break c) -> encode_idna idna_part d = Ok e ->
    forall c, In c e -> no_break c.
  Proof.
    unfold encode_idna. intros Hd. destruct (is_ascii d); [intros H; assert (d = e) as <- by congruence; exact Hd|].
    destruct (fold_right _ _ _) as [parts|] eqn:E; cbn [bind]; [|discriminate].
    intros H c Hc. assert (join [46] parts = e) as <- by congruence.
    assert (P : forall x, In x parts -> one_line x).
    { clear Hc H. revert parts E. induction (split_on 46 d) as [|p l IH]; cbn [fold_right]; intros parts E x Hx.
      - assert (parts = []) as -> by congruence. destruct Hx.
      - destruct (fold_right _ _ l) as [l'|] eqn:El; cbn [bind] in E; [|discriminate].
        destruct (idna_part p) as [y|] eqn:Ey; cbn [bind] in E; [|discriminate].
        assert (parts = y :: l') as -> by congruence.
        destruct Hx as [<-|Hx]; [exact (idna_line _ _ Ey) | exact (IH l' eq_refl x Hx)]. }
    pose proof (in_join c [46] parts Hc) as J.
    destruct J as [[<-|[]]|(x & I & I')]; [split; discriminate|].
    apply (proj1 (lines x) (P x I)). exact I'.
  Qed.

  Lemma hostinfo_in nl c : In c (fst (hostinfo nl)) -> In c nl.
  Proof.
    unfold hostinfo.
    set (h := match rsplit1 64 nl with Some (_, h) => h | None => nl end).
    assert (Hh : forall x, In x h -> In x nl).
    { subst h. destruct (rsplit1 64 nl) as [[a b]|] eqn:E; [|auto].
      apply rsplit1_some in E. destruct E as [-> _]. intros x Hx. apply in_or_app. right. right. exact Hx. }
    destruct (split1 91 h) as [[a b]|] eqn:E.
    - apply split1_some in E. destruct E as [E _].
      destruct (partition 93 b) as [x y] eqn:Ep. cbn [fst]. intros Hc. apply Hh. rewrite E.
      apply in_or_app. right. right. apply partition_spec in Ep.
      destruct Ep as [_ [->|[-> _]]]; [apply in_or_app; left|]; exact Hc.
    - destruct (partition 58 h) as [x y] eqn:Ep. cbn [fst]. intros Hc. apply Hh.
      apply partition_spec in Ep.
      destruct Ep as [_ [->|[-> _]]]; [apply in_or_app; left|]; exact Hc.
  Qed.

  Lemma quoted_line safe s q : (forall x, In x safe -> 32 < x) -> In 37 safe -> urlquote safe s = Ok q ->
    forall c, In c q -> no_break c.
  Proof.
    intros B S H c Hc. apply (urlquote_safe _ _ _ S) in H. rewrite forallb_forall in H.
    specialize (H c Hc). unfold no_break. apply quote_safe_spec in H as [H|[H _]];
      [unfold unreserved in H; clear -H; lia | apply B in H; clear -H; lia].
  Qed.
  Lemma dec_line n c : In c (dec n) -> no_break c.
  Proof. intros H. apply digits_in in H. unfold no_break. lia. Qed.
  Lemma big_auth x : In x (lit "/:%") -> 32 < x.
  Proof. change (lit "/:%") with [47; 58; 37]. cbn [In]. lia. Qed.

  Lemma netloc_line nl h : (forall c, In c nl -> no_break c) -> encode_netloc idna_part nl = Ok h ->
    forall c, In c h -> no_break c.
  Proof.
    intros Hnl. unfold encode_netloc.
    destruct (if is_nil (hostname nl) then _ else _) as [host|] eqn:Eh; cbn [bind]; [|discriminate].
    destruct (port nl) as [p|]; cbn [bind]; [|discriminate].
    destruct (convert_auth (urlquote (lit "/:%")) nl) as [auth|] eqn:Ea; cbn [bind]; [|discriminate].
    intros H. assert (make_netloc host p auth = h) as <- by congruence. clear H.
    assert (Hh : forall c, In c host -> no_break c).
    { destruct (is_nil (hostname nl)); [assert (host = []) as -> by congruence; intros c []|].
      destruct (encode_idna idna_part (hostname nl)) as [e|] eqn:Ei; cbn [bind] in Eh; [|discriminate].
      destruct (is_ascii e); [|discriminate]. assert (e = host) as <- by congruence.
      refine (encode_idna_line _ _ _ Ei). intros c Hc. rewrite hostname_eq in Hc.
      split; intros ->; (apply lowered_in in Hc; [|lia]); apply hostinfo_in in Hc; destruct (Hnl _ Hc); auto. }
    assert (S37 : In 37 (lit "/:%")) by (right; right; left; reflexivity).
    assert (Aauth : forall a, auth = Some a -> forall c, In c a -> no_break c).
    { intros a ->. unfold convert_auth in Ea. destruct (userinfo nl) as [[u pw]|]; [|discriminate].
      destruct (is_nil u && is_nil _); [discriminate|].
      destruct (if is_nil u then Ok [] else _) as [u'|] eqn:Eu; cbn [bind] in Ea; [|discriminate].
      assert (Au : forall c, In c u' -> no_break c).
      { destruct (is_nil u); [assert (u' = []) as -> by congruence; intros c []|].
        exact (quoted_line _ _ _ big_auth S37 Eu). }
      set (w := match pw with Some p0 => p0 | None => [] end) in *.
      destruct (is_nil w); [assert (u' = a) as <- by congruence; exact Au|].
      destruct (urlquote (lit "/:%") w) as [p'|] eqn:Ep; cbn [bind] in Ea; [|discriminate].
      assert (u' ++ 58 :: p' = a) as <- by congruence.
      intros c Hc. apply in_app_or in Hc. destruct Hc as [Hc|[<-|Hc]];
        [exact (Au c Hc) | split; discriminate | exact (quoted_line _ _ _ big_auth S37 Ep c Hc)]. }
    unfold make_netloc. set (hb := if mem 58 host then _ else _).
    assert (Ab : forall c, In c hb -> no_break c).
    { subst hb. destruct (mem 58 host); [|exact Hh]. intros c [<-|Hc]; [split; discriminate|].
      apply in_app_or in Hc. destruct Hc as [Hc|[<-|[]]]; [exact (Hh c Hc) | split; discriminate]. }
    assert (Ac : forall c, In c (if p =? 0 then hb else hb ++ 58 :: dec p) -> no_break c).
    { destruct (p =? 0); [exact Ab|]. intros c Hc. apply in_app_or in Hc.
      destruct Hc as [Hc|[<-|Hc]]; [exact (Ab c Hc) | split; discriminate | exact (dec_line p c Hc)]. }
    destruct auth as [a|]; [|exact Ac]. intros c Hc. apply in_app_or in Hc.
    destruct Hc as [Hc|[<-|Hc]]; [exact (Aauth a eq_refl c Hc) | split; discriminate | exact (Ac c Hc)].
  Qed.

  Lemma iri_line iri o : iri_to_uri idna_part ip_ok nfkc_ok iri = Ok o -> one_line o.
  Proof.
    intros H. apply lines. apply iri_to_uri_parts in H as (u & nl & p & q & f & Eu & En & Ep & Eq & Ef & ->).
    apply urlsplit_wf in Eu as [W _].
    assert (An : forall c, In c nl -> no_break c).
    { apply (netloc_line (u_netloc u)); [|exact En]. intros c Hc. apply (wf_netloc u W) in Hc.
      unfold no_break. cbn [In] in Hc. lia. }
    assert (Ap0 := quoted_line _ _ _ big_path s37_path Ep).
    assert (Aq := quoted_line _ _ _ big_query s37_query Eq).
    assert (Af := quoted_line _ _ _ big_fragment s37_fragment Ef).
    assert (As : forall c, In c (u_scheme u) -> no_break c).
    { destruct (wf_scheme u W) as [->|(_ & G & _)]; [intros c []|]. intros c Hc.
      apply (scheme_no_special _ G) in Hc. unfold no_break. lia. }
    rewrite urlunsplit_eq. set (u2 := Split _ _ _ _ _).
    assert (Ap : forall c, In c (fix_path u2) -> no_break c).
    { unfold fix_path. destruct (_ && _ && _); [|exact Ap0]. intros c [<-|Hc]; [split; discriminate | exact (Ap0 c Hc)]. }
    assert (Ab : forall c, In c (ProofIri.body u2) -> no_break c).
    { unfold ProofIri.body. destruct (with_slashes u2); [|exact Ap]. intros c Hc. cbn [app In] in Hc.
      destruct Hc as [<-|[<-|Hc]]; [split; discriminate|split; discriminate|].
      apply in_app_or in Hc as [Hc|Hc]; [exact (An c Hc) | exact (Ap c Hc)]. }
    assert (At : forall c, In c (tail u2) -> no_break c).
    { unfold tail, prefix_if. cbn [u2 u_query u_fragment]. intros c Hc. apply in_app_or in Hc as [Hc|Hc].
      - destruct (is_nil q); [destruct Hc|]. destruct Hc as [<-|Hc]; [split; discriminate | exact (Aq c Hc)].
      - destruct (is_nil f); [destruct Hc|]. destruct Hc as [<-|Hc]; [split; discriminate | exact (Af c Hc)]. }
    intros c Hc. apply in_app_or in Hc as [Hc|Hc]; [|exact (At c Hc)].
    destruct (is_nil (u_scheme u2)); [exact (Ab c Hc)|].
    apply in_app_or in Hc as [Hc|[<-|Hc]]; [exact (As c Hc) | split; discriminate | exact (Ab c Hc)].
  Qed.

  Lemma esc_text s : unicode_text s -> unicode_text (escape s).
  Proof.
    intros H c Hc. rewrite escape_eq in Hc. apply in_flat_map in Hc. destruct Hc as (x & Hx & Hc).
    unfold esc in Hc.
    repeat match type of Hc with In _ (if ?b then _ else _) => destruct b end;
      try (cbn in Hc; lia).
    destruct Hc as [<-|[]]. exact (H x Hx).
  Qed.
  Lemma ascii_unicode s : SpecUrls.ascii_text s -> unicode_text s.
  Proof. intros H c Hc. specialize (H c Hc). lia. Qed.
  Lemma app_text a b : unicode_text a -> unicode_text b -> unicode_text (a ++ b).
  Proof. intros Ha Hb c Hc. apply in_app_or in Hc. destruct Hc; auto. Qed.
  Lemma lit_text s : forallb scalar s = true -> unicode_text s.
  Proof. apply scalar_text. Qed.

  Lemma redirect_total location uri code : unicode_text location ->
    iri_to_uri idna_part ip_ok nfkc_ok location = Ok uri ->
    exists r, redirect idna_part ip_ok nfkc_ok location code = Ok r.
  Proof.
    intros U E. unfold redirect. rewrite E. cbn [bind].
    set (page := redirect_page uri (escape location)).
    assert (P : unicode_text page).
    { unfold page, redirect_page. apply app_text; [apply lit_text; vm_compute; reflexivity|].
      apply app_text; [apply esc_text, ascii_unicode; eapply iri_ascii; eassumption|].
      apply app_text; [apply lit_text; vm_compute; reflexivity|].
      apply app_text; [apply esc_text; exact U|]. apply lit_text; vm_compute; reflexivity. }
    unfold text_response. set (r0 := Response _ _ _ _ _ _ _ _).
    destruct (h_set_one_line (rs_headers r0) (lit "Content-Type") (HStr (get_content_type (lit "text/html") (lit "utf-8"))))
      as (h1 & E1); [split; vm_compute; intuition discriminate|].
    unfold set_header at 1. rewrite E1. unfold set_data. cbn [encode_item].
    unfold utf8_encode. rewrite (proj2 (scalar_text page) P). cbv zeta.
    set (r2 := with_body _ _).
    destruct (rs_autolength r2).
    - destruct (h_set_one_line (rs_headers r2) content_length
         (HStr (zdec (Z.of_nat (length (flat_map utf8_char page)))))) as (h2 & E2); [|].
      { apply zdec_one_line. }
      unfold set_header at 1. rewrite E2.
      unfold set_header. destruct (h_set_one_line (rs_headers (with_headers r2 h2)) (lit "Location") (HStr uri)) as (h3 & E3).
      { exact (iri_line _ _ E). }
      rewrite E3. eauto.
    - unfold set_header. destruct (h_set_one_line (rs_headers r2) (lit "Location") (HStr uri)) as (h3 & E3).
      { exact (iri_line _ _ E). }
      rewrite E3. eauto.
  Qed.
End one_line.

(** ** Redirects to the same path with a slash *)
Lemma quote_head safe c s r : urlquote safe (c :: s) = Ok (47 :: r) -> c = 47.
Proof.
  unfold urlquote, utf8_encode. destruct (forallb scalar (c :: s)); cbn [bind]; [|discriminate].
  intros H. assert (E : quote_bytes safe (flat_map utf8_char (c :: s)) = 47 :: r) by congruence. clear H.
  cbn [flat_map] in E.
  assert (exists x y, utf8_char c = x :: y /\ (x = c \/ 192 <= x)) as (x & y & Ex & Hx).
  { unfold utf8_char. destruct (c <? 128); [eauto|]. destruct (c <? 2048); [eexists; eexists; split; [reflexivity|lia]|].
    destruct (c <? 65536); eexists; eexists; (split; [reflexivity|lia]). }
  rewrite Ex in E. cbn [app] in E.
  change (quote_byte safe x ++ quote_bytes safe (y ++ flat_map utf8_char s) = 47 :: r) in E.
  unfold quote_byte in E. destruct (quote_safe safe x); cbn [app] in E.
  - assert (x = 47) by congruence. lia.
  - discriminate E.
Qed.

Section slash.
  Variable idna_part : str -> res str.
  Variable ip_ok nfkc_ok : str -> bool.

  (** a relative path, a slash, and perhaps a query *)
  Lemma relative_iri P t o :
    (forall c, In c P -> 32 < c /\ c <> 58) -> (forall r, P <> 47 :: r) -> (t = [] \/ exists q, t = 63 :: q) ->
    iri_to_uri idna_part ip_ok nfkc_ok (P ++ 47 :: t) = Ok o -> same_server o.
  Proof.
    intros HP Hr Ht H. apply iri_to_uri_parts in H as (u & nl & p & q & f & Eu & En & Ep & Eq & Ef & ->).
    unfold urlsplit in Eu. cbv zeta in Eu.
    assert (Hc : exists t', url_clean (P ++ 47 :: t) = P ++ 47 :: t' /\ (t' = [] \/ exists q', t' = 63 :: q')).
    { exists (filter (fun c => negb (mem c [9; 13; 10])) t). split.
      - unfold url_clean. assert (L : lstrip_by (fun c => c <=? 32) (P ++ 47 :: t) = P ++ 47 :: t).
        { destruct P as [|c P]; [reflexivity|]. cbn [app lstrip_by]. destruct (HP c (or_introl eq_refl)).
          replace (c <=? 32) with false by lia. reflexivity. }
        rewrite L, filter_app. f_equal.
        clear -HP. induction P as [|c P IH]; [reflexivity|]. cbn [filter].
        assert (M : mem c [9; 13; 10] = false).
        { apply mem_not_In. destruct (HP c (or_introl eq_refl)). cbn [In]. lia. }
        rewrite M. cbn [negb]. f_equal. apply IH. intros x Hx. apply HP. right. exact Hx.
      - destruct Ht as [->|[q' ->]]; [left; reflexivity|]. right. cbn [filter]. eexists. reflexivity. }
    destruct Hc as (t' & Ec & Ht'). rewrite Ec in Eu.
    assert (Es : split_scheme (P ++ 47 :: t') = ([], P ++ 47 :: t')).
    { apply split_scheme_none. intros (a & b & E & _ & Hs). apply split1_some in E as [E Hn].
      assert (In 47 a).
      { clear -E HP Hn. revert a E Hn. induction P as [|c P IH]; intros a E Hn; destruct a as [|x a]; cbn [app] in E.
        - discriminate E.
        - left. congruence.
        - assert (c = 58) by congruence. destruct (HP c (or_introl eq_refl)). congruence.
        - right. apply IH; [intros y Hy; apply HP; right; exact Hy| congruence |]. intros Hy. apply Hn. right. exact Hy. }
      rewrite forallb_forall in Hs. specialize (Hs 47 H). discriminate Hs. }
    rewrite Es in Eu.
    assert (E2 : starts [47; 47] (P ++ 47 :: t') = false).
    { destruct P as [|c P].
      - destruct Ht' as [->|[q' ->]]; reflexivity.
      - cbn [app starts]. destruct (47 =? c) eqn:E; [|reflexivity]. apply N.eqb_eq in E. subst c.
        destruct (Hr P eq_refl). }
    rewrite E2 in Eu.
    destruct (partition 35 (P ++ 47 :: t')) as [u1 fr] eqn:E35.
    destruct (partition 63 u1) as [path qu] eqn:E63.
    cbn [bracket_ok mem existsb negb is_ascii forallb andb orb] in Eu.
    change (bracket_ok ip_ok [] && (is_ascii [] || nfkc_ok [])) with true in Eu. cbv iota in Eu.
    assert (u = Split [] [] path qu fr) as -> by congruence. clear Eu.
    cbn [u_netloc u_path u_query u_fragment u_scheme] in *.
    assert (nl = []) as -> by (unfold encode_netloc in En; cbn in En; congruence).
    apply partition_spec in E35 as [_ E35]. apply partition_spec in E63 as [N63 E63].
    assert (Pre : exists rest, P ++ [47] = path ++ rest).
    { assert (exists z, P ++ 47 :: t' = path ++ z) as [z Z].
      { destruct E35 as [->|[-> _]]; destruct E63 as [->|[-> _]]; rewrite <- ?app_assoc; eauto.
        exists []. rewrite app_nil_r. reflexivity. }
      destruct Ht' as [->|[q' ->]]; [exists z; exact Z|].
      change (P ++ 47 :: 63 :: q') with (P ++ [47] ++ 63 :: q') in Z. rewrite app_assoc in Z.
      clear -Z N63. revert Z N63. generalize (P ++ [47]). induction path as [|x path IH]; intros l Z N63.
      - exists l. reflexivity.
      - destruct l as [|y l]; cbn [app] in Z.
        + destruct N63. left. congruence.
        + destruct (IH l) as [rest E]; [congruence | intros Hx; apply N63; right; exact Hx |].
          exists rest. cbn [app]. rewrite E. congruence. }
    destruct Pre as [rest Pre].
    assert (C58 : ~ In 58 p).
    { intros Hi. assert (Hi2 : In 58 path).
      { refine (urlquote_in _ _ _ _ Ep Hi _ _ _ _); lia. }
      assert (In 58 (P ++ [47])) as Hi3 by (rewrite Pre; apply in_or_app; left; exact Hi2).
      apply in_app_or in Hi3. destruct Hi3 as [Hi3|[Hi3|[]]]; [|discriminate Hi3].
      destruct (HP _ Hi3). congruence. }
    assert (Sl : forall r, p <> 47 :: 47 :: r).
    { intros r ->. destruct path as [|c path].
      - vm_compute in Ep. discriminate Ep.
      - pose proof (quote_head _ _ _ _ Ep). subst c.
        destruct P as [|c P]; cbn [app] in Pre.
        + destruct path as [|x path]; [|destruct path; discriminate Pre]. vm_compute in Ep. discriminate Ep.
        + apply (Hr P). congruence. }
    assert (Ws : with_slashes (Split [] [] p q f) = false).
    { unfold with_slashes. cbn [u_netloc u_scheme u_path is_nil negb andb orb].
      destruct p as [|a [|b p]]; [reflexivity| |].
      - cbn [starts]. destruct (47 =? a); reflexivity.
      - cbn [starts]. destruct (47 =? a) eqn:Ea; [|reflexivity]. destruct (47 =? b) eqn:Eb; [|reflexivity].
        apply N.eqb_eq in Ea, Eb. subst. destruct (Sl p eq_refl). }
    rewrite urlunsplit_eq. cbn [u_scheme is_nil]. unfold ProofIri.body, fix_path. rewrite Ws. cbn [andb u_path].
    set (w := Split [] [] p q f).
    pose proof (tail_shape w) as Tw. generalize (tail w) Tw. clear -C58 Sl. intros tl Tw. split.
    - intros r E. destruct p as [|a [|b p]]; cbn [app] in E.
      + destruct Tw as [->|[x [->| ->]]]; discriminate E.
      + destruct Tw as [->|[x [->| ->]]]; discriminate E.
      + apply (Sl p). congruence.
    - clear Sl. intros a b E. revert a E. induction p as [|x p IH]; intros a E; cbn [app] in E.
      + destruct Tw as [->|[y [->| ->]]]; [destruct a; discriminate E| |];
          (destruct a as [|z a]; [discriminate E|]); cbn [app] in E.
        * right. left. left. congruence.
        * right. right. left. congruence.
      + destruct a as [|z a]; cbn [app] in E.
        * destruct C58. left. congruence.
        * assert (E' : p ++ tl = a ++ 58 :: b) by congruence.
          destruct (IH (fun Hx => C58 (or_intror Hx)) a E') as [I|[I|I]]; cbn [In]; auto.
  Qed.

  Lemma lstrip_head c s r : lstrip_by (N.eqb c) s <> c :: r.
  Proof.
    induction s as [|x s IH]; cbn [lstrip_by]; [discriminate|].
    destruct (c =? x) eqn:E; [exact IH|]. intros H. assert (x = c) by congruence. lia.
  Qed.
  Lemma lstrip_in p s x : In x (lstrip_by p s) -> In x s.
  Proof.
    induction s as [|y s IH]; cbn [lstrip_by]; [auto|]. destruct (p y); [|auto]. intros H. right. auto.
  Qed.
  Lemma strip_no_head c s r : strip_by (N.eqb c) s <> c :: r.
  Proof.
    unfold strip_by, rstrip_by. set (l := lstrip_by (N.eqb c) s). intros H.
    destruct (rstrip_by_spec (N.eqb c) l) as (z & P & _). unfold rstrip_by in P. rewrite H in P.
    exact (lstrip_head c s (r ++ z) P).
  Qed.
  Lemma strip_in p s x : In x (strip_by p s) -> In x s.
  Proof.
    unfold strip_by, rstrip_by. rewrite <- in_rev. intros H. apply lstrip_in in H. rewrite <- in_rev in H.
    exact (lstrip_in _ _ _ H).
  Qed.

  Lemma slash_same_server environ code r path :
    append_slash_redirect idna_part ip_ok nfkc_ok environ code = Ok r ->
    dget environ (lit "PATH_INFO") = Some path -> (forall c, In c path -> 32 < c /\ c <> 58) ->
    exists uri, h_getlist (rs_headers r) (lit "Location") = [uri] /\ same_server uri.
  Proof.
    unfold append_slash_redirect. intros H E HP. rewrite E in H.
    apply redirect_spec in H as (uri & e1 & e2 & b & Ei & _ & _ & _ & _ & _ & _ & L).
    exists uri. split; [exact L|].
    assert (S : exists t, slash_path path (dget environ (lit "QUERY_STRING")) = strip_by (N.eqb 47) path ++ 47 :: t
                          /\ (t = [] \/ exists q, t = 63 :: q)).
    { unfold slash_path. destruct (dget environ (lit "QUERY_STRING")) as [[|x q]|].
      - exists []. auto.
      - exists (63 :: x :: q). split; [rewrite <- app_assoc; reflexivity | right; eauto].
      - exists []. auto. }
    destruct S as (t & S & Ht). rewrite S in Ei.
    refine (relative_iri _ _ _ _ _ Ht Ei).
    - intros c Hc. apply HP. exact (strip_in _ _ _ Hc).
    - intros x. apply strip_no_head.
  Qed.
End slash.

(** ** Cached properties *)
Section cached_facts.
  Context {V : Type}.
  Variable func : str -> nat -> res V.

  Lemma c_run_app o a b : c_run func o (a ++ b) =
    (fst (c_run func (fst (c_run func o a)) b), snd (c_run func o a) ++ snd (c_run func (fst (c_run func o a)) b)).
  Proof.
    revert o. induction a as [|x a IH]; intros o; cbn [app c_run fst snd].
    - destruct (c_run func o b); reflexivity.
    - destruct (c_step func o x) as [o1 e]. rewrite IH.
      destruct (c_run func o1 a) as [o2 es]. cbn [fst snd]. reflexivity.
  Qed.

  Definition reflects (o : cobj V) (es : list (cev V)) : Prop :=
    c_calls o = calls es /\
    forall p, match dget (c_dict o) p with Some v => last_given p v es | None => never_given p es end.

  Lemma calls_app (a b : list (cev V)) : calls (a ++ b) = (calls a + calls b)%nat.
  Proof. unfold calls. rewrite filter_app, app_length. reflexivity. Qed.
  Lemma last_given_new p v e (es : list (cev V)) : gives p v e -> last_given p v (es ++ [e]).
  Proof. intros H. exists es, e, []. split; [reflexivity|]. split; [exact H|]. intros e' v' []. Qed.
  Lemma last_given_old p v e (es : list (cev V)) : (forall v', ~ gives p v' e) ->
    last_given p v es -> last_given p v (es ++ [e]).
  Proof.
    intros H (a & x & b & -> & G & N). exists a, x, (b ++ [e]). split; [rewrite <- app_assoc; reflexivity|].
    split; [exact G|]. intros e' v' Hi. apply in_app_or in Hi. destruct Hi as [Hi|[<-|[]]]; [exact (N e' v' Hi)|apply H].
  Qed.
  Lemma never_given_old p e (es : list (cev V)) : (forall v', ~ gives p v' e) ->
    never_given p es -> never_given p (es ++ [e]).
  Proof.
    intros H N e' v' Hi. apply in_app_or in Hi. destruct Hi as [Hi|[<-|[]]]; [exact (N e' v' Hi)|apply H].
  Qed.
  Lemma keep_reflects p (d : dict V) (es : list (cev V)) e :
    (forall v', ~ gives p v' e) ->
    match dget d p with Some v => last_given p v es | None => never_given p es end ->
    match dget d p with Some v => last_given p v (es ++ [e]) | None => never_given p (es ++ [e]) end.
  Proof. intros H. destruct (dget d p); [apply last_given_old|apply never_given_old]; exact H. Qed.

  Lemma c_step_reflects o op es : reflects o es ->
    reflects (fst (c_step func o op)) (es ++ [snd (c_step func o op)]).
  Proof.
    intros [C R]. destruct op as [p|p v|p]; cbn [c_step].
    - pose proof (R p) as Rp. destruct (dget (c_dict o) p) as [v|] eqn:E; cbn [fst snd].
      + split; [rewrite calls_app, C; cbn [calls filter length]; unfold calls; cbn; lia|].
        intros p'. apply keep_reflects; [|apply R]. intros v' [H|H]; discriminate H.
      + destruct (func p (c_calls o)) as [v|x] eqn:F; cbn [fst snd c_calls c_dict].
        * split; [rewrite calls_app, C; unfold calls; cbn; lia|]. intros p'. cbn [c_dict].
          destruct (list_eq_dec N.eq_dec p' p) as [->|Ne].
          -- rewrite (dget_dset_eq (c_dict o)). apply last_given_new. right. reflexivity.
          -- rewrite dget_dset_neq by congruence. apply keep_reflects; [|apply R].
             intros v' [H|H]; [discriminate H|]. congruence.
        * split; [rewrite calls_app, C; unfold calls; cbn; lia|]. intros p'.
          apply keep_reflects; [|apply R]. intros v' [H|H]; discriminate H.
    - cbn [fst snd c_calls c_dict]. split; [rewrite calls_app, C; unfold calls; cbn; lia|]. intros p'. cbn [c_dict].
      destruct (list_eq_dec N.eq_dec p' p) as [->|Ne].
      + rewrite (dget_dset_eq (c_dict o)). apply last_given_new. left. reflexivity.
      + rewrite dget_dset_neq by congruence. apply keep_reflects; [|apply R].
        intros v' [H|H]; [|discriminate H]. congruence.
    - cbn [fst snd]. split; [rewrite calls_app, C; unfold calls; cbn; lia|]. intros p'.
      apply keep_reflects; [|apply R]. intros v' [H|H]; discriminate H.
  Qed.
  Lemma c_run_reflects ops o es : reflects o es ->
    reflects (fst (c_run func o ops)) (es ++ snd (c_run func o ops)).
  Proof.
    revert o es. induction ops as [|op ops IH]; intros o es R; cbn [c_run].
    - cbn [fst snd]. rewrite app_nil_r. exact R.
    - pose proof (c_step_reflects o op es R) as R1. destruct (c_step func o op) as [o1 e]. cbn [fst snd] in R1.
      specialize (IH o1 _ R1). destruct (c_run func o1 ops) as [o2 es2]. cbn [fst snd] in *.
      rewrite <- app_assoc in IH. exact IH.
  Qed.

  Lemma cached_read ops : let '(o, es) := c_run func (mk_cobj [] 0) ops in
    forall p,
      (forall v, last_given p v es -> snd (c_step func o (CRead p)) = ERead p (Ok v) false) /\
      (never_given p es -> snd (c_step func o (CRead p)) = ERead p (func p (calls es)) true).
  Proof.
    assert (R0 : reflects (mk_cobj [] 0) []).
    { split; [reflexivity|]. intros p. cbn. intros e v []. }
    pose proof (c_run_reflects ops _ _ R0) as R. destruct (c_run func (mk_cobj [] 0) ops) as [o es].
    cbn [fst snd app] in R. destruct R as [C R]. intros p. specialize (R p). cbn [c_step]. split.
    - intros v L. destruct (dget (c_dict o) p) as [w|] eqn:E; cbn [snd].
      + f_equal. f_equal. destruct L as (a & x & b & E1 & G & N). destruct R as (a' & x' & b' & E1' & G' & N').
        assert (Gen : forall l (a a' b b' : list (cev V)) x x', l = a ++ x :: b -> l = a' ++ x' :: b' -> gives p v x -> gives p w x' ->
           (forall e' v', In e' b -> ~ gives p v' e') -> (forall e' v', In e' b' -> ~ gives p v' e') -> w = v).
        { clear. induction l as [|y l IH]; intros a a' b b' x x' E1 E2 G G' N N'; [destruct a; discriminate E1|].
          destruct a as [|z a]; destruct a' as [|z' a']; cbn [app] in E1, E2.
          - assert (x = x') by congruence. subst x'. destruct G as [->| ->]; destruct G' as [G'|G']; congruence.
          - exfalso. apply (N x' w); [|exact G']. assert (l = b) as <- by congruence.
            assert (l = a' ++ x' :: b') as -> by congruence. apply in_or_app. right. left. reflexivity.
          - exfalso. apply (N' x v); [|exact G]. assert (l = b') as <- by congruence.
            assert (l = a ++ x :: b) as -> by congruence. apply in_or_app. right. left. reflexivity.
          - apply (IH a a' b b' x x'); auto; congruence. }
        exact (Gen es a a' b b' x x' E1 E1' G G' N N').
      + destruct L as (a & x & b & -> & G & _). destruct (R x v); [|exact G]. apply in_or_app. right. left. reflexivity.
    - intros N. destruct (dget (c_dict o) p) as [w|] eqn:E.
      + destruct R as (a & x & b & -> & G & _). destruct (N x w); [|exact G]. apply in_or_app. right. left. reflexivity.
      + rewrite <- C. destruct (func p (c_calls o)); reflexivity.
  Qed.

  Lemma c_run_at ops : forall o pre e post, snd (c_run func o ops) = pre ++ e :: post ->
    exists oa op ob, ops = oa ++ op :: ob /\ snd (c_run func o oa) = pre /\
      snd (c_step func (fst (c_run func o oa)) op) = e.
  Proof.
    induction ops as [|op ops IH]; intros o pre e post H; cbn [c_run] in H; [destruct pre; discriminate H|].
    destruct (c_step func o op) as [o1 e1] eqn:E1. destruct (c_run func o1 ops) as [o2 es] eqn:E2. cbn [snd] in H.
    destruct pre as [|x pre]; cbn [app] in H.
    - exists [], op, ops. cbn [c_run fst snd app]. split; [reflexivity|]. split; [reflexivity|]. rewrite E1. cbn. congruence.
    - assert (es = pre ++ e :: post) as H' by congruence.
      assert (H2 : snd (c_run func o1 ops) = pre ++ e :: post) by (rewrite E2; exact H').
      destruct (IH o1 pre e post H2) as (oa & op' & ob & -> & A & B).
      exists (op :: oa), op', ob. cbn [app c_run]. rewrite E1. destruct (c_run func o1 oa) as [o3 es3].
      cbn [fst snd] in *. split; [reflexivity|]. split; [congruence | exact B].
  Qed.
  Lemma cached_called ops pre p r post : snd (c_run func (mk_cobj [] 0) ops) = pre ++ ERead p r true :: post ->
    never_given p pre /\ r = func p (calls pre).
  Proof.
    intros H. apply c_run_at in H. destruct H as (oa & op & ob & -> & A & B).
    assert (R0 : reflects (mk_cobj [] 0) []).
    { split; [reflexivity|]. intros q. cbn. intros e v []. }
    pose proof (c_run_reflects oa _ _ R0) as R. cbn [app] in R. rewrite A in R.
    set (o := fst (c_run func (mk_cobj [] 0) oa)) in *. destruct R as [C R].
    destruct op as [q|q v|q]; cbn [c_step] in B; try discriminate B.
    specialize (R q). destruct (dget (c_dict o) q) as [w|] eqn:E; [discriminate B|].
    rewrite <- C. destruct (func q (c_calls o)) as [v|x] eqn:F; cbn [snd] in B.
    - assert (q = p) by congruence. subst q. split; [exact R|congruence].
    - assert (q = p) by congruence. subst q. split; [exact R|congruence].
  Qed.
  Lemma cached_delete o p : c_step func o (CDelete p) = (o, EDelete p (Some AttributeError)).
  Proof. reflexivity. Qed.
End cached_facts.

(** ** Header properties *)
Lemma absent_without k l : absent k l -> without k l l.
Proof. induction l as [|kv l IH]; intros H; [constructor|]. inversion H; subst. apply wo_keep; auto. Qed.
Section header_facts.
  Context {V : Type}.
  Variable p : hprop V.
  Lemma h_set_effect l k v h : h_set l k v [] = Ok h -> set_effect k (text v) l h.
  Proof.
    intros H. pose proof (step_spec l (HSetItem k v)) as S. cbn [h_step] in S. rewrite H in S. cbn [keep fst snd] in S.
    inversion S; subst. assumption.
  Qed.
  Lemma hp_get_value h t : h_getlist h (p_name p) = [t] ->
    hp_get p h = match p_load p t with Some w => w | None => p_default p end.
  Proof.
    intros H. unfold hp_get. assert (E : h_getitem h (p_name p) = Ok t).
    { apply getitem_ok. exists []. rewrite <- H. apply values_of_filter. }
    rewrite E. reflexivity.
  Qed.
  Lemma hp_get_absent h : absent (p_name p) h -> hp_get p h = p_default p.
  Proof. intros H. unfold hp_get. apply getitem_missing in H. rewrite H. reflexivity. Qed.
  Lemma hp_set_ok h v h' : hp_set p h v = (h', None) ->
    p_read_only p = false /\
    exists x, p_dump p v = Ok x /\ set_effect (p_name p) (text x) h h' /\
      hp_get p h' = match p_load p (text x) with Some w => w | None => p_default p end.
  Proof.
    unfold hp_set. destruct (p_read_only p); [discriminate|]. destruct (p_dump p v) as [x|e]; [|discriminate].
    destruct (h_set h (p_name p) x []) as [h1|e] eqn:E; cbn [keep]; [|discriminate].
    intros H. assert (h1 = h') as -> by congruence. split; [reflexivity|]. exists x. split; [reflexivity|].
    split; [exact (h_set_effect _ _ _ _ E)|]. apply hp_get_value. destruct (h_set_get _ _ _ _ E) as [G _]. apply G. reflexivity.
  Qed.
  Lemma hp_set_total h v x : p_read_only p = false -> p_dump p v = Ok x -> one_line (text x) ->
    exists h', hp_set p h v = (h', None).
  Proof.
    intros R D L. unfold hp_set. rewrite R, D. destruct (h_set_one_line h (p_name p) x L) as [h' E].
    rewrite E. exists h'. reflexivity.
  Qed.
  Lemma hp_set_bad h v h' e : hp_set p h v = (h', Some e) -> h' = h.
  Proof.
    unfold hp_set. destruct (p_read_only p); [congruence|]. destruct (p_dump p v) as [x|e']; [|congruence].
    destruct (h_set h (p_name p) x []); cbn [keep]; congruence.
  Qed.
  Lemma hp_delete_ok h : p_read_only p = false ->
    exists h', hp_delete p h = (h', None) /\ without (p_name p) h h' /\ hp_get p h' = p_default p.
  Proof.
    intros R. unfold hp_delete. rewrite R.
    pose proof (step_spec h (HPop (p_name p) true)) as S. cbn [h_step] in S.
    destruct (keep h (h_pop_name h (p_name p) true)) as [h' e]. cbn [fst snd] in S. inversion S; subst.
    - exists h'. split; [reflexivity|]. split; [assumption|]. apply hp_get_absent. eapply without_absent; eassumption.
    - exists h'. split; [reflexivity|]. split; [|apply hp_get_absent; assumption].
      apply absent_without; assumption.
  Qed.
  Lemma hp_read_only h v : p_read_only p = true ->
    hp_set p h v = (h, Some AttributeError) /\ hp_delete p h = (h, Some AttributeError).
  Proof. intros R. unfold hp_set, hp_delete. rewrite R. auto. Qed.
End header_facts.

Lemma content_length_round h z : exists h', hp_set content_length_property h (Some z) = (h', None) /\
  hp_get content_length_property h' = Some z.
Proof.
  destruct (hp_set_total content_length_property h (Some z) (HStr (zdec z)) eq_refl eq_refl (zdec_one_line z)) as [h' E].
  exists h'. split; [exact E|]. apply hp_set_ok in E. destruct E as (_ & x & D & _ & G). rewrite G.
  cbn in D. assert (x = HStr (zdec z)) as -> by congruence. cbn [text content_length_property p_load].
  rewrite py_int_zdec. reflexivity.
Qed.

(** ** Tables of exceptions *)
Lemma zget_in {A} (d : list (Z * A)) k a : zget d k = Some a -> In (k, a) d.
Proof.
  induction d as [|[k' b] d IH]; cbn [zget]; [discriminate|]. destruct (k =? k')%Z eqn:E; intros H.
  - left. apply Z.eqb_eq in E. congruence.
  - right. auto.
Qed.
Lemma zget_none {A} (d : list (Z * A)) k : zget d k = None -> forall a, ~ In (k, a) d.
Proof.
  induction d as [|[k' b] d IH]; cbn [zget]; intros H a; [intros []|]. destruct (k =? k')%Z eqn:E; [discriminate|].
  apply Z.eqb_neq in E. intros [H1|H1]; [congruence|]. exact (IH H a H1).
Qed.
Lemma in_zget {A} (d : list (Z * A)) k a : is_dict d -> In (k, a) d -> zget d k = Some a.
Proof.
  unfold is_dict. induction d as [|[k' b] d IH]; cbn [zget map fst]; intros N H; [destruct H|]. inversion N; subst.
  destruct H as [H|H].
  - assert (k' = k) by congruence. assert (b = a) by congruence. subst. rewrite Z.eqb_refl. reflexivity.
  - destruct (k =? k')%Z eqn:E; [|auto]. apply Z.eqb_eq in E. subst k'. exfalso. apply H2.
    change k with (fst (k, a)). apply in_map. exact H.
Qed.
Lemma zget_zset {A} (d : list (Z * A)) k a k' : zget (zset d k a) k' = if (k' =? k)%Z then Some a else zget d k'.
Proof.
  induction d as [|[x b] d IH]; cbn [zset zget]; [reflexivity|].
  destruct (k =? x)%Z eqn:E; cbn [zget].
  - apply Z.eqb_eq in E. subst x. destruct (k' =? k)%Z; reflexivity.
  - rewrite IH. destruct (k' =? x)%Z eqn:E2; [|reflexivity]. apply Z.eqb_eq in E2. subst x.
    rewrite Z.eqb_sym, E. reflexivity.
Qed.
Lemma find_get l d k :
  zget (find_exceptions l d) k = zget d k \/
  exists c, zget (find_exceptions l d) k = Some c /\ In c l /\ k_code c = Some k.
Proof.
  revert d. induction l as [|c l IH]; intros d; cbn [find_exceptions]; [auto|].
  assert (W : forall d', (zget (find_exceptions l d') k = zget d' k \/
       exists c0, zget (find_exceptions l d') k = Some c0 /\ In c0 l /\ k_code c0 = Some k)) by (intros; apply IH).
  assert (New : forall code, k_code c = Some code ->
     zget (find_exceptions l (zset d code c)) k = zget d k \/
     exists c0, zget (find_exceptions l (zset d code c)) k = Some c0 /\ In c0 (c :: l) /\ k_code c0 = Some k).
  { intros code Hc. destruct (W (zset d code c)) as [E|(c0 & E & I & K)].
    - rewrite E, zget_zset. destruct (k =? code)%Z eqn:Ek; [|auto]. apply Z.eqb_eq in Ek. subst code.
      right. exists c. split; [reflexivity|]. split; [left; reflexivity|exact Hc].
    - right. exists c0. split; [exact E|]. split; [right; exact I|exact K]. }
  assert (Old : zget (find_exceptions l d) k = zget d k \/
     exists c0, zget (find_exceptions l d) k = Some c0 /\ In c0 (c :: l) /\ k_code c0 = Some k).
  { destruct (W d) as [E|(c0 & E & I & K)]; [auto|]. right. exists c0. split; [exact E|]. split; [right; exact I|exact K]. }
  destruct (k_code c) as [code|] eqn:Ec; [|exact Old].
  destruct (zget d code) as [old|]; [destruct (subclass c old); [exact Old|]|]; exact (New code eq_refl).
Qed.
Lemma find_mono l d k : zget d k <> None -> zget (find_exceptions l d) k <> None.
Proof. intros H. destruct (find_get l d k) as [->|(c & -> & _)]; [exact H|discriminate]. Qed.
Lemma find_covers l d c k : In c l -> k_code c = Some k -> zget (find_exceptions l d) k <> None.
Proof.
  revert d. induction l as [|x l IH]; intros d I K; [destruct I|]. destruct I as [->|H]; cbn [find_exceptions].
  - rewrite K. destruct (zget d k) as [old|] eqn:E.
    + destruct (subclass c old); apply find_mono; [rewrite E; discriminate|].
      rewrite zget_zset, Z.eqb_refl. discriminate.
    + apply find_mono. rewrite zget_zset, Z.eqb_refl. discriminate.
  - destruct (k_code x) as [code|]; [|auto]. destruct (zget d code) as [old|]; [destruct (subclass x old)|]; auto.
Qed.

Lemma update_get {A} (x : list (Z * A)) m k : is_dict x ->
  zget (fold_left (fun d kv => zset d (fst kv) (snd kv)) x m) k =
  match zget x k with Some a => Some a | None => zget m k end.
Proof.
  revert m. induction x as [|[k' a] x IH]; intros m N; cbn [fold_left zget fst snd]; [reflexivity|].
  inversion N; subst. rewrite IH by assumption. rewrite zget_zset.
  destruct (k =? k')%Z eqn:E; [|reflexivity]. apply Z.eqb_eq in E. subst k'.
  destruct (zget x k) as [b|] eqn:Eb; [|reflexivity]. exfalso. apply zget_in in Eb. apply H1.
  change k with (fst (k, b)). apply in_map. exact Eb.
Qed.
