(** Proofs about making responses and writing to their streams. *)
From Coq Require Import Arith List NArith ZArith Bool Lia ZifyBool ZifyN ZifyNat.
From Verif Require Import PyStr PyStrFacts Utf8 ModelQuote ModelHeaders SpecHeaders ProofHeaders ModelEtag SpecEtag ProofEtag
  ModelUtils ModelResponse SpecResponse ProofResponse ModelMirror SpecMirror ProofMirror ModelRespond SpecRespond.
From Verif Require ModelTest SpecTest ProofTest.
Import ListNotations.
Open Scope N_scope.
Ltac inv H := inversion H; subst; clear H.

(** ** Types *)
Lemma starts_spec p : forall s, starts p s = true <-> exists r, s = p ++ r.
Proof.
  induction p as [|c p IH]; intros s.
  - split; [intros _; exists s; reflexivity|]. intros _. destruct s; reflexivity.
  - destruct s as [|d s]; cbn [starts]; [split; [discriminate|intros (r & E); discriminate]|].
    rewrite andb_true_iff, N.eqb_eq, IH. split.
    + intros (-> & r & ->). exists r. reflexivity.
    + intros (r & E). injection E as -> ->. split; [reflexivity|]. exists r. reflexivity.
Qed.
Lemma ends_spec p s : ends p s = true <-> exists b, s = b ++ p.
Proof.
  unfold ends. rewrite starts_spec. split; intros (r & E).
  - exists (rev r). rewrite <- (rev_involutive s), E, rev_app_distr, rev_involutive. reflexivity.
  - exists (rev r). rewrite E, rev_app_distr. reflexivity.
Qed.
Lemma content_type_announced m : announced m (get_content_type m (lit "utf-8")).
Proof.
  unfold announced, get_content_type.
  destruct (starts (lit "text/") m || eqs m (lit "application/xml") || (starts (lit "application/") m && ends (lit "+xml") m)) eqn:E.
  - left. split; [|reflexivity]. unfold textual. rewrite !orb_true_iff, andb_true_iff, !starts_spec, ends_spec, eqs_eq in E.
    destruct E as [[E|E]|[(x & E1) E2]]; eauto.
  - right. split; [|reflexivity]. rewrite !orb_false_iff, andb_false_iff in E. destruct E as [[E1 E2] E3].
    intros [K|[K|(x & K1 & K2)]].
    + apply starts_spec in K. congruence.
    + subst m. discriminate E2.
    + assert (starts (lit "application/") m = true) by (apply starts_spec; eauto).
      assert (ends (lit "+xml") m = true) by (apply ends_spec; eauto). destruct E3; congruence.
Qed.
Lemma contains_absent h k : h_contains h k = false <-> absent k h.
Proof.
  pose proof (contains_spec h k) as C. split; intros H.
  - destruct (ProofHeaders.getitem_cases h k) as [[v E]|E].
    + unfold h_contains in H. rewrite E in H. discriminate H.
    + apply getitem_missing. exact E.
  - destruct (h_contains h k); [|reflexivity]. exfalso. apply C; auto.
Qed.
Lemma absent_lower h : absent (lit "content-type") h <-> absent (lit "Content-Type") h.
Proof. unfold absent, same_name. change (lower (lit "content-type")) with (lower (lit "Content-Type")). reflexivity. Qed.
Lemma type_typed c a : typed c a (type_to_set c a).
Proof.
  unfold type_to_set. destruct (ra_content_type a) as [t|] eqn:T; [apply ty_given; exact T|].
  destruct (ra_mimetype a) as [m|] eqn:M; [eapply ty_mimetype; eauto using content_type_announced|].
  destruct (h_contains _ _) eqn:C.
  - apply ty_kept; auto. rewrite <- absent_lower. apply contains_spec, C.
  - apply contains_absent, absent_lower in C. destruct (cl_mimetype c) as [m|] eqn:D.
    + eapply ty_default; eauto using content_type_announced.
    + apply ty_none; auto.
Qed.

(** ** The constructor *)
Lemma numbered_set old s z : numbered s z -> set_status old s = (Status s z, None).
Proof.
  intros (a & w & b & -> & Ba & Fw & Hb & P). unfold set_status. rewrite first_word_app; auto.
  - rewrite P. reflexivity.
  - intros ->. discriminate P.
Qed.
Definition header_stage (c : rclass) (a : rargs) : res headers :=
  match type_to_set c a with
  | Some t => h_set (ra_headers a) (lit "Content-Type") (HStr t) []
  | None => Ok (ra_headers a)
  end.
Lemma header_stage_spec c a h : header_stage c a = Ok h ->
  match type_to_set c a with
  | Some t => one_line t /\ set_effect (lit "Content-Type") t (ra_headers a) h /\ h_getlist h (lit "Content-Type") = [t]
              /\ others_kept (lit "Content-Type") (ra_headers a) h
  | None => h = ra_headers a
  end.
Proof.
  unfold header_stage. destruct (type_to_set c a) as [t|]; [|intros [=]; auto]. intros E.
  assert (L : one_line t).
  { unfold h_set in E. rewrite stored_nil in E. cbn [text] in E. destruct (validate_value t) eqn:V; [|discriminate]. apply validate_spec, V. }
  destruct (keep_set (ra_headers a) (lit "Content-Type") t L) as (h2 & _ & E2 & S & G & _ & O). rewrite E in E2. injection E2 as ->. auto.
Qed.
Lemma kept_values name h h' : others_kept name h h' -> forall k vs, ~ same_name k name -> values_of k h vs -> values_of k h' vs.
Proof.
  intros O k vs N V. rewrite <- (getlist_char _ _ _ V), <- (O k N). apply values_of_filter.
Qed.
Lemma set_data_spec r i r' : set_data r i = (r', None) ->
  exists b, bytes_of i b /\ rs_body r' = BSeq [IBytes b] /\ rs_status r' = rs_status r /\ rs_passthrough r' = rs_passthrough r
    /\ rs_on_close r' = rs_on_close r /\ same_settings r r'
    /\ (if rs_autolength r then h_getlist (rs_headers r') (lit "Content-Length") = [zdec (Z.of_nat (length b))]
           /\ others_kept (lit "Content-Length") (rs_headers r) (rs_headers r')
        else rs_headers r' = rs_headers r).
Proof.
  unfold set_data. destruct (encode_item i) as [b|] eqn:E; [|discriminate]. intros H.
  exists b. split; [destruct i; cbn in E |- *; [exact E|injection E as ->; reflexivity]|].
  cbn [with_body rs_autolength] in H. destruct (rs_autolength r) eqn:A.
  - unfold set_header in H.
    destruct (keep_set (rs_headers r) content_length (zdec (Z.of_nat (length b))) (zdec_one_line _)) as (h2 & _ & E2 & _ & G & _ & O).
    cbn [with_body rs_headers] in H. rewrite E2 in H. injection H as <-. cbn. repeat split; auto.
  - injection H as <-. cbn. repeat split; auto.
Qed.
Lemma made c a r : new_response c a = Ok r ->
  exists h st, header_stage c a = Ok h
  /\ match ra_status a with
     | SNone => st = set_status_code (cl_status c)
     | SCode z => st = set_status_code z
     | SLine s => set_status (Status [] 0) s = (st, None)
     end
  /\ rs_status r = st
  /\ match ra_body a with
     | ANone => r = Response h st (BSeq []) (ra_passthrough a) [] (cl_implicit c) (cl_autolength c) (cl_autolocation c)
     | AData i => set_data (Response h st (BSeq []) (ra_passthrough a) [] (cl_implicit c) (cl_autolength c) (cl_autolocation c)) i = (r, None)
     | ABody b => r = Response h st b (ra_passthrough a) [] (cl_implicit c) (cl_autolength c) (cl_autolocation c)
     end.
Proof.
  unfold new_response. fold (header_stage c a). destruct (header_stage c a) as [h|] eqn:H; [|discriminate]. cbn [bind].
  assert (St : forall st r, match ra_body a with
     | ANone => Ok (Response h st (BSeq []) (ra_passthrough a) [] (cl_implicit c) (cl_autolength c) (cl_autolocation c))
     | AData i => match set_data (Response h st (BSeq []) (ra_passthrough a) [] (cl_implicit c) (cl_autolength c) (cl_autolocation c)) i with (r', None) => Ok r' | (_, Some e) => Raise e end
     | ABody b => Ok (with_body (Response h st (BSeq []) (ra_passthrough a) [] (cl_implicit c) (cl_autolength c) (cl_autolocation c)) b)
     end = Ok r -> rs_status r = st /\ match ra_body a with
     | ANone => r = Response h st (BSeq []) (ra_passthrough a) [] (cl_implicit c) (cl_autolength c) (cl_autolocation c)
     | AData i => set_data (Response h st (BSeq []) (ra_passthrough a) [] (cl_implicit c) (cl_autolength c) (cl_autolocation c)) i = (r, None)
     | ABody b => r = Response h st b (ra_passthrough a) [] (cl_implicit c) (cl_autolength c) (cl_autolocation c)
     end).
  { intros st r0 E. destruct (ra_body a) as [|i|b].
    - injection E as <-. auto.
    - destruct (set_data _ i) as [r' [e|]] eqn:D; [discriminate|]. injection E as <-. split; auto.
      apply set_data_spec in D. destruct D as (b & _ & _ & S & _). exact S.
    - injection E as <-. auto. }
  destruct (ra_status a) as [|z|s]; cbn [bind]; intros E.
  - destruct (St _ _ E) as [E1 E2]. eauto 8.
  - destruct (St _ _ E) as [E1 E2]. eauto 8.
  - destruct (set_status (Status [] 0) s) as [st [e|]] eqn:S; [discriminate|]. cbn [bind] in E. destruct (St _ _ E) as [E1 E2]. eauto 8.
Qed.
Lemma response_made c a r : new_response c a = Ok r ->
  (exists t, typed c a t /\ match t with
                            | Some t => values_of (lit "Content-Type") (rs_headers r) [t]
                            | None => forall vs, values_of (lit "Content-Type") (ra_headers a) vs -> values_of (lit "Content-Type") (rs_headers r) vs
                            end)
  /\ (forall k vs, ~ same_name k (lit "Content-Type") ->
        (same_name k (lit "Content-Length") -> cl_autolength c = false \/ forall i, ra_body a <> AData i) ->
        values_of k (ra_headers a) vs -> values_of k (rs_headers r) vs)
  /\ match ra_status a with
     | SNone => st_code (rs_status r) = cl_status c /\ numbered (st_line (rs_status r)) (cl_status c)
     | SCode z => st_code (rs_status r) = z /\ numbered (st_line (rs_status r)) z
     | SLine s => forall z, numbered s z -> st_line (rs_status r) = s /\ st_code (rs_status r) = z
     end
  /\ match ra_body a with
     | ANone => rs_body r = BSeq []
     | AData i => exists b, bytes_of i b /\ rs_body r = BSeq [IBytes b]
         /\ (cl_autolength c = true -> values_of (lit "Content-Length") (rs_headers r) [zdec (Z.of_nat (length b))])
     | ABody b => rs_body r = b
     end
  /\ rs_passthrough r = ra_passthrough a /\ rs_on_close r = [].
Proof.
  intros H. destruct (made _ _ _ H) as (h & st & Hh & Hs & Es & Hb). apply header_stage_spec in Hh.
  assert (T : match type_to_set c a with
              | Some t => values_of (lit "Content-Type") h [t]
              | None => forall vs, values_of (lit "Content-Type") (ra_headers a) vs -> values_of (lit "Content-Type") h vs
              end).
  { destruct (type_to_set c a) as [t|]; [|subst h; auto]. destruct Hh as (_ & _ & G & _). rewrite <- G. apply values_of_filter. }
  assert (O : forall k vs, ~ same_name k (lit "Content-Type") -> values_of k (ra_headers a) vs -> values_of k h vs).
  { destruct (type_to_set c a) as [t|]; [|subst h; auto]. destruct Hh as (_ & _ & _ & K). apply kept_values, K. }
  assert (St : match ra_status a with
     | SNone => st_code (rs_status r) = cl_status c /\ numbered (st_line (rs_status r)) (cl_status c)
     | SCode z => st_code (rs_status r) = z /\ numbered (st_line (rs_status r)) z
     | SLine s => forall z, numbered s z -> st_line (rs_status r) = s /\ st_code (rs_status r) = z
     end).
  { rewrite Es. destruct (ra_status a) as [|z|s].
    - subst st. split; [reflexivity|]. exact (set_code_numbered (cl_status c)).
    - subst st. split; [reflexivity|]. exact (set_code_numbered z).
    - intros z N. rewrite (numbered_set _ _ _ N) in Hs. injection Hs as <-. auto. }
  destruct (ra_body a) as [|i|b] eqn:B.
  - subst r. cbn [rs_headers rs_body rs_passthrough rs_on_close] in *. repeat split; auto. exists (type_to_set c a). split; [apply type_typed|exact T].
  - apply set_data_spec in Hb. cbn [rs_headers rs_body rs_passthrough rs_on_close rs_autolength rs_status] in Hb.
    destruct Hb as (b & Y & Bd & _ & P & Cl & _ & L).
    assert (V : forall k vs, (same_name k (lit "Content-Length") -> cl_autolength c = false) -> values_of k h vs -> values_of k (rs_headers r) vs).
    { intros k vs N. destruct (cl_autolength c); [|rewrite L; auto]. destruct L as [_ L]. apply (kept_values _ _ _ L). intros Q. discriminate (N Q). }
    split; [|split; [|split; [|split]]]; auto.
    + exists (type_to_set c a). split; [apply type_typed|]. destruct (type_to_set c a) as [t|].
      * apply V; [discriminate|exact T].
      * intros vs W. apply V; [discriminate|apply T, W].
    + intros k vs N1 N2 W. apply V; [|apply O; auto]. intros Q. destruct (N2 Q) as [X|X]; auto. exfalso. apply (X i). reflexivity.
    + exists b. split; [exact Y|]. split; [exact Bd|]. intros A. rewrite A in L. destruct L as [L _]. rewrite <- L. apply values_of_filter.
  - subst r. cbn [rs_headers rs_body rs_passthrough rs_on_close] in *. repeat split; auto. exists (type_to_set c a). split; [apply type_typed|exact T].
Qed.
Lemma response_total c a :
  (forall t, typed c a (Some t) -> one_line t) ->
  (forall s, ra_status a = SLine s -> ~ blank s) ->
  (forall i, ra_body a = AData i -> exists b, bytes_of i b) ->
  exists r, new_response c a = Ok r.
Proof.
  intros H1 H2 H3. unfold new_response. fold (header_stage c a).
  assert (Hh : exists h, header_stage c a = Ok h).
  { unfold header_stage. pose proof (type_typed c a) as T. destruct (type_to_set c a) as [t|]; eauto.
    destruct (keep_set (ra_headers a) (lit "Content-Type") t (H1 _ T)) as (h2 & _ & E2 & _). eauto. }
  destruct Hh as (h & Eh). rewrite Eh. cbn [bind].
  assert (Hst : exists st, match ra_status a with
           | SNone => Ok (set_status_code (cl_status c))
           | SCode z => Ok (set_status_code z)
           | SLine s => match set_status (Status [] 0) s with (st, None) => Ok st | (_, Some e) => Raise e end
           end = Ok st).
  { destruct (ra_status a) as [|z|s]; eauto. specialize (H2 s eq_refl). destruct (set_status (Status [] 0) s) as [st [e|]] eqn:S; eauto.
    exfalso. apply H2. apply (set_status_blank (Status [] 0)). rewrite S. discriminate. }
  destruct Hst as (st & Est). rewrite Est. cbn [bind]. destruct (ra_body a) as [|i|b]; eauto.
  destruct (H3 i eq_refl) as (b & Y). unfold set_data.
  assert (Ei : encode_item i = Ok b) by (destruct i; cbn in Y |- *; [exact Y|subst; reflexivity]).
  rewrite Ei. cbn [with_body rs_autolength]. destruct (cl_autolength c); eauto.
  unfold set_header. destruct (keep_set h content_length (zdec (Z.of_nat (length b))) (zdec_one_line _)) as (h2 & _ & E2 & _).
  cbn [with_body rs_headers]. rewrite E2. eauto.
Qed.

(** ** From applications *)
Lemma sent_here method r : method <> lit "HEAD" -> ~ bodyless (st_code (rs_status r)) -> rs_passthrough r = false ->
  chunks (get_app_iter method r) = let '(bs, e, _) := encode_items (body_items (rs_body r)) (body_fail (rs_body r)) in (bs, e).
Proof.
  intros M B P. unfold get_app_iter.
  assert (X : eqs method (lit "HEAD") || bodyless_status (st_code (rs_status r)) = false).
  { apply orb_false_iff. split.
    - destruct (eqs method (lit "HEAD")) eqn:E; auto. apply eqs_eq in E. congruence.
    - destruct (bodyless_status _) eqn:E; auto. apply bodyless_spec in E. contradiction. }
  rewrite X, P. reflexivity.
Qed.
Definition relay_class (c : rclass) : Prop := forall m, cl_mimetype c = Some m -> one_line m.
Lemma announced_line m t : announced m t -> one_line m -> one_line t.
Proof. intros [[_ ->]|[_ ->]] L; auto. apply one_line_app; auto. split; apply mem_not_In; reflexivity. Qed.
Lemma relay c b s h z : relay_class c -> numbered s z ->
  exists r, new_response c (RArgs (ABody b) (SLine s) h None None false) = Ok r
    /\ st_line (rs_status r) = s /\ st_code (rs_status r) = z /\ relayed c h (rs_headers r)
    /\ rs_body r = b /\ rs_passthrough r = false /\ rs_on_close r = []
    /\ rs_implicit r = cl_implicit c /\ rs_autolength r = cl_autolength c /\ rs_autolocation r = cl_autolocation c.
Proof.
  intros Rc N. destruct (response_total c (RArgs (ABody b) (SLine s) h None None false)) as (r & E).
  - intros t T. inv T; cbn [ra_content_type ra_mimetype ra_headers] in *; try discriminate. eapply announced_line; eauto.
  - intros s0 [= <-] B. pose proof (numbered_set (Status [] 0) _ _ N) as X.
    apply (set_status_blank (Status [] 0)) in B. rewrite X in B. apply B. reflexivity.
  - intros i [=].
  - exists r. split; [exact E|]. destruct (made _ _ _ E) as (h1 & st & Hh & Hs & Es & Hb).
    cbn [ra_status ra_body ra_passthrough] in *. rewrite (numbered_set _ _ _ N) in Hs. injection Hs as <-. subst r. cbn. repeat split; auto.
    apply header_stage_spec in Hh. pose proof (type_typed c (RArgs (ABody b) (SLine s) h None None false)) as T.
    destruct (type_to_set _ _) as [t|].
    + destruct Hh as (_ & S & _). cbn [ra_headers] in S. inv T; cbn [ra_content_type ra_mimetype ra_headers] in *; try discriminate.
      destruct S as [[_ ->]|(pre & e & post & post' & -> & _ & Q & _)]; [eapply rl_default; eauto|].
      exfalso. match goal with A : absent (lit "Content-Type") (pre ++ _) |- _ => unfold absent in A; rewrite Forall_forall in A; apply (A e); auto end.
      apply in_app_iff. right. left. reflexivity.
    + subst h1. cbn [ra_headers]. inv T; cbn [ra_content_type ra_mimetype ra_headers] in *; [apply rl_none; auto|apply rl_kept; auto].
Qed.
Lemma from_app_unbuffered c n a s h sent fail z : SpecTest.behaves a s h sent fail -> numbered s z -> relay_class c ->
  exists r, from_app c n a false = Ok r
    /\ st_line (rs_status r) = s /\ st_code (rs_status r) = z /\ relayed c h (rs_headers r)
    /\ (forall method, method <> lit "HEAD" -> ~ bodyless z -> chunks (get_app_iter method r) = (sent, fail))
    /\ is_seq (rs_body r) = false /\ rs_passthrough r = false
    /\ (forall l f x, rs_body r = BIter l f x -> x = if ModelTest.r_closable a then Some n else None)
    /\ rs_on_close r = []
    /\ rs_implicit r = cl_implicit c /\ rs_autolength r = cl_autolength c /\ rs_autolocation r = cl_autolocation c.
Proof.
  intros B N Rc. unfold from_app. rewrite (ProofTest.run_unbuffered _ _ _ _ _ B). cbn [fst ModelTest.x_body ModelTest.x_status ModelTest.x_headers ModelTest.x_fail].
  destruct (relay c (BIter (map IBytes sent) fail (if ModelTest.r_closable a then Some n else None)) s h z Rc N)
    as (r & E & E1 & E2 & E3 & E4 & E5 & E6 & E7 & E8 & E9).
  exists r. repeat split; auto.
  - intros m M NB. rewrite sent_here, E4; auto; [|rewrite E2; exact NB]. cbn. rewrite encode_bytes. reflexivity.
  - rewrite E4. reflexivity.
  - intros l f x Eb. rewrite E4 in Eb. injection Eb as _ _ <-. reflexivity.
Qed.
Lemma from_app_buffered c n a s h sent z : SpecTest.behaves a s h sent None -> SpecTest.never_writes a -> numbered s z -> relay_class c ->
  exists r, from_app c n a true = Ok r
    /\ st_line (rs_status r) = s /\ st_code (rs_status r) = z /\ relayed c h (rs_headers r)
    /\ rs_body r = BSeq (map IBytes sent)
    /\ (forall method, method <> lit "HEAD" -> ~ bodyless z -> chunks (get_app_iter method r) = (sent, None)).
Proof.
  intros B W N Rc. unfold from_app. rewrite (ProofTest.run_buffered _ _ _ _ _ B W). cbn [fst ModelTest.x_body ModelTest.x_status ModelTest.x_headers ModelTest.x_fail].
  destruct (relay c (BSeq (map IBytes sent)) s h z Rc N) as (r & E & E1 & E2 & E3 & E4 & E5 & _).
  exists r. repeat split; auto. intros m M NB. rewrite sent_here, E4; auto; [|rewrite E2; exact NB]. cbn. rewrite encode_bytes. reflexivity.
Qed.
Lemma base_relay : relay_class base_class.
Proof. intros m [= <-]. split; apply mem_not_In; reflexivity. Qed.
Lemma base_response headers body r : absent (lit "Content-Type") headers ->
  new_response base_class (RArgs body SNone headers None None false) = Ok r ->
  st_code (rs_status r) = 200%Z /\ st_line (rs_status r) = lit "200 OK" /\
  values_of (lit "Content-Type") (rs_headers r) [lit "text/plain; charset=utf-8"] /\
  (body = ANone -> rs_body r = BSeq []) /\ rs_autolocation r = true /\ rs_autolength r = true /\ rs_implicit r = true.
Proof.
  intros A H. pose proof (response_made _ _ _ H) as ((t & T & V) & _ & (Sc & _) & B & _). cbn [ra_status ra_body base_class cl_status] in *.
  split; [exact Sc|]. 
  assert (F : st_line (rs_status r) = lit "200 OK" /\ rs_autolocation r = true /\ rs_autolength r = true /\ rs_implicit r = true).
  { clear -H. unfold new_response in H. destruct (match type_to_set _ _ with Some t => _ | None => _ end) as [h|]; [|discriminate].
    cbn [bind ra_status ra_body] in H. destruct body as [|i|b].
    - injection H as <-. repeat split.
    - destruct (set_data _ i) as [r' [e|]] eqn:E; [discriminate|]. injection H as ->. unfold set_data, set_header in E.
      repeat match type of E with context [match ?x with _ => _ end] => destruct x end; inv E; repeat split.
    - injection H as <-. repeat split. }
  destruct F as (F1 & F2 & F3 & F4). split; [exact F1|]. split; [|split; [intros ->; exact B|auto]].
  inversion T as [t' E|m t' E1 E2|m t' E1 E2 E3 E4 An|E1 E2 E3 E4|E1 E2 E3]; subst; cbn in *; try discriminate; [|contradiction].
  injection E4 as <-. destruct An as [[_ ->]|[Nt _]]; [exact V|]. exfalso. apply Nt. left. exists (lit "plain"). reflexivity.
Qed.
Lemma force_app c n a s h sent fail z : SpecTest.behaves a s h sent fail -> numbered s z ->
  exists r, force_type c (FApp n a true) = Ok r
    /\ st_line (rs_status r) = s /\ st_code (rs_status r) = z /\ relayed base_class h (rs_headers r)
    /\ (forall method, method <> lit "HEAD" -> ~ bodyless z -> chunks (get_app_iter method r) = (sent, fail))
    /\ rs_implicit r = cl_implicit c /\ rs_autolength r = cl_autolength c /\ rs_autolocation r = cl_autolocation c.
Proof.
  intros B N. destruct (from_app_unbuffered base_class n a s h sent fail z B N base_relay) as (r & E & E1 & E2 & E3 & E4 & _).
  exists (set_class c r). unfold force_type. rewrite E. cbn [bind]. repeat split; auto.
Qed.
Lemma force_response c r : exists r', force_type c (FResponse r) = Ok r'
  /\ rs_headers r' = rs_headers r /\ rs_status r' = rs_status r /\ rs_body r' = rs_body r
  /\ rs_passthrough r' = rs_passthrough r /\ rs_on_close r' = rs_on_close r
  /\ (forall method, chunks (get_app_iter method r') = chunks (get_app_iter method r))
  /\ rs_implicit r' = cl_implicit c /\ rs_autolength r' = cl_autolength c /\ rs_autolocation r' = cl_autolocation c.
Proof. exists (set_class c r). repeat split; auto. Qed.
Lemma app_of_behaves line h it sent fail : chunks it = (sent, fail) ->
  SpecTest.behaves (app_of (Ok (line, h, it))) line h sent fail.
Proof.
  intros C. unfold app_of. rewrite C.
  exact (SpecTest.starts_at_once line h [] sent fail _).
Qed.

(** ** Streams *)
Lemma closed_run ops : forall r, exists es, s_run (RStream true r) ops = (RStream true r, es) /\ answers true ops es.
Proof.
  induction ops as [|o ops IH]; intros r; [exists []; split; [reflexivity|constructor]|].
  destruct (IH r) as (es & E & A). cbn [s_run].
  destruct o as [i|[|i l]| | |]; cbn [s_step sm_write sm_writelines sm_closed sm_response]; rewrite E;
    (eexists; split; [reflexivity|]; constructor; [reflexivity|exact A]).
Qed.
Lemma pop_without h k : exists h', h_pop_name h k true = Ok h' /\ without k h h'.
Proof.
  unfold h_pop_name. destruct (getitem_cases h k) as [[v E]|E]; rewrite E.
  - exists (h_remove h k). split; [reflexivity|]. apply remove_spec.
  - exists h. split; [reflexivity|]. apply getitem_missing in E. clear v || idtac.
    unfold absent in E. induction h as [|kv h IH]; [constructor|]. inv E. apply wo_keep; auto.
Qed.
Lemma without_trans k a b c : without k a b -> without k b c -> without k a c.
Proof.
  intros H. revert c. induction H as [|kv a b S H IH|kv a b S H IH]; intros c Hc; auto.
  - apply wo_drop; auto.
  - inv Hc; [contradiction|]. apply wo_keep; auto.
Qed.
Lemma written_refl r : written_to r r.
Proof. unfold written_to. repeat split. Qed.
Lemma written_trans a b c : written_to a b -> written_to b c -> written_to a c.
Proof. unfold written_to. intros (-> & -> & -> & -> & ->) (-> & -> & -> & -> & ->). repeat split. Qed.
Lemma write_seq r l i : rs_body r = BSeq l -> exists r', stream_write r i = (r', None) /\ rs_body r' = BSeq (l ++ [i])
  /\ written_to r r' /\ rs_on_close r' = rs_on_close r /\ without (lit "Content-Length") (rs_headers r) (rs_headers r').
Proof.
  intros B. unfold stream_write, ensure_sequence. rewrite B. cbn [body_items].
  destruct (pop_without (rs_headers r) content_length) as (h' & E & W). rewrite E. eexists. split; [reflexivity|]. rewrite B. cbn.
  unfold written_to. repeat split; auto.
Qed.
Lemma writelines_seq ws : forall r l, rs_body r = BSeq l -> exists r', sm_writelines (RStream false r) ws = (RStream false r', None)
  /\ rs_body r' = BSeq (l ++ ws) /\ written_to r r' /\ rs_on_close r' = rs_on_close r
  /\ (ws = [] -> r' = r) /\ (ws <> [] -> without (lit "Content-Length") (rs_headers r) (rs_headers r')).
Proof.
  induction ws as [|i ws IH]; intros r l B; cbn [sm_writelines].
  - exists r. rewrite app_nil_r. repeat split; auto; contradiction.
  - unfold sm_write. cbn [sm_closed sm_response]. destruct (write_seq r l i B) as (r1 & E & B1 & W1 & C1 & H1). rewrite E.
    destruct (IH r1 _ B1) as (r2 & E2 & B2 & W2 & C2 & N & H2). exists r2. split; [exact E2|]. rewrite <- app_assoc in B2.
    split; [exact B2|]. split; [eapply written_trans; eauto|]. split; [congruence|]. split; [discriminate|]. intros _.
    destruct ws as [|j ws]; [rewrite N; auto|]. eapply without_trans; [exact H1|apply H2; discriminate].
Qed.
Lemma stream_seq : forall ops r l, rs_body r = BSeq l -> exists closed r' es,
  s_run (RStream false r) ops = (RStream closed r', es) /\ answers false ops es /\ (closed = true <-> In SClose ops)
  /\ rs_body r' = BSeq (l ++ said ops) /\ written_to r r' /\ rs_on_close r' = rs_on_close r
  /\ (said ops = [] -> r' = r) /\ (said ops <> [] -> without (lit "Content-Length") (rs_headers r) (rs_headers r')).
Proof.
  assert (Step : forall ws o ops, o <> SClose -> said (o :: ops) = ws ++ said ops ->
    (forall r l, rs_body r = BSeq l -> exists closed r' es,
      s_run (RStream false r) ops = (RStream closed r', es) /\ answers false ops es /\ (closed = true <-> In SClose ops)
      /\ rs_body r' = BSeq (l ++ said ops) /\ written_to r r' /\ rs_on_close r' = rs_on_close r
      /\ (said ops = [] -> r' = r) /\ (said ops <> [] -> without (lit "Content-Length") (rs_headers r) (rs_headers r'))) ->
    forall r l, rs_body r = BSeq l ->
    (exists r1, s_step (RStream false r) o = (RStream false r1, None) /\ rs_body r1 = BSeq (l ++ ws) /\ written_to r r1
       /\ rs_on_close r1 = rs_on_close r /\ (ws = [] -> r1 = r) /\ (ws <> [] -> without (lit "Content-Length") (rs_headers r) (rs_headers r1))) ->
    exists closed r' es,
      s_run (RStream false r) (o :: ops) = (RStream closed r', es) /\ answers false (o :: ops) es /\ (closed = true <-> In SClose (o :: ops))
      /\ rs_body r' = BSeq (l ++ said (o :: ops)) /\ written_to r r' /\ rs_on_close r' = rs_on_close r
      /\ (said (o :: ops) = [] -> r' = r) /\ (said (o :: ops) <> [] -> without (lit "Content-Length") (rs_headers r) (rs_headers r'))).
  { intros ws o ops No Sa IH r l B (r1 & E1 & B1 & W1 & C1 & N1 & H1).
    destruct (IH r1 _ B1) as (closed & r2 & es & E2 & A2 & I2 & B2 & W2 & C2 & N2 & H2).
    exists closed, r2, (None :: es). cbn [s_run]. rewrite E1, E2. split; [reflexivity|]. split; [constructor; auto|].
    split; [rewrite I2; cbn; intuition congruence|]. rewrite Sa. rewrite <- app_assoc in B2. split; [exact B2|].
    split; [eapply written_trans; eauto|]. split; [congruence|]. split.
    - intros Z. apply app_eq_nil in Z as [Z1 Z2]. rewrite N2, N1; auto.
    - intros Z. destruct ws as [|w ws].
      + rewrite N1 in * by reflexivity. apply H2. exact Z.
      + destruct (said ops) as [|x xs] eqn:Es.
        * rewrite N2 by reflexivity. apply H1. discriminate.
        * eapply without_trans; [apply H1; discriminate|apply H2; discriminate]. }
  induction ops as [|o ops IH]; intros r l B.
  - exists false, r, []. cbn. rewrite app_nil_r. repeat split; auto; try constructor; try contradiction. discriminate.
  - destruct o as [i|ws| | |].
    + apply (Step [i] (SWrite i)); auto; [discriminate|]. cbn [s_step]. unfold sm_write. cbn [sm_closed sm_response].
      destruct (write_seq r l i B) as (r1 & E & B1 & W1 & C1 & H1). rewrite E. exists r1. split; [reflexivity|]. split; [exact B1|]. split; [exact W1|]. split; [exact C1|]. split; [discriminate|auto].
    + apply (Step ws (SWriteLines ws)); auto; [discriminate|]. cbn [s_step]. apply writelines_seq, B.
    + cbn [s_run s_step sm_response]. destruct (closed_run ops r) as (es & E & A). rewrite E.
      exists true, r, (None :: es). cbn [said]. rewrite app_nil_r. repeat split; auto; try contradiction; [apply an_close, A|left; reflexivity].
    + apply (Step [] SFlush); auto; [discriminate|]. exists r. rewrite app_nil_r. cbn. repeat split; auto. contradiction.
    + apply (Step [] SIsatty); auto; [discriminate|]. exists r. rewrite app_nil_r. cbn. repeat split; auto. contradiction.
Qed.

(** *** Iterators *)
Lemma encode_all l : forall bs f, Forall2 bytes_of l bs -> encode_items l f = (bs, f, []).
Proof.
  induction l as [|i l IH]; intros bs f H; inv H; [reflexivity|]. cbn [encode_items].
  assert (E : encode_item i = Ok y) by (destruct i; cbn in H2 |- *; [exact H2|subst; reflexivity]). rewrite E, (IH l') by auto. reflexivity.
Qed.
Lemma write_iter r l c bs : rs_body r = BIter l None c -> rs_passthrough r = false -> rs_implicit r = true -> Forall2 bytes_of l bs ->
  exists r0, rs_body r0 = BSeq (map IBytes bs) /\ written_to r r0 /\ rs_headers r0 = rs_headers r
    /\ rs_on_close r0 = rs_on_close r ++ match c with Some n => [CIter n] | None => [] end
    /\ forall i, stream_write r i = stream_write r0 i.
Proof.
  intros B P I F. exists (fst (make_sequence r)). unfold make_sequence. rewrite B, (encode_all _ _ None F). cbn [fst].
  split; [destruct c; reflexivity|]. split; [destruct c; repeat split|]. split; [destruct c; reflexivity|].
  split; [destruct c; cbn; rewrite ?app_nil_r; reflexivity|].
  intros i. unfold stream_write. unfold ensure_sequence at 1. rewrite B, P, I. cbn [orb negb]. unfold make_sequence.
  rewrite B, (encode_all _ _ None F). destruct c; reflexivity.
Qed.
Lemma writelines_iter r r0 : (forall i, stream_write r i = stream_write r0 i) -> forall ws, ws <> [] ->
  sm_writelines (RStream false r) ws = sm_writelines (RStream false r0) ws.
Proof.
  intros H ws N. destruct ws as [|i ws]; [contradiction|]. cbn [sm_writelines]. unfold sm_write. cbn [sm_closed sm_response]. rewrite H. reflexivity.
Qed.
Lemma stream_iter r r0 : (forall i, stream_write r i = stream_write r0 i) -> forall ops, said ops <> [] ->
  s_run (RStream false r) ops = s_run (RStream false r0) ops.
Proof.
  intros H. induction ops as [|o ops IH]; intros N; [contradiction|]. cbn [s_run].
  destruct o as [i|[|i ws]| | |]; cbn [said] in N.
  - cbn [s_step]. unfold sm_write. cbn [sm_closed sm_response]. rewrite H. reflexivity.
  - cbn [s_step sm_writelines]. rewrite IH by exact N. reflexivity.
  - cbn [s_step]. rewrite (writelines_iter r r0 H) by discriminate. reflexivity.
  - contradiction.
  - cbn [s_step sm_closed]. rewrite IH by exact N. reflexivity.
  - cbn [s_step sm_closed]. rewrite IH by exact N. reflexivity.
Qed.
Lemma stream_over_iter ops r l c bs : rs_body r = BIter l None c -> rs_passthrough r = false -> rs_implicit r = true ->
  Forall2 bytes_of l bs -> said ops <> [] -> exists closed r' es,
  s_run (RStream false r) ops = (RStream closed r', es) /\ answers false ops es /\ (closed = true <-> In SClose ops)
  /\ rs_body r' = BSeq (map IBytes bs ++ said ops) /\ written_to r r'
  /\ rs_on_close r' = rs_on_close r ++ match c with Some n => [CIter n] | None => [] end
  /\ without (lit "Content-Length") (rs_headers r) (rs_headers r').
Proof.
  intros B P I F N. destruct (write_iter r l c bs B P I F) as (r0 & B0 & W0 & H0 & C0 & E0).
  destruct (stream_seq ops r0 _ B0) as (closed & r' & es & E & A & Cl & B' & W & C & _ & H).
  exists closed, r', es. rewrite (stream_iter r r0 E0 ops N). repeat split; auto; try apply Cl; try (eapply written_trans; eauto).
  - congruence.
  - rewrite <- H0. apply H, N.
Qed.
Lemma stream_refused r l f c i : rs_body r = BIter l f c -> rs_passthrough r = true \/ rs_implicit r = false ->
  s_step (RStream false r) (SWrite i) = (RStream false r, Some RuntimeError).
Proof.
  intros B H. cbn. unfold sm_write. cbn. unfold stream_write, ensure_sequence. rewrite B.
  assert (X : rs_passthrough r || negb (rs_implicit r) = true) by (destruct H as [->| ->]; [reflexivity|apply orb_true_r]). rewrite X. reflexivity.
Qed.
Lemma bytes_bytes bs : Forall2 bytes_of (map IBytes bs) bs.
Proof. induction bs; constructor; auto. reflexivity. Qed.
Lemma stream_sent ops r l bs ws method : (rs_body r = BSeq l \/ exists c, rs_body r = BIter l None c) ->
  rs_passthrough r = false -> rs_implicit r = true -> Forall2 bytes_of l bs -> Forall2 bytes_of (said ops) ws ->
  method <> lit "HEAD" -> ~ bodyless (st_code (rs_status r)) ->
  chunks (get_app_iter method (sm_response (fst (s_run (RStream false r) ops)))) = (bs ++ ws, None).
Proof.
  intros B P I F G M NB.
  assert (X : exists r' l' bs', sm_response (fst (s_run (RStream false r) ops)) = r' /\ rs_body r' = BSeq (l' ++ said ops) /\ Forall2 bytes_of l' bs
     /\ written_to r r' \/ (said ops = [] /\ sm_response (fst (s_run (RStream false r) ops)) = r /\ r' = r /\ l' = l /\ bs' = bs)).
  { destruct B as [B|[c B]].
    - destruct (stream_seq ops r _ B) as (closed & r' & es & E & _ & _ & B' & W & _). exists r', l, bs. left. rewrite E. cbn. auto.
    - destruct (said ops) as [|x xs] eqn:S.
      + exists r, l, bs. right. split; [reflexivity|]. split; [|auto].
        clear - S. revert S. induction ops as [|o ops IH]; intros S; [reflexivity|]. cbn [s_run].
        destruct o as [i|[|i w]| | |]; cbn [said app] in S; try discriminate S; cbn [s_step sm_writelines sm_closed sm_response].
        * specialize (IH S). destruct (s_run _ ops). exact IH.
        * destruct (closed_run ops r) as (es & E & _). rewrite E. reflexivity.
        * specialize (IH S). destruct (s_run _ ops). exact IH.
        * specialize (IH S). destruct (s_run _ ops). exact IH.
      + destruct (stream_over_iter ops r l c bs B P I F) as (closed & r' & es & E & _ & _ & B' & W & _); [rewrite S; discriminate|].
        exists r', (map IBytes bs), bs. left. rewrite E. cbn. rewrite <- S. split; [auto|]. split; [exact B'|]. split; [apply bytes_bytes|exact W]. }
  destruct X as (r' & l' & bs' & [(E & B' & F' & W)|(S & E & _)]).
  - rewrite E. destruct W as (W1 & W2 & _). rewrite sent_here; auto; [|rewrite W1; exact NB|rewrite W2; exact P].
    rewrite B'. cbn [body_items body_fail]. rewrite (encode_all _ (bs ++ ws) None); [reflexivity|]. apply Forall2_app; auto.
  - rewrite E, S in *. inv G. rewrite app_nil_r. rewrite sent_here; auto.
    assert (Eb : body_items (rs_body r) = l /\ body_fail (rs_body r) = None) by (destruct B as [->|[c ->]]; auto). destruct Eb as [-> ->].
    rewrite (encode_all _ bs None F). reflexivity.
Qed.

(** ** freeze *)
Lemma get_data_seq r l bs : rs_body r = BSeq l -> Forall2 bytes_of l bs -> get_data r = (r, Ok (concat bs)).
Proof. intros B F. unfold get_data, ensure_sequence. rewrite B. cbn. rewrite B. cbn. rewrite (encode_all _ _ None F). reflexivity. Qed.
Lemma freeze_all r bs : Forall2 bytes_of (body_items (rs_body r)) bs -> body_fail (rs_body r) = None ->
  exists h, freeze r = (with_headers (with_body r (BSeq (map IBytes bs))) h, None)
    /\ h_getlist h (lit "Content-Length") = [zdec (Z.of_nat (length (concat bs)))] /\ others_kept (lit "Content-Length") (rs_headers r) h.
Proof.
  intros F N. unfold freeze. rewrite N, (encode_all _ _ None F). unfold set_header. cbn [with_body rs_headers].
  destruct (keep_set (rs_headers r) content_length (zdec (Z.of_nat (length (concat bs)))) (zdec_one_line _)) as (h2 & _ & E2 & _ & G & _ & O).
  rewrite E2. exists h2. repeat split; auto.
Qed.
Lemma etag_name h h' : others_kept (lit "Content-Length") h h' -> get_etag h' = get_etag h.
Proof.
  intros O. unfold get_etag, h_get. assert (G : h_getlist h' (lit "ETag") = h_getlist h (lit "ETag")) by (apply O; discriminate).
  pose proof (values_of_filter (lit "ETag") h) as V. pose proof (values_of_filter (lit "ETag") h') as V'. rewrite G in V'.
  destruct (h_getlist h (lit "ETag")) as [|v vs].
  - assert (X : forall h, values_of (lit "ETag") h [] -> h_getitem h (lit "ETag") = Raise KeyError).
    { intros h0 H0. apply getitem_missing. unfold absent. remember [] as e eqn:Ee. induction H0; [constructor|discriminate|constructor; auto]. }
    rewrite (X _ V), (X _ V'). reflexivity.
  - assert (X : forall h, values_of (lit "ETag") h (v :: vs) -> h_getitem h (lit "ETag") = Ok v) by (intros h0 H0; apply getitem_ok; eauto).
    rewrite (X _ V), (X _ V'). reflexivity.
Qed.
Lemma get_data_all r bs : Forall2 bytes_of (body_items (rs_body r)) bs -> body_fail (rs_body r) = None ->
  rs_passthrough r = false -> rs_implicit r = true ->
  exists r0, get_data r = (r0, Ok (concat bs)) /\ rs_headers r0 = rs_headers r /\ written_to r r0
    /\ Forall2 bytes_of (body_items (rs_body r0)) bs /\ body_fail (rs_body r0) = None.
Proof.
  intros F N P I. destruct (rs_body r) as [l|l f c] eqn:B; cbn [body_items body_fail] in *.
  - exists r. rewrite (get_data_seq r l bs B F), B. repeat split; auto.
  - subst f. destruct (write_iter r l c bs B P I F) as (r0 & B0 & W0 & H0 & C0 & _).
    exists (fst (make_sequence r)). unfold get_data, ensure_sequence. rewrite B, P, I. cbn [orb negb]. unfold make_sequence. rewrite B, (encode_all _ _ None F).
    cbn [fst]. destruct c; cbn; rewrite encode_bytes; repeat split; auto using bytes_bytes.
Qed.
Lemma skip_others md5 o mro kw r : Forall (eq KOther) o -> class_freeze md5 (o ++ mro) kw r = class_freeze md5 mro kw r.
Proof. induction 1 as [|x o E H IH]; [reflexivity|]. subst x. exact IH. Qed.
Lemma freeze_mixed md5 o1 o2 rest r bs : Forall (eq KOther) o1 -> Forall (eq KOther) o2 ->
  Forall2 bytes_of (body_items (rs_body r)) bs -> body_fail (rs_body r) = None -> rs_passthrough r = false -> rs_implicit r = true ->
  ~ In 34 (md5 (concat bs)) -> one_line (md5 (concat bs)) ->
  exists r', class_freeze md5 (o1 ++ KETag :: o2 ++ KBase :: rest) None r = (r', None)
    /\ rs_body r' = BSeq (map IBytes bs)
    /\ values_of (lit "Content-Length") (rs_headers r') [zdec (Z.of_nat (length (concat bs)))]
    /\ (absent (lit "ETag") (rs_headers r) -> get_etag (rs_headers r') = Some (md5 (concat bs), false))
    /\ (~ absent (lit "ETag") (rs_headers r) -> get_etag (rs_headers r') = get_etag (rs_headers r))
    /\ (forall k vs, ~ same_name k (lit "Content-Length") -> ~ same_name k (lit "ETag") -> values_of k (rs_headers r) vs -> values_of k (rs_headers r') vs)
    /\ written_to r r'.
Proof.
  intros O1 O2 F N P I Q L. rewrite skip_others by auto. cbn [class_freeze].
  assert (X : exists r1, add_etag md5 r false false = (r1, None) /\ Forall2 bytes_of (body_items (rs_body r1)) bs /\ body_fail (rs_body r1) = None
     /\ (absent (lit "ETag") (rs_headers r) -> get_etag (rs_headers r1) = Some (md5 (concat bs), false))
     /\ (~ absent (lit "ETag") (rs_headers r) -> rs_headers r1 = rs_headers r)
     /\ others_kept (lit "ETag") (rs_headers r) (rs_headers r1) /\ written_to r r1).
  { assert (Ab : absent (lit "etag") (rs_headers r) <-> absent (lit "ETag") (rs_headers r)) by reflexivity.
    destruct (h_contains (rs_headers r) (lit "etag")) eqn:C.
    - exists r. rewrite (add_etag_kept md5 r false C). apply contains_spec in C. repeat split; auto. intros A. apply Ab in A. contradiction.
    - destruct (get_data_all r bs F N P I) as (r0 & D & H0 & W0 & F0 & N0).
      destruct (add_etag_made md5 r false false r0 (concat bs) (or_intror C) D Q L) as (h' & E & G & K).
      exists (with_headers r0 h'). rewrite E. apply contains_absent in C. split; [reflexivity|]. split; [exact F0|]. split; [exact N0|].
      split; [auto|]. split; [intros A; destruct A; apply Ab, C|]. rewrite <- H0. split; [exact K|exact W0]. }
  destruct X as (r1 & E1 & F1 & N1 & G1 & S1 & K1 & W1). rewrite E1, skip_others by auto. cbn [class_freeze].
  destruct (freeze_all r1 bs F1 N1) as (h & E & V & K). rewrite E. eexists. split; [reflexivity|].
  cbn [with_headers with_body rs_body rs_headers]. split; [reflexivity|]. split; [rewrite <- V; apply values_of_filter|].
  rewrite (etag_name _ _ K). split; [exact G1|]. split; [intros A; rewrite S1; auto|]. split.
  - intros k vs A1 A2 Hv. apply (kept_values _ _ _ K k vs A1). apply (kept_values _ _ _ K1 k vs A2 Hv).
  - exact W1.
Qed.
Lemma freeze_full md5 r r' e : class_freeze md5 response_mro None r = (r', e) ->
  absent (lit "ETag") (rs_headers r) -> absent (lit "ETag") (rs_headers r').
Proof.
  cbn [class_freeze response_mro]. unfold freeze. intros H A.
  destruct (encode_items _ _) as [[bs [x|]] rest].
  - injection H as <- _. destruct (rs_body r); exact A.
  - unfold set_header in H. cbn [with_body rs_headers] in H.
    destruct (keep_set (rs_headers r) content_length (zdec (Z.of_nat (length (concat bs)))) (zdec_one_line _)) as (h2 & _ & E2 & _ & _ & _ & O).
    rewrite E2 in H. injection H as <- _. cbn [with_headers rs_headers].
    apply getlist_absent with (k' := lit "ETag") in A; [|reflexivity].
    assert (G : h_getlist h2 (lit "ETag") = []) by (rewrite (O (lit "ETag")); [exact A|discriminate]).
    pose proof (values_of_filter (lit "ETag") h2) as V. rewrite G in V. clear - V. unfold absent.
    remember [] as z eqn:Ez. induction V; [constructor|discriminate|constructor; auto].
Qed.
Lemma again_close idna_part idna_decode_part ip_ok nfkc_ok environ r line h it z c n r' l f x :
  serve idna_part idna_decode_part ip_ok nfkc_ok environ r = Ok (line, h, it) -> numbered line z ->
  (forall m, cl_mimetype c = Some m -> one_line m) ->
  from_app c n (app_of (serve idna_part idna_decode_part ip_ok nfkc_ok environ r)) false = Ok r' -> rs_body r' = BIter l f x ->
  (x = None \/ x = Some n) /\
  (x = None <-> rs_passthrough r = true /\ dget environ (lit "REQUEST_METHOD") <> Some (lit "HEAD") /\ ~ bodyless (st_code (rs_status r)) /\
     ((exists items, rs_body r = BSeq items) \/ exists items e, rs_body r = BIter items e None)).
Proof.
  intros S N M F B. rewrite S in F. destruct (chunks it) as [sent fail] eqn:C.
  destruct (from_app_unbuffered c n _ line h sent fail z (app_of_behaves line h it sent fail C) N M) as (r2 & E & _ & _ & _ & _ & _ & _ & X & _).
  rewrite E in F. injection F as <-. specialize (X _ _ _ B). subst x. cbn [app_of]. rewrite C. cbn [ModelTest.r_closable].
  assert (I : exists m, dget environ (lit "REQUEST_METHOD") = Some m /\ it = get_app_iter m r).
  { unfold serve in S. destruct (wsgi_headers _ _ _ _ environ r); [|discriminate]. cbn [bind] in S.
    destruct (dget environ (lit "REQUEST_METHOD")) as [m|]; [|discriminate]. injection S as _ _ <-. eauto. }
  destruct I as (m & -> & ->). unfold get_app_iter. destruct (eqs m (lit "HEAD")) eqn:Em; cbn [orb].
  { apply eqs_eq in Em. subst. split; [auto|]. split; [discriminate|]. intros (_ & H & _). congruence. }
  assert (Nm : Some m <> Some (lit "HEAD")) by (intros [= ->]; rewrite eqs_refl in Em; discriminate).
  destruct (bodyless_status (st_code (rs_status r))) eqn:Eb.
  { apply ProofResponse.bodyless_spec in Eb. split; [auto|]. split; [discriminate|]. intros (_ & _ & H & _). contradiction. }
  assert (Nb : ~ bodyless (st_code (rs_status r))) by (intros H; apply ProofResponse.bodyless_spec in H; congruence).
  destruct (rs_passthrough r) eqn:Ep.
  2: { split; [auto|]. split; [discriminate|]. intros (H & _). discriminate. }
  destruct (rs_body r) as [items|items e [k|]] eqn:Er.
  - split; [auto|]. split; auto. intros _. repeat split; auto. left. eauto.
  - split; [auto|]. split; [discriminate|]. intros (_ & _ & _ & [[? H]|(? & ? & H)]); discriminate.
  - split; [auto|]. split; auto. intros _. repeat split; auto. right. eauto.
Qed.
