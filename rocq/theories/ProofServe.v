(** Proofs about the answers of the shared data middleware. *)
From Coq Require Import Arith List NArith ZArith Bool Lia ZifyBool ZifyN ZifyNat.
From Verif Require Import PyStr PyStrFacts ModelWsgi ProofWsgi ModelEtag SpecEtag ProofEtag ModelDate SpecDate ProofDate SpecHeaders ProofHeaders
  ModelMirror SpecMirror ProofMirror ModelServe SpecServe.
Import ListNotations.
Open Scope N_scope.
Ltac inv H := inversion H; subst; clear H.

(** ** The checksum *)
Lemma adler_step_a (a c : N) : (a mod 65521 + c) mod 65521 = (a + c) mod 65521.
Proof. rewrite N.add_mod_idemp_l by lia. reflexivity. Qed.
Lemma adler_sums_spec l : forall a b,
  adler_sums l (a mod 65521) (b mod 65521) =
  ((a + total l) mod 65521, (b + N.of_nat (length l) * a + weighted l) mod 65521).
Proof.
  induction l as [|c l IH]; intros a b.
  - cbn [adler_sums total weighted length]. f_equal; f_equal; lia.
  - cbn [adler_sums]. rewrite adler_step_a.
    replace ((b mod 65521 + (a + c) mod 65521) mod 65521) with ((b + (a + c)) mod 65521)
      by (rewrite N.add_mod_idemp_r, N.add_mod_idemp_l by lia; reflexivity).
    rewrite IH. cbn [total weighted length]. f_equal; f_equal; [lia|].
    rewrite Nat2N.inj_succ. lia.
Qed.
Lemma adler32_spec l : adler32 l = adler l.
Proof.
  unfold adler32. change 1 with (1 mod 65521) at 1. change 0 with (0 mod 65521) at 1.
  rewrite adler_sums_spec. unfold adler. f_equal. f_equal. f_equal. lia.
Qed.
Lemma adler_bound l : adler l < 4294967296.
Proof.
  unfold adler. pose proof (N.mod_lt (N.of_nat (length l) + weighted l) 65521 ltac:(lia)).
  pose proof (N.mod_lt (1 + total l) 65521 ltac:(lia)). lia.
Qed.

(** ** The tag *)
Lemma tag_unquoted secs size b t : tag_says secs size b t -> unquote_etag t = Some (t, false).
Proof.
  intros ->. destruct (exists_last (dec_nonnil (adler b))) as (p & c & E).
  assert (Hc : is_space c = false).
  { pose proof (dec_digits (adler b)) as F. rewrite forallb_forall in F.
    specialize (F c ltac:(rewrite E; apply in_or_app; right; left; reflexivity)).
    unfold is_ascii_digit, between in F. unfold is_space, between. lia. }
  rewrite E, !app_assoc. set (m := ((((lit "wzsdm-" ++ zdec secs) ++ lit "-") ++ zdec size) ++ lit "-") ++ p).
  assert (Hm : exists r, m = 119 :: 122 :: r).
  { unfold m. rewrite <- !app_assoc. eexists. cbn [lit List.app]. reflexivity. }
  destruct Hm as [r Hm]. unfold unquote_etag.
  assert (S : strip (m ++ [c]) = m ++ [c]).
  { unfold strip. apply strip_by_id.
    - rewrite Hm. intros x y Hx. cbn [List.app] in Hx. injection Hx as <- _. reflexivity.
    - intros x y Hx. apply app_inj_tail in Hx as [_ <-]. exact Hc. }
  rewrite S. rewrite Hm. reflexivity.
Qed.
Lemma last_dash a b a' b' : ~ In 45 b -> ~ In 45 b' -> a ++ 45 :: b = a' ++ 45 :: b' -> a = a' /\ b = b'.
Proof.
  intros N1 N2 E. apply (f_equal (@rev N)) in E. rewrite !rev_app_distr in E. cbn [rev] in E. rewrite <- !app_assoc in E. cbn [List.app] in E.
  assert (S1 := split1_app 45 (rev b) (rev a) ltac:(rewrite <- in_rev; exact N1)).
  rewrite E, (split1_app 45 (rev b') (rev a') ltac:(rewrite <- in_rev; exact N2)) in S1.
  injection S1 as E1 E2. split; [rewrite <- (rev_involutive a), <- E2|rewrite <- (rev_involutive b), <- E1]; apply rev_involutive.
Qed.
Lemma dec_no_dash n : ~ In 45 (dec n).
Proof.
  intros H. pose proof (dec_digits n) as F. rewrite forallb_forall in F. apply F in H. discriminate H.
Qed.
Lemma zdec_no_dash z : (0 <= z)%Z -> ~ In 45 (zdec z).
Proof. intros H. destruct z; [|apply dec_no_dash|lia]. intros [E|[]]; discriminate E. Qed.
Lemma zdec_same z z' : zdec z = zdec z' -> z = z'.
Proof. intros E. apply (f_equal py_int) in E. rewrite !py_int_zdec in E. congruence. Qed.
Lemma size_nonneg s : (0 <= size_said s)%Z.
Proof. destruct s; cbn [size_said]; lia. Qed.
Lemma tag_tells secs size b secs' size' b' t : (0 <= size)%Z -> (0 <= size')%Z ->
  tag_says secs size b t -> tag_says secs' size' b' t -> secs = secs' /\ size = size' /\ adler b = adler b'.
Proof.
  unfold tag_says. intros P P' -> E. change (lit "-") with [45] in E. cbn [List.app] in E.
  change (lit "wzsdm-" ++ zdec secs ++ 45 :: zdec size ++ 45 :: dec (adler b) =
          lit "wzsdm-" ++ zdec secs' ++ 45 :: zdec size' ++ 45 :: dec (adler b')) in E.
  apply app_inv_head in E.
  change (45 :: zdec size ++ 45 :: dec (adler b)) with ((45 :: zdec size) ++ 45 :: dec (adler b)) in E.
  change (45 :: zdec size' ++ 45 :: dec (adler b')) with ((45 :: zdec size') ++ 45 :: dec (adler b')) in E.
  rewrite !app_assoc in E. apply last_dash in E as [E E3]; try apply dec_no_dash.
  apply last_dash in E as [E1 E2]; try (apply zdec_no_dash; assumption).
  split; [apply zdec_same; exact E1|]. split; [apply zdec_same; exact E2|].
  apply (f_equal py_int) in E3. rewrite !py_int_dec in E3. injection E3. lia.
Qed.
Lemma tag_cons secs size b t : tag_says secs size b t -> exists c r, t = c :: r.
Proof. intros ->. eexists. eexists. cbn [lit List.app]. reflexivity. Qed.
Lemma zdec_no c z : c <> 45 -> is_ascii_digit c = false -> ~ In c (zdec z).
Proof.
  intros N D. assert (K : forall n, ~ In c (dec n)).
  { intros n H. pose proof (dec_digits n) as F. rewrite forallb_forall in F. apply F in H. congruence. }
  destruct z; cbn [zdec].
  - intros [E|[]]. subst c. discriminate D.
  - apply K.
  - intros [E|H]; [congruence|exact (K _ H)].
Qed.
Lemma tag_plain secs size b t : tag_says secs size b t -> plain_tag (Strong, t).
Proof.
  intros T. destruct (tag_cons _ _ _ _ T) as (c & r & E). split; [cbn [snd]; rewrite E; discriminate|]. cbn [snd]. clear c r E.
  assert (K : forall c, c <> 45 -> is_ascii_digit c = false -> ~ In c (lit "wzsdm-") -> ~ In c t).
  { intros c N D W. rewrite T. change (lit "-") with [45].
    intros H. repeat (apply in_app_or in H as [H|H]); try (apply W; exact H); try (destruct H as [H|[]]; congruence);
      try (exact (zdec_no c _ N D H)).
    pose proof (dec_digits (adler b)) as F. rewrite forallb_forall in F. apply F in H. congruence. }
  split; apply K; try discriminate; try reflexivity; cbn; intuition discriminate.
Qed.

(** ** The decision *)
Lemma bare_tags date md5 fuel env h l t lastmod : unquote_etag t = Some (t, false) -> (exists c r, t = c :: r) ->
  get_or_head (ce_method env) -> ce_inm env = Some h -> tag_list h l -> Forall plain_tag l -> (length h <= fuel)%nat ->
  exists b, is_resource_modified date md5 fuel env (Some t) None lastmod = Some (Ok b) /\ (b = false <-> In (Strong, t) l).
Proof.
  intros U (c & r & E) Hm Hi Hl Hp Hf. unfold is_resource_modified. rewrite (proj2 (method_get _) Hm). cbn [negb].
  rewrite E, Hi. rewrite (parse_etags_list h l fuel) by auto. rewrite et_bool_list by (eapply tag_list_nonempty; eauto).
  eexists. split; [reflexivity|]. rewrite negb_false_iff, <- E. unfold et_contains_raw. rewrite U. unfold et_contains.
  cbn [e_star e_strong orb]. rewrite has_tag_texts. split.
  - intros (m & H & W). destruct m; try discriminate W. exact H.
  - intros H. exists Strong. auto.
Qed.
Lemma bare_star date md5 fuel env t lastmod : unquote_etag t = Some (t, false) -> (exists c r, t = c :: r) ->
  get_or_head (ce_method env) -> ce_inm env = Some [42] -> (1 <= fuel)%nat ->
  is_resource_modified date md5 fuel env (Some t) None lastmod = Some (Ok false).
Proof.
  intros U (c & r & E) Hm Hi Hf. unfold is_resource_modified. rewrite (proj2 (method_get _) Hm). cbn [negb].
  rewrite E, Hi. rewrite parse_etags_star by auto. cbn [et_bool e_star orb]. rewrite <- E. unfold et_contains_raw. rewrite U.
  reflexivity.
Qed.
Lemma other_method date md5 fuel env t lastmod : ~ get_or_head (ce_method env) ->
  is_resource_modified date md5 fuel env (Some t) None lastmod = Some (Ok false).
Proof.
  intros Hm. unfold is_resource_modified.
  destruct (eqs (ce_method env) (lit "GET") || eqs (ce_method env) (lit "HEAD")) eqn:E; [|reflexivity].
  exfalso. apply Hm. apply method_get. exact E.
Qed.

(** ** Sending *)
Lemma line_of d : real_date d -> exists v, date_line d v /\ http_date (DDatetime d None) = Ok v.
Proof.
  intros R. destruct (real_day d R) as [n H]. exists (rfc1123 n d (lit "GMT")). split; [exists n; auto|].
  unfold http_date, dump_date. rewrite (proj1 (date_text_spec d n R H)). reflexivity.
Qed.
Lemma line_of_moment t d : moment t d -> exists v, date_line d v /\ http_date (DNumber t) = Ok v.
Proof.
  intros [R (s & Hs & I)]. destruct (real_day d R) as [n H]. exists (rfc1123 n d (lit "GMT")). split; [exists n; auto|].
  unfold http_date, dump_date. rewrite (gmtime_spec t d s Hs R I), (proj1 (date_text_spec d n R H)). reflexivity.
Qed.
Lemma line_dated d v : date_line d v -> dated v d.
Proof. intros (n & _ & E). exact (da_rfc1123 v d n E). Qed.
Lemma line_fun d v v' : date_line d v -> date_line d v' -> v = v'.
Proof.
  intros (n & H & ->) (n' & H' & ->). apply nth_day_ord in H as (_ & _ & _ & E). apply nth_day_ord in H' as (_ & _ & _ & E').
  f_equal. lia.
Qed.
Ltac names := repeat (first [apply vo_nil | apply vo_hit; [reflexivity|] | apply vo_miss; [intros Q; discriminate Q|]]).

Section Serve.
  Variable guess_type : str -> option str.
  Variable mktime : datetime -> Z.
  Variable fs_encode : str -> res str.
  Local Notation send := (send_file guess_type mktime fs_encode).

  Lemma etag_is name s b : fs_encode name = Ok b ->
    exists t, tag_says (mktime (time_of s)) (size_said s) b t /\ generate_etag mktime fs_encode (time_of s) (size_said s) name = Ok t.
  Proof.
    intros E. eexists. split; [reflexivity|]. unfold generate_etag. rewrite E. cbn [bind]. rewrite adler32_spec. reflexivity.
  Qed.
  Lemma send_cached m now fuel env name s b t d d' v v' lm :
    m_cache m = true -> fs_encode name = Ok b -> tag_says (mktime (time_of s)) (size_said s) b t ->
    moment now d -> moment (now + m_timeout m) d' -> date_line d v -> date_line d' v' ->
    real_date (time_of s) -> date_line (time_of s) lm ->
    send m now fuel env name s =
    match is_resource_modified date_micros (fun d => d) fuel env (Some t) None (Some (seconds (time_of s) * 1000000 + micros_of s)%Z) with
    | None => None
    | Some (Raise e) => Some (Raise e)
    | Some (Ok false) => Some (Ok (RP (lit "304 Not Modified")
        [(lit "Date", v); (lit "Etag", 34 :: t ++ [34]); (lit "Cache-Control", lit "max-age=" ++ zdec (m_timeout m) ++ lit ", public")] None true))
    | Some (Ok true) => Some (Ok (RP (lit "200 OK")
        [(lit "Date", v); (lit "Etag", 34 :: t ++ [34]); (lit "Cache-Control", lit "max-age=" ++ zdec (m_timeout m) ++ lit ", public");
         (lit "Expires", v'); (lit "Content-Type", mime_type guess_type m name); (lit "Content-Length", zdec (size_said s)); (lit "Last-Modified", lm)]
        (Some (bytes_of s)) false))
    end.
  Proof.
    intros C E T M M' V V' R L. destruct (line_of_moment _ _ M) as (v0 & V0 & D). rewrite (line_fun _ _ _ V0 V) in D.
    destruct (line_of_moment _ _ M') as (v1 & V1 & D'). rewrite (line_fun _ _ _ V1 V') in D'.
    destruct (line_of _ R) as (l0 & L0 & DL). rewrite (line_fun _ _ _ L0 L) in DL.
    destruct (etag_is name s b E) as (t0 & T0 & G). rewrite T0, <- T in G.
    unfold send_file. destruct s as [by_ ti mi|by_ ti mi]; cbn [opener time_of size_said micros_of bytes_of] in *;
      rewrite D, C, G, D', DL; cbn [bind List.app];
      destruct (is_resource_modified _ _ _ _ _ _ _) as [[[]|]|]; reflexivity.
  Qed.
  Lemma send_uncached m now fuel env name s d v lm :
    m_cache m = false -> moment now d -> date_line d v -> real_date (time_of s) -> date_line (time_of s) lm ->
    send m now fuel env name s = Some (Ok (RP (lit "200 OK")
        [(lit "Date", v); (lit "Cache-Control", lit "public");
         (lit "Content-Type", mime_type guess_type m name); (lit "Content-Length", zdec (size_said s)); (lit "Last-Modified", lm)]
        (Some (bytes_of s)) false)).
  Proof.
    intros C M V R L. destruct (line_of_moment _ _ M) as (v0 & V0 & D). rewrite (line_fun _ _ _ V0 V) in D.
    destruct (line_of _ R) as (l0 & L0 & DL). rewrite (line_fun _ _ _ L0 L) in DL.
    unfold send_file. destruct s as [by_ ti mi|by_ ti mi]; cbn [opener time_of size_said micros_of bytes_of] in *;
      rewrite D, C, DL; reflexivity.
  Qed.

  Lemma type_line m name : exists ty, ty = mime_type guess_type m name /\
    ((guess_type name = Some ty /\ ty <> []) \/ ((guess_type name = None \/ guess_type name = Some []) /\ ty = m_fallback m)).
  Proof using Type.
    eexists. split; [reflexivity|]. unfold mime_type. destruct (guess_type name) as [[|c r]|]; auto.
    left. split; [reflexivity|discriminate].
  Qed.

  (** Every answer with caching on. *)
  Lemma cached_cases m now fuel env name s t :
    m_cache m = true -> dates_exist m now s -> tag_now mktime fs_encode name s t ->
    exists r304 r200,
    unchanged r304 /\ sends r200 s /\
    cache_lines m t (r_headers r304) /\ cache_lines m t (r_headers r200) /\
    dates_line (lit "Date") now (r_headers r304) /\ dates_line (lit "Date") now (r_headers r200) /\
    dates_line (lit "Expires") (now + m_timeout m) (r_headers r200) /\
    file_lines guess_type m name s (r_headers r200) /\
    length (r_headers r304) = 3%nat /\ length (r_headers r200) = 7%nat /\
    send m now fuel env name s =
    match is_resource_modified date_micros (fun d => d) fuel env (Some t) None (Some (seconds (time_of s) * 1000000 + micros_of s)%Z) with
    | None => None
    | Some (Raise e) => Some (Raise e)
    | Some (Ok false) => Some (Ok r304)
    | Some (Ok true) => Some (Ok r200)
    end.
  Proof.
    intros C ((R & Y & U) & (d & M) & (d' & M')) (b & E & T).
    destruct (line_of_moment _ _ M) as (v & V & _). destruct (line_of_moment _ _ M') as (v' & V' & _).
    destruct (line_of _ R) as (lm & L & _). destruct (type_line m name) as (ty & -> & Ty).
    eexists. eexists. rewrite (send_cached m now fuel env name s b t d d' v v' lm); try assumption.
    split; [|split; [|split; [|split; [|split; [|split; [|split; [|split; [|split; [|split; [|reflexivity]]]]]]]]]];
      cbn [r_headers r_status r_body r_closed length]; try reflexivity.
    - repeat split.
    - repeat split.
    - split; cbn [r_headers]; names.
    - split; cbn [r_headers]; names.
    - exists v, d. split; [cbn [r_headers]; names|auto].
    - exists v, d. split; [cbn [r_headers]; names|auto].
    - exists v', d'. split; [cbn [r_headers]; names|auto].
    - split; [eexists; split; [cbn [r_headers]; names|exact Ty]|]. split; [cbn [r_headers]; names|].
      exists lm. split; [cbn [r_headers]; names|exact L].
  Qed.
  Lemma uncached_answer m now fuel env name s :
    m_cache m = false -> dates_exist m now s ->
    exists r, send m now fuel env name s = Some (Ok r) /\ sends r s /\ file_lines guess_type m name s (r_headers r) /\
      dates_line (lit "Date") now (r_headers r) /\
      absent (lit "ETag") (r_headers r) /\ absent (lit "Expires") (r_headers r) /\
      values_of (lit "Cache-Control") (r_headers r) [lit "public"] /\ length (r_headers r) = 5%nat.
  Proof.
    intros C ((R & Y & U) & (d & M) & (d' & M')).
    destruct (line_of_moment _ _ M) as (v & V & _).
    destruct (line_of _ R) as (lm & L & _). destruct (type_line m name) as (ty & -> & Ty).
    eexists. split; [apply (send_uncached m now fuel env name s d v lm); assumption|]. split; [repeat split|].
    cbn [r_headers]. split.
    { split; [eexists; split; [names|exact Ty]|]. split; [names|]. exists lm. split; [names|exact L]. }
    split; [exists v, d; split; [names|auto]|].
    split; [repeat constructor; discriminate|]. split; [repeat constructor; discriminate|]. split; [names|reflexivity].
  Qed.

  Lemma tag_bare name s t : tag_now mktime fs_encode name s t -> unquote_etag t = Some (t, false) /\ exists c r, t = c :: r.
  Proof. intros (b & _ & T). split; [eapply tag_unquoted|eapply tag_cons]; eauto. Qed.

  Lemma serve_tags m now fuel env name s t h l :
    m_cache m = true -> dates_exist m now s -> tag_now mktime fs_encode name s t -> get_or_head (ce_method env) ->
    ce_inm env = Some h -> tag_list h l -> Forall plain_tag l -> (length h <= fuel)%nat ->
    exists r, send m now fuel env name s = Some (Ok r) /\
      ((In (Strong, t) l /\ unchanged r) \/ (~ In (Strong, t) l /\ sends r s)).
  Proof.
    intros C D T G I TL PL F. destruct (cached_cases m now fuel env name s t C D T) as (r3 & r2 & U & S & _ & _ & _ & _ & _ & _ & _ & _ & E).
    destruct (tag_bare name s t T) as [Uq Nn].
    destruct (bare_tags date_micros (fun d => d) fuel env h l t (Some (seconds (time_of s) * 1000000 + micros_of s)%Z) Uq Nn G I TL PL F) as (b & Eb & Ib).
    rewrite E, Eb. destruct b; eexists; (split; [reflexivity|]).
    - right. split; [|exact S]. intros H. apply Ib in H. discriminate H.
    - left. split; [apply Ib; reflexivity|exact U].
  Qed.
  Lemma serve_star m now fuel env name s t :
    m_cache m = true -> dates_exist m now s -> tag_now mktime fs_encode name s t -> get_or_head (ce_method env) ->
    ce_inm env = Some [42] -> (1 <= fuel)%nat -> exists r, send m now fuel env name s = Some (Ok r) /\ unchanged r.
  Proof.
    intros C D T G I F. destruct (cached_cases m now fuel env name s t C D T) as (r3 & r2 & U & S & _ & _ & _ & _ & _ & _ & _ & _ & E).
    destruct (tag_bare name s t T) as [Uq Nn]. rewrite E, bare_star by assumption. eauto.
  Qed.
  Lemma serve_dates m now fuel env name s t :
    m_cache m = true -> dates_exist m now s -> tag_now mktime fs_encode name s t -> get_or_head (ce_method env) ->
    ce_inm env = None \/ ce_inm env = Some [] ->
    (forall h since ss st, ce_ims env = Some h -> dated h since -> real_date since -> (100 <= dt_year since)%Z -> instant since ss ->
       instant (time_of s) st -> exists r, send m now fuel env name s = Some (Ok r) /\
       (((st <= ss)%Z /\ unchanged r) \/ ((ss < st)%Z /\ sends r s))) /\
    (ce_ims env = None \/ (exists h, ce_ims env = Some h /\ parse_date (Some h) = Ok None) ->
       exists r, send m now fuel env name s = Some (Ok r) /\ sends r s).
  Proof.
    intros C D T G I. destruct (cached_cases m now fuel env name s t C D T) as (r3 & r2 & U & S & _ & _ & _ & _ & _ & _ & _ & _ & E).
    destruct (decision_date date_micros (fun d => d) fuel env (Some t) (Some (seconds (time_of s) * 1000000 + micros_of s)%Z) G ltac:(tauto)) as (b & Eb & Ib).
    rewrite E, Eb. split.
    - intros h since ss st H Dh R Y Is It. destruct D as ((Rt & _ & Mu) & _).
      pose proof (date_micros_dated h since ss R Y Dh Is) as Dm.
      apply (real_instant _ st Rt) in It.
      assert (K : b = false <-> (st <= ss)%Z).
      { rewrite Ib. rewrite It.
        assert (Q : ((((st + 86400) * 1000000 + micros_of s) / 1000000 = st + 86400)%Z))
          by (rewrite Z.div_add_l by lia; rewrite Z.div_small by lia; lia).
        split.
        - intros (h' & si & mm & H1 & H2 & H3 & H4). rewrite H in H1. injection H1 as <-. rewrite Dm in H2. injection H2 as <-. injection H3 as <-.
          rewrite Q in H4. lia.
        - intros Hle. exists h, ((ss + 86400) * 1000000)%Z. eexists. split; [exact H|]. split; [exact Dm|]. split; [reflexivity|]. rewrite Q. lia. }
      destruct b; eexists; (split; [reflexivity|]).
      + right. split; [|exact S]. destruct (Z.lt_ge_cases ss st) as [|Hge]; [assumption|]. apply K in Hge. discriminate Hge.
      + left. split; [apply K; reflexivity|exact U].
    - intros N. destruct b; [eexists; split; [reflexivity|exact S]|]. exfalso.
      destruct (proj1 Ib eq_refl) as (h & si & mm & H1 & H2 & _). destruct N as [N|(h' & N & P)]; [congruence|].
      rewrite H1 in N. injection N as <-. unfold date_micros in H2. rewrite P in H2. discriminate H2.
  Qed.

  Lemma serve_other m now fuel env name s t :
    m_cache m = true -> dates_exist m now s -> tag_now mktime fs_encode name s t -> ~ get_or_head (ce_method env) ->
    exists r, send m now fuel env name s = Some (Ok r) /\ unchanged r.
  Proof.
    intros C D T G. destruct (cached_cases m now fuel env name s t C D T) as (r3 & r2 & U & S & _ & _ & _ & _ & _ & _ & _ & _ & E).
    rewrite E, other_method by assumption. eauto.
  Qed.

  (** Asking again with what the first answer said. *)
  Lemma serve_again_tag m now now' fuel fuel' env env' name s b e r :
    m_cache m = true -> dates_exist m now s -> dates_exist m now' s -> fs_encode name = Ok b ->
    send m now fuel env name s = Some (Ok r) -> values_of (lit "ETag") (r_headers r) [e] ->
    get_or_head (ce_method env') -> ce_inm env' = Some e -> (length e <= fuel')%nat ->
    exists r', send m now' fuel' env' name s = Some (Ok r') /\ unchanged r'.
  Proof.
    intros C D D' B S1 V G I F. destruct (etag_is name s b B) as (t & T & _).
    assert (Tn : tag_now mktime fs_encode name s t) by (exists b; auto).
    destruct (cached_cases m now fuel env name s t C D Tn) as (r3 & r2 & _ & _ & L3 & L2 & _ & _ & _ & _ & _ & _ & E).
    assert (He : e = write_tag (Strong, t)).
    { rewrite E in S1. destruct (is_resource_modified _ _ _ _ _ _ _) as [[[]|]|]; inv S1.
      - pose proof (values_of_fun _ _ _ _ V (proj1 L2)) as Q. injection Q as ->. reflexivity.
      - pose proof (values_of_fun _ _ _ _ V (proj1 L3)) as Q. injection Q as ->. reflexivity. }
    destruct (serve_tags m now' fuel' env' name s t e [(Strong, t)] C D' Tn G I) as (r' & E' & [[_ U]|[N _]]); auto.
    - rewrite He. constructor.
    - constructor; [|constructor]. eapply tag_plain; eauto.
    - eauto.
    - exfalso. apply N. left. reflexivity.
  Qed.
  Lemma serve_again_date m now now' fuel fuel' env env' name s b v r :
    m_cache m = true -> dates_exist m now s -> dates_exist m now' s -> fs_encode name = Ok b ->
    send m now fuel env name s = Some (Ok r) -> values_of (lit "Last-Modified") (r_headers r) [v] ->
    get_or_head (ce_method env') -> ce_inm env' = None -> ce_ims env' = Some v ->
    exists r', send m now' fuel' env' name s = Some (Ok r') /\ unchanged r'.
  Proof.
    intros C D D' B S1 V G I M. destruct (etag_is name s b B) as (t & T & _).
    assert (Tn : tag_now mktime fs_encode name s t) by (exists b; auto).
    assert (Hv : date_line (time_of s) v).
    { destruct D as ((R & _) & (d0 & M0) & (d1 & M1)). destruct (line_of_moment _ _ M0) as (v0 & V0 & _).
      destruct (line_of_moment _ _ M1) as (v1 & V1 & _). destruct (line_of _ R) as (lm & L & _).
      rewrite (send_cached m now fuel env name s b t d0 d1 v0 v1 lm) in S1 by assumption.
      destruct (is_resource_modified _ _ _ _ _ _ _) as [[[]|]|]; inv S1; cbn [r_headers] in V.
      - assert (Q : values_of (lit "Last-Modified") [(lit "Date", v0); (lit "Etag", 34 :: t ++ [34]);
          (lit "Cache-Control", lit "max-age=" ++ zdec (m_timeout m) ++ lit ", public"); (lit "Expires", v1);
          (lit "Content-Type", mime_type guess_type m name); (lit "Content-Length", zdec (size_said s)); (lit "Last-Modified", lm)] [lm]) by names.
        pose proof (values_of_fun _ _ _ _ V Q) as W. injection W as ->. exact L.
      - assert (Q : values_of (lit "Last-Modified") [(lit "Date", v0); (lit "Etag", 34 :: t ++ [34]);
          (lit "Cache-Control", lit "max-age=" ++ zdec (m_timeout m) ++ lit ", public")] []) by names.
        pose proof (values_of_fun _ _ _ _ V Q) as W. discriminate W. }
    destruct D' as (Ti & M2). destruct (real_day _ (proj1 Ti)) as [n Hn].
    destruct (proj1 (serve_dates m now' fuel' env' name s t C (conj Ti M2) Tn G (or_introl I)) v (time_of s)
      (n * 86400 + dt_hour (time_of s) * 3600 + dt_minute (time_of s) * 60 + dt_second (time_of s))%Z
      (n * 86400 + dt_hour (time_of s) * 3600 + dt_minute (time_of s) * 60 + dt_second (time_of s))%Z M (line_dated _ _ Hv) (proj1 Ti) (proj1 (proj2 Ti)))
      as (r' & E' & [[_ U]|[N _]]); [exists n; auto|exists n; auto|eauto|lia].
  Qed.
  Lemma serve_changed m now fuel env name s s' t h :
    m_cache m = true -> dates_exist m now s' -> (exists b, fs_encode name = Ok b) -> tag_now mktime fs_encode name s t -> h = 34 :: t ++ [34] ->
    mktime (time_of s) <> mktime (time_of s') \/ size_said s <> size_said s' ->
    get_or_head (ce_method env) -> ce_inm env = Some h -> (length h <= fuel)%nat ->
    exists r, send m now fuel env name s' = Some (Ok r) /\ sends r s'.
  Proof.
    intros C D (b & B) (b0 & B0 & T) -> Ne G I F. destruct (etag_is name s' b B) as (t' & T' & _).
    assert (Tn : tag_now mktime fs_encode name s' t') by (exists b; auto).
    destruct (serve_tags m now fuel env name s' t' _ [(Strong, t)] C D Tn G I) as (r' & E' & [[N _]|[_ U]]); auto.
    - apply (tl_one (Strong, t)).
    - constructor; [|constructor]. eapply tag_plain; eauto.
    - exfalso. destruct N as [N|[]]. injection N as ->.
      destruct (tag_tells _ _ _ _ _ _ _ (size_nonneg s) (size_nonneg s') T T') as (A & B1 & _). tauto.
    - eauto.
  Qed.

End Serve.

(** ** The whole call *)
Section Call.
  Variable fnmatch : str -> str -> bool.
  Variable guess_type : str -> option str.
  Variable mktime : datetime -> Z.
  Variable fs_encode : str -> res str.
  Variable exists_ : str -> bool.
  Variable disk : str -> source.
  Local Notation send := (send_file guess_type mktime fs_encode).
  Local Notation call := (shared_call fnmatch guess_type mktime fs_encode exists_ disk).
  Lemma call_decides m now fuel env path asked r (allowed : str -> bool) :
    (forall f, is_allowed fnmatch (m_disallow m) f = Ok (allowed f)) ->
    shared_data exists_ allowed (m_exports m) path = (asked, r) ->
    match r with
    | None => call m now fuel env path = (Some (Ok PassedOn), [])
    | Some file => call m now fuel env path =
        (match send m now fuel env (basename file) (disk file) with
         | None => None
         | Some (Raise e) => Some (Raise e)
         | Some (Ok x) => Some (Ok (Sent x))
         end, [file])
    end.
  Proof.
    intros A. unfold shared_data, shared_call. destruct (find_file exists_ (m_exports m) (clean_path path)) as [asked' found] eqn:Ef.
    cbn [snd]. intros E. injection E as <- <-. destruct found as [[name file]|]; [|reflexivity]. rewrite A.
    destruct (allowed name); [|reflexivity].
    destruct (find_base _ _ _ _ _ _ Ef) as [-> _].
    destruct (send_file _ _ _ _ _ _ _ _ _) as [[x|e]|]; reflexivity.
  Qed.
  Lemma call_list m now fuel env path ps : m_disallow m = PatternList ps ->
    (forall asked, shared_data exists_ (fun _ => true) (m_exports m) path = (asked, None) -> call m now fuel env path = (Some (Ok PassedOn), [])) /\
    (forall asked file, shared_data exists_ (fun _ => true) (m_exports m) path = (asked, Some file) -> call m now fuel env path = (Some (Raise TypeError), [])).
  Proof.
    intros A. unfold shared_data, shared_call. destruct (find_file exists_ (m_exports m) (clean_path path)) as [asked' found] eqn:Ef.
    cbn [snd]. rewrite A. destruct found as [[name file]|]; split; intros; try discriminate; reflexivity.
  Qed.
End Call.
