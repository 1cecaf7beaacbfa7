From Coq Require Import Arith List NArith ZArith Bool Lia ZifyBool ZifyN ZifyNat.
From Verif Require ProofStream.
From Verif Require Import PyStr PyStrFacts Utf8 Utf8Facts ModelUrls SpecUrls ProofUrls ProofIri ModelMultiDict
  SpecMultiDict ProofMultiDict ModelStream SpecStream ModelWsgi ModelRequest SpecRequest.
Import ListNotations.
Open Scope N_scope.
Ltac inv H := inversion H; subst; clear H.

(** ** unquote *)
Lemma unquote_runs_ascii err s : forall run, ascii_text s -> unquote_runs err run s = unquote_run err (rev run ++ s).
Proof.
  induction s as [|c s IH]; intros run H; cbn [unquote_runs]; [rewrite app_nil_r; auto|].
  assert (Hc : c < 128) by (apply H; left; auto). destruct (N.ltb_spec c 128); [|lia].
  rewrite IH by (intros x Hx; apply H; right; auto). cbn [rev]. rewrite <- app_assoc. auto.
Qed.
Lemma percent_free s : ~ In 37 s -> percent_decodes s s.
Proof. intros H. rewrite <- (app_nil_r s). apply unescapes_plain; auto. constructor. Qed.
Lemma unescapes_no_keep unsafe s t : unescapes (fun v => In v (unsafe : str)) s t -> unsafe = [] -> percent_decodes s t.
Proof. intros H E. subst. exact H. Qed.
Lemma unquote_ascii err s b t : ascii_text s -> percent_decodes s b -> utf8_encode t = Ok b -> unquote err s = Ok t.
Proof.
  intros Ha Hp Ht. unfold unquote. destruct (mem 37 s) eqn:M.
  - rewrite unquote_runs_ascii; auto. cbn [rev app]. unfold unquote_run.
    pose proof (safe_unquote_spec [] s) as Hs.
    rewrite (unescapes_fun _ _ _ Hs b Hp). eapply utf8_roundtrip; eauto.
  - apply mem_not_In in M. pose proof (unescapes_fun _ _ _ (percent_free s M) b Hp). subst b.
    f_equal. eapply utf8_encode_inj; [|exact Ht]. apply utf8_ascii. apply forallb_forall. intros c Hc. apply N.ltb_lt. auto.
Qed.
Lemma plus_swap s : swap_c 43 32 s = plus_as_space s.
Proof. reflexivity. Qed.
Lemma plus_ascii s : ascii_text s -> ascii_text (plus_as_space s).
Proof.
  intros H c Hc. apply in_map_iff in Hc as (x & <- & Hx). apply H in Hx. destruct (x =? 43); lia.
Qed.
Lemma unquote_plus_spec err raw t : form_decodes raw t -> unquote_plus err raw = Ok t.
Proof.
  intros [Ha (b & Hp & Ht)]. unfold unquote_plus. rewrite plus_swap. eapply unquote_ascii; eauto. apply plus_ascii; auto.
Qed.

(** ** parse_qsl *)
Lemma in_app_cons (x c : N) a b : In x (a ++ c :: b) <-> In x a \/ x = c \/ In x b.
Proof. rewrite in_app_iff. cbn [In]. intuition congruence. Qed.
Lemma piece_spec err raw o : piece_means raw o -> qsl_piece err raw = Ok (somes [o]) /\ ~ In 38 raw /\ ascii_text raw.
Proof.
  intros H. inv H; unfold qsl_piece.
  - rewrite partition_app; auto. destruct rawvalue as [|v0 v]; [congruence|].
    rewrite (unquote_plus_spec err rawname name), (unquote_plus_spec err (v0 :: v) value); auto. split; auto. split.
    + rewrite in_app_cons. intuition congruence.
    + intros c. rewrite in_app_cons. destruct H4 as [A _], H5 as [B _]. intros [Hc|[->|Hc]]; auto; lia.
  - rewrite partition_none; auto.
  - rewrite partition_app; auto. split; auto. split.
    + rewrite in_app_cons. cbn [In]. intuition congruence.
    + intros c. rewrite in_app_cons. intros [Hc|[->|[]]]; auto; lia.
Qed.
Lemma split_join c l : l <> [] -> Forall (fun p => ~ In c p) l -> split_on c (join [c] l) = l.
Proof.
  induction l as [|a l IH]; intros Hn H; [congruence|]. inv H. destruct l as [|b l].
  - cbn [join]. apply split_on_none; auto.
  - change (join [c] (a :: b :: l)) with (a ++ c :: join [c] (b :: l)). rewrite split_on_app; auto. rewrite IH; auto. discriminate.
Qed.
Lemma join_ascii l : Forall ascii_text l -> ascii_text (join [38] l).
Proof.
  induction 1 as [|a l Ha Hl IH]; [intros c []|]. destruct l as [|b l]; auto.
  change (join [38] (a :: b :: l)) with (a ++ 38 :: join [38] (b :: l)).
  intros c. rewrite in_app_cons. intros [Hc|[->|Hc]]; auto; lia.
Qed.
Lemma parse_pieces err raws means : Forall2 piece_means raws means ->
  parse_qsl err (join [38] raws) = Ok (somes means) /\ ascii_text (join [38] raws).
Proof.
  intros H.
  assert (A : Forall ascii_text raws /\ Forall (fun p => ~ In 38 p) raws /\
              exists ls, traverse (qsl_piece err) raws = Ok ls /\ concat ls = somes means).
  { induction H as [|r m rs ms Hr Hs IH]; [repeat constructor; exists []; auto|].
    destruct IH as (I1 & I2 & ls & I3 & I4). apply (piece_spec err) in Hr as (R1 & R2 & R3).
    split; [constructor; auto|]. split; [constructor; auto|].
    exists (somes [m] :: ls). cbn [traverse bind]. rewrite R1. cbn [bind]. rewrite I3. split; auto.
    cbn [concat]. rewrite I4. unfold somes. cbn [flat_map]. rewrite app_nil_r. auto. }
  destruct A as (A1 & A2 & ls & A3 & A4). split; [|apply join_ascii; auto].
  destruct raws as [|r rs]; [inv H; auto|].
  unfold parse_qsl. destruct (join [38] (r :: rs)) as [|c q] eqn:J.
  - assert (rs = [] /\ r = []) as [-> ->].
    { destruct rs as [|r' rs]; [split; auto|]. exfalso. change (join [38] (r :: r' :: rs)) with (r ++ 38 :: join [38] (r' :: rs)) in J.
      destruct r; discriminate. }
    inversion H as [|? m ? ms Hm Hms]; subst. inversion Hms; subst. cbn in A3. inv A3. rewrite <- A4. auto.
  - rewrite <- J. rewrite split_join; [|discriminate|auto]. rewrite A3. cbn [bind]. rewrite A4. auto.
Qed.
Lemma getlist_adds l : forall (d : mdict str) m, rep d m -> forall k,
  m_getlist (m_adds d l) k = mm_vals m k ++ values_for l k.
Proof.
  intros d m H k. destruct (rep_appends l d m H) as (_ & _ & _ & E). rewrite <- E. clear E H d. revert m.
  induction l as [|[a v] l IH]; intros m; cbn [fold_left].
  - unfold values_for. cbn. rewrite app_nil_r. auto.
  - rewrite IH. unfold append, put, values_for. cbn [mm_vals fst snd filter]. unfold change.
    destruct (list_eq_dec N.eq_dec k a) as [Hn|Hn], (list_eq_dec N.eq_dec a k) as [E|E]; try congruence; cbn [map snd]; auto.
    subst. rewrite <- app_assoc. auto.
Qed.
Lemma dance_ascii err s : ascii_text s -> wsgi_decoding_dance err s = Ok s.
Proof.
  intros H. apply dance_roundtrip. unfold wsgi_encoding_dance. apply utf8_ascii. apply forallb_forall. intros c Hc. apply N.ltb_lt. auto.
Qed.
Lemma args_spec environ raws means :
  dget environ (lit "QUERY_STRING") = Some (join [38] raws) -> Forall2 piece_means raws means ->
  exists d, req_args environ = Ok d /\ forall k, m_getlist d k = values_for (somes means) k.
Proof.
  intros Hq H. destruct (parse_pieces Replace raws means H) as [P A].
  exists (m_adds [] (somes means)). split.
  - unfold req_args, env_or. rewrite Hq, dance_ascii; auto. cbn [bind]. rewrite P. cbn [bind].
    reflexivity.
  - intros k. rewrite (getlist_adds _ _ _ rep_empty). auto.
Qed.

Definition space_as_plus (s : str) : str := map (fun c => if c =? 32 then 43 else c) s.
Lemma plus_space s : ~ In 43 s -> plus_as_space (space_as_plus s) = s.
Proof.
  intros H. unfold plus_as_space, space_as_plus. rewrite map_map. rewrite <- (map_id s) at 2. apply map_ext_in.
  intros c Hc. destruct (N.eqb_spec c 32); [subst; auto|]. destruct (N.eqb_spec c 43); auto. subst. contradiction.
Qed.
Lemma quoted_plus_chars s q c : urlquote_plus [] s = Ok q -> In c q -> c < 128 /\ c <> 38 /\ c <> 61.
Proof.
  unfold urlquote_plus. destruct (utf8_encode s) as [b|] eqn:E; cbn [bind]; [|discriminate]. intros H Hc. inv H.
  pose proof (utf8_encode_bytes _ _ E) as Hb. apply is_bytes_text in Hb.
  apply in_map_iff in Hc as (x & <- & Hx). apply quote_bytes_chars in Hx; auto.
  rewrite quote_safe_spec in Hx. unfold unreserved in Hx. cbn [In] in Hx. destruct (N.eqb_spec x 32); lia.
Qed.
Lemma quoted_plus_form s q : urlquote_plus [] s = Ok q -> form_decodes q s /\ (s <> [] -> q <> []).
Proof.
  intros H. pose proof (fun c => quoted_plus_chars s q c H) as Hq. revert H.
  unfold urlquote_plus. destruct (utf8_encode s) as [b|] eqn:E; cbn [bind]; [|discriminate]. intros H. inv H.
  pose proof (utf8_encode_bytes _ _ E) as Hb. apply is_bytes_text in Hb. split; [split|].
  - intros c Hc. apply Hq. auto.
  - exists b. split; auto. fold (space_as_plus (quote_bytes [32] b)). rewrite plus_space; [apply quote_roundtrip; auto|].
    + cbn. lia.
    + intros Hx. apply quote_bytes_chars in Hx; auto. rewrite quote_safe_spec in Hx. unfold unreserved in Hx. cbn [In] in Hx. lia.
  - intros Hs Hn. apply map_eq_nil in Hn. destruct b as [|c b].
    + apply Hs. eapply utf8_encode_inj; [exact E|reflexivity].
    + unfold quote_bytes in Hn. cbn [flat_map] in Hn. unfold quote_byte at 1 in Hn. destruct (quote_safe _ _); discriminate.
Qed.
Lemma urlencode_means pairs q : urlencode pairs = Ok q -> Forall (fun kv => snd kv <> []) pairs ->
  exists raws, q = join [38] raws /\ Forall2 piece_means raws (map Some pairs).
Proof.
  unfold urlencode. destruct (traverse _ pairs) as [raws|] eqn:T; cbn [bind]; [|discriminate]. intros H F. inv H.
  exists raws. split; auto. revert raws T. induction F as [|[k v] l Hv Hl IH]; intros raws; cbn [traverse map fst snd].
  - intros H. inv H. constructor.
  - destruct (urlquote_plus [] k) as [qk|] eqn:K; cbn [bind]; [|discriminate].
    destruct (urlquote_plus [] v) as [qv|] eqn:V; cbn [bind]; [|discriminate].
    destruct (traverse _ l) as [rs|]; cbn [bind]; [|discriminate]. intros H. inv H.
    destruct (quoted_plus_form _ _ K) as [K1 _], (quoted_plus_form _ _ V) as [V1 V2].
    constructor; auto. constructor; auto; intros X.
    + apply (quoted_plus_chars _ _ _ K) in X. lia.
    + apply (quoted_plus_chars _ _ _ K) in X. lia.
    + apply (quoted_plus_chars _ _ _ V) in X. lia.
Qed.
Lemma somes_map {A} (l : list A) : somes (map Some l) = l.
Proof. unfold somes. induction l; cbn; f_equal; auto. Qed.
Lemma args_roundtrip environ pairs q :
  Forall (fun kv => snd kv <> []) pairs -> urlencode pairs = Ok q -> dget environ (lit "QUERY_STRING") = Some q ->
  exists d, req_args environ = Ok d /\ forall k, m_getlist d k = values_for pairs k.
Proof.
  intros F U Q. destruct (urlencode_means _ _ U F) as (raws & -> & M).
  destruct (args_spec environ raws _ Q M) as (d & D & G). exists d. split; auto. intros k. rewrite G, somes_map. auto.
Qed.
Lemma urlencode_total pairs : Forall (fun kv => unicode_text (fst kv) /\ unicode_text (snd kv)) pairs -> exists q, urlencode pairs = Ok q.
Proof.
  intros F. unfold urlencode.
  assert (P : forall s, unicode_text s -> exists q, urlquote_plus [] s = Ok q).
  { intros s Hs. unfold urlquote_plus, utf8_encode. apply scalar_text in Hs. rewrite Hs. cbn [bind]. eauto. }
  assert (exists ls, traverse (fun kv : str * str => do k <- urlquote_plus [] (fst kv); do v <- urlquote_plus [] (snd kv);
                              Ok (k ++ 61 :: v)) pairs = Ok ls) as [ls ->]; [|cbn [bind]; eauto].
  induction F as [|[k v] l [Hk Hv] Hl [ls IH]]; cbn [traverse fst snd]; [eauto|].
  cbn [fst snd] in Hk, Hv. apply P in Hk as [qk ->], Hv as [qv ->]. cbn [bind]. rewrite IH. cbn [bind]. eauto.
Qed.

(** *** never raises *)
Lemma decode_replace_total b : exists t, utf8_decode Replace b = Ok t.
Proof. unfold utf8_decode. apply utf8_dec_replace_total. discriminate. Qed.
Lemma unquote_runs_total s : forall run, exists t, unquote_runs Replace run s = Ok t.
Proof.
  induction s as [|c s IH]; intros run; cbn [unquote_runs]; [apply decode_replace_total|].
  destruct (c <? 128); [apply IH|]. unfold unquote_run. destruct (decode_replace_total (safe_unquote_bytes [] (rev run))) as [a ->].
  cbn [bind]. destruct (IH []) as [r ->]. cbn [bind]. eauto.
Qed.
Lemma unquote_plus_total s : exists t, unquote_plus Replace s = Ok t.
Proof. unfold unquote_plus, unquote. destruct (mem 37 _); [apply unquote_runs_total|eauto]. Qed.
Lemma parse_qsl_total q : exists l, parse_qsl Replace q = Ok l.
Proof.
  assert (forall ps, exists ls, traverse (qsl_piece Replace) ps = Ok ls) as T.
  { induction ps as [|p ps [ls IH]]; cbn [traverse]; [eauto|].
    assert (exists x, qsl_piece Replace p = Ok x) as [x ->].
    { unfold qsl_piece. destruct (partition 61 p) as [n v]. destruct v; [eauto|].
      destruct (unquote_plus_total n) as [a ->]. destruct (unquote_plus_total (n0 :: v)) as [b ->]. cbn [bind]. eauto. }
    cbn [bind]. rewrite IH. cbn [bind]. eauto. }
  unfold parse_qsl. destruct q; [eauto|]. destruct (T (split_on 38 (n :: q))) as [ls ->]. cbn [bind]. eauto.
Qed.
Lemma args_total environ : (forall v, dget environ (lit "QUERY_STRING") = Some v -> bytes_text v) -> exists d, req_args environ = Ok d.
Proof.
  intros H. unfold req_args, env_or.
  assert (bytes_text (match dget environ (lit "QUERY_STRING") with Some v => v | None => [] end)) as B.
  { destruct (dget environ _); [apply H; auto|intros c []]. }
  destruct (decoding_total Replace _ ltac:(discriminate) B) as [t ->]. cbn [bind].
  destruct (parse_qsl_total t) as [l ->]. cbn [bind]. eauto.
Qed.

(** ** C82 *)
Lemma lstrip_slashes n q : no_first_slash q -> lstrip_by (N.eqb 47) (repeat 47 n ++ q) = q.
Proof.
  intros H. rewrite lstrip_by_app.
  - apply lstrip_by_id. intros c r E. apply N.eqb_neq. intros <-. eapply H; eauto.
  - induction n; auto.
Qed.
Lemma rstrip_slashes n q : no_final_slash q -> rstrip_by (N.eqb 47) (q ++ repeat 47 n) = q.
Proof.
  intros H. rewrite rstrip_by_app.
  - apply rstrip_by_id. intros c r E. apply N.eqb_neq. intros <-. eapply H; eauto.
  - induction n; auto.
Qed.
Lemma path_text environ n q w : no_first_slash q -> wsgi_encoding_dance (repeat 47 n ++ q) = Ok w ->
  dget environ (lit "PATH_INFO") = Some w -> req_path environ = Ok (47 :: q).
Proof.
  intros Hq Hw E. unfold req_path, env_or. rewrite E. destruct (dance_roundtrip _ _ Hw) as [_ ->]. cbn [bind].
  rewrite lstrip_slashes; auto.
Qed.
Lemma script_text environ n q w : no_final_slash q -> wsgi_encoding_dance (q ++ repeat 47 n) = Ok w ->
  dget environ (lit "SCRIPT_NAME") = Some w -> req_script_root environ = Ok q.
Proof.
  intros Hq Hw E. unfold req_script_root, env_or. rewrite E. destruct (dance_roundtrip _ _ Hw) as [_ ->]. cbn [bind].
  rewrite rstrip_slashes; auto.
Qed.
Lemma env_bytes environ k : (forall v, dget environ k = Some v -> bytes_text v) -> bytes_text (env_or environ k).
Proof. intros H. unfold env_or. destruct (dget environ k); [apply H; auto|intros c []]. Qed.
Lemma path_shape environ : (forall v, dget environ (lit "PATH_INFO") = Some v -> bytes_text v) ->
  exists q, req_path environ = Ok (47 :: q) /\ no_first_slash q /\ unicode_text q.
Proof.
  intros H. apply env_bytes in H. destruct (decoding_total Replace _ ltac:(discriminate) H) as [t Ht].
  unfold req_path. rewrite Ht. cbn [bind]. exists (lstrip_by (N.eqb 47) t). split; auto.
  destruct (lstrip_by_spec (N.eqb 47) t) as (a & E & _ & X). split.
  - intros r Hr. apply X in Hr. discriminate.
  - intros c Hc. apply (decoding_text _ _ _ Ht). rewrite E. apply in_or_app. auto.
Qed.
Lemma script_shape environ : (forall v, dget environ (lit "SCRIPT_NAME") = Some v -> bytes_text v) ->
  exists q, req_script_root environ = Ok q /\ no_final_slash q /\ unicode_text q.
Proof.
  intros H. apply env_bytes in H. destruct (decoding_total Replace _ ltac:(discriminate) H) as [t Ht].
  unfold req_script_root. rewrite Ht. cbn [bind]. exists (rstrip_by (N.eqb 47) t). split; auto.
  destruct (rstrip_by_spec (N.eqb 47) t) as (a & E & _ & X). split.
  - intros r Hr. apply X in Hr. discriminate.
  - intros c Hc. apply (decoding_text _ _ _ Ht). rewrite E. apply in_or_app. auto.
Qed.

(** ** C83 *)
Lemma strip_padded pre a post : forallb is_space pre = true -> forallb is_space post = true ->
  (forall c r, a = c :: r -> is_space c = false) -> (forall c r, a = r ++ [c] -> is_space c = false) ->
  strip (pre ++ a ++ post) = a.
Proof.
  intros H1 H2 H3 H4. unfold strip, strip_by. destruct a as [|c a].
  - cbn [app]. rewrite lstrip_by_app; auto. 
    replace (lstrip_by is_space post) with (@nil N); auto. symmetry. rewrite <- (app_nil_r post), lstrip_by_app; auto.
  - rewrite lstrip_by_app; auto. rewrite (lstrip_by_id is_space ((c :: a) ++ post)).
    + rewrite rstrip_by_app; auto. apply rstrip_by_id; auto.
    + cbn [app]. intros x r E. inv E. eauto.
Qed.
Lemma route_spec environ (l : list (str * str * str)) :
  l <> [] ->
  Forall (fun p => let '(pre, a, post) := p in
    forallb is_space pre = true /\ forallb is_space post = true /\ ~ In 44 a /\
    (forall c r, a = c :: r -> is_space c = false) /\ (forall c r, a = r ++ [c] -> is_space c = false)) l ->
  dget environ (lit "HTTP_X_FORWARDED_FOR") = Some (join [44] (map (fun p => fst (fst p) ++ snd (fst p) ++ snd p) l)) ->
  req_access_route environ = map (fun p => snd (fst p)) l.
Proof.
  intros Hn F E. unfold req_access_route. rewrite E.
  assert (C : forall s, forallb is_space s = true -> ~ In 44 s).
  { intros s Hs Hi. rewrite forallb_forall in Hs. apply Hs in Hi. discriminate. }
  rewrite split_join.
  - rewrite map_map. apply map_ext_in. intros [[pre a] post] Hp. rewrite Forall_forall in F. specialize (F _ Hp).
    cbn in F |- *. destruct F as (A & B & _ & X & Y). apply strip_padded; auto.
  - intros X. apply map_eq_nil in X. contradiction.
  - apply Forall_map. eapply Forall_impl; [|exact F]. intros [[pre a] post] (A & B & D & _). cbn.
    rewrite !in_app_iff. intros [X|[X|X]]; [exact (C _ A X)|exact (D X)|exact (C _ B X)].
Qed.

(** ** C84 *)
Lemma shallow_data environ t calls input :
  get_datas environ t calls (new_request true input) = (map (fun _ => Raise RuntimeError) calls, new_request true input).
Proof.
  induction calls as [|[c x] calls IH]; auto. cbn [get_datas map]. unfold get_data, req_stream. cbn [new_request s_cached s_stream s_shallow].
  fold (new_request true input). rewrite IH. auto.
Qed.
Definition shown (as_text : bool) (b : str) : res str := if as_text then utf8_decode Replace b else Ok b.
Lemma cached_data environ t text st d st1 : get_data environ t true text st = (Ok d, st1) ->
  exists b, shown text b = Ok d /\ forall calls,
    get_datas environ t calls st1 = (map (fun c => shown (snd c) b) calls, st1).
Proof.
  intros H.
  assert (exists b, shown text b = Ok d /\ s_cached st1 = Some b) as (b & Hb & Hc).
  { unfold get_data in H. destruct (s_cached st) as [b|] eqn:C.
    - inv H. exists b. auto.
    - destruct (req_stream environ t st) as [[s|e] st0]; [|discriminate].
      destruct (read_all s) as [[b|e] s']; [|discriminate]. inv H. exists b. auto. }
  exists b. split; auto. intros calls. clear H. induction calls as [|[c x] calls IH]; auto.
  cbn [get_datas map snd]. unfold get_data at 1. rewrite Hc. fold (shown x b). rewrite IH. auto.
Qed.
Lemma first_body environ n data plan cache d st1 :
  get_content_length environ = Some n ->
  get_data environ false cache false (new_request false (fresh data plan)) = (Ok d, st1) ->
  Z.of_nat (length d) = n /\ input_taken st1 = d /\ exists rest, data = d ++ rest.
Proof.
  intros L. unfold get_data, req_stream, get_input_stream. cbn [new_request s_cached s_stream s_shallow s_input]. rewrite L.
  cbn [read_all]. destruct (read None _) as [r l] eqn:E.
  assert (G : ProofStream.good (limited_stream (fresh data plan) n)) by (apply ProofStream.good_start; auto).
  destruct (ProofStream.read_spec _ None _ _ G I E) as (x & (M & _) & P & R).
  destruct r as [y|e]; [|discriminate]. intros H. inv H. destruct R as (-> & G' & R).
  destruct M as [M1 M2]. cbn in M1, M2. pose proof (ProofStream.content_length_nonneg _ _ L). split; [|split].
  - cbn in R. destruct R as [[R ->]|[_ R]]; cbn; lia.
  - exact M1.
  - exists (u_left (l_under l)). auto.
Qed.
Lemma plain_read environ n data cache : get_content_length environ = Some n -> (n <= Z.of_nat (length data))%Z ->
  exists d st1, get_data environ false cache false (new_request false (fresh data [])) = (Ok d, st1) /\ d = firstn (Z.to_nat n) data.
Proof.
  intros L Hl. pose proof (ProofStream.content_length_nonneg _ _ L).
  unfold get_data, req_stream, get_input_stream. cbn [new_request s_cached s_stream s_shallow s_input]. rewrite L.
  cbn [read_all]. unfold read, limited_stream. cbn [l_limit l_pos]. destruct (Z.leb_spec n 0).
  - assert (n = 0%Z) by lia. subst. cbn. eauto.
  - unfold u_read, u_call, fresh. cbn [u_plan u_left l_under].
    replace (Z.min (n - 0) n) with n by lia. unfold u_cap. destruct (Z.ltb_spec n 0); [lia|].
    replace (Nat.min (Z.to_nat n) (length data)) with (Z.to_nat n) by lia. rewrite firstn_length.
    destruct (Z.eqb_spec n 0); [lia|]. destruct (Z.eqb_spec (Z.of_nat (Nat.min (Z.to_nat n) (length data))) n); [|lia].
    cbn [negb andb]. eauto.
Qed.
Lemma no_length environ data plan cache text :
  get_content_length environ = None ->
  exists st1, get_data environ false cache text (new_request false (fresh data plan)) = (Ok [], st1) /\ input_taken st1 = [].
Proof.
  intros L. unfold get_data, req_stream, get_input_stream. cbn [new_request s_cached s_stream s_shallow s_input]. rewrite L.
  cbn [read_all]. destruct text; eexists; split; reflexivity.
Qed.
Lemma second_body environ n data plan d st1 x st2 cache :
  get_content_length environ = Some n ->
  get_data environ false false false (new_request false (fresh data plan)) = (Ok d, st1) ->
  get_data environ false cache false st1 = (Ok x, st2) -> x = [] /\ input_taken st2 = d.
Proof.
  intros L. unfold get_data at 1, req_stream, get_input_stream. cbn [new_request s_cached s_stream s_shallow s_input]. rewrite L.
  cbn [read_all]. destruct (read None _) as [r l] eqn:E.
  assert (G : ProofStream.good (limited_stream (fresh data plan) n)) by (apply ProofStream.good_start; auto).
  destruct (ProofStream.read_spec _ None _ _ G I E) as (y & (M & Ml & _) & P & R).
  destruct r as [z|e]; [|discriminate]. intros H. injection H as Hz Hst. destruct R as (-> & G' & R). subst y st1.
  rename d into y. destruct M as [M1 M2]. cbn in M1, M2, Ml. pose proof (ProofStream.content_length_nonneg _ _ L).
  assert (Hlen : Z.of_nat (length y) = n) by (cbn in R; destruct R as [[R ->]|[_ R]]; cbn; lia).
  unfold get_data, req_stream. cbn [s_cached s_stream read_all]. destruct (read None l) as [r2 l2] eqn:E2.
  destruct (ProofStream.read_spec _ None _ _ G' I E2) as (w & (N & _) & P2 & R2).
  destruct r2 as [v|e]; [|discriminate]. intros H2. injection H2 as Hv Hst. destruct R2 as (-> & _ & R2). subst w st2. rename x into w.
  assert (ProofStream.taken l = y) as T by exact M1. destruct G' as [G1 G2]. rewrite T in G1.
  assert (w = []) as -> by (destruct R2 as [[_ ->]|[R2 _]]; auto; lia).
  split; auto. destruct N as [N1 _]. cbn [input_taken s_stream]. rewrite N1, app_nil_r. exact M1.
Qed.
