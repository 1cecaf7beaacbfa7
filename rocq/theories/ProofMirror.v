(** Proofs about the header properties that are objects. *)
From Coq Require Import Arith List NArith ZArith Bool Lia ZifyBool ZifyN ZifyNat.
From Verif Require Import PyStr PyStrFacts ModelQuote SpecQuote ProofQuote ProofOptions ProofIri ModelHeaders SpecHeaders ProofHeaders
  ModelRange SpecRange ProofRange ModelEtag SpecEtag ProofEtag ModelDate SpecDate ProofDate ModelUrls ModelCookie SpecCookie ProofCookie
  ModelAuth SpecAuth ProofAuth ModelUtils ProofUtils ModelCallback SpecCallback ProofCallback ModelResponse SpecResponse ProofResponse
  ModelMirror SpecMirror Utf8 Utf8Facts SpecUrls.
Import ListNotations.
Open Scope N_scope.

(** ** Lines *)
Lemma keep_set h k t : SpecHeaders.one_line t ->
  exists h', keep h (h_set h k (HStr t) []) = (h', None) /\ h_set h k (HStr t) [] = Ok h' /\ set_effect k t h h' /\
    h_getlist h' k = [t] /\ h_get h' k = Some t /\ others_kept k h h'.
Proof.
  intros H. destruct (h_set_one_line h k (HStr t) H) as [h' E]. exists h'. rewrite E.
  pose proof (h_set_effect _ _ _ _ E) as S. cbn [text] in S. destruct (h_set_get _ _ _ _ E) as [G1 G2]. cbn [text] in G1.
  assert (G : h_getlist h' k = [t]) by (apply G1; reflexivity).
  repeat split; auto.
  - unfold h_get. assert (Ei : h_getitem h' k = Ok t).
    { apply getitem_ok. exists []. rewrite <- G. apply values_of_filter. }
    rewrite Ei. reflexivity.
  - intros k' Hk. apply G2. intros Q. apply Hk. unfold same_name in *. congruence.
Qed.
Lemma keep_bad h k t : ~ SpecHeaders.one_line t -> keep h (h_set h k (HStr t) []) = (h, Some ValueError).
Proof.
  intros H. unfold h_set. rewrite stored_nil. cbn [text]. destruct (validate_value t) eqn:E; auto.
  apply validate_spec in E. contradiction.
Qed.
Lemma getitem_same h a b : same_name a b -> h_getitem h a = h_getitem h b.
Proof.
  intros H. induction h as [|[k v] h IH]; cbn [h_getitem]; auto. rewrite IH. unfold same. rewrite H. reflexivity.
Qed.
Lemma h_get_same h a b : same_name a b -> h_get h a = h_get h b.
Proof. intros H. unfold h_get. rewrite (getitem_same h a b H). reflexivity. Qed.
Lemma remove_spec h k : without k h (h_remove h k) /\ h_get (h_remove h k) k = None /\ others_kept k h (h_remove h k).
Proof.
  assert (W : without k h (h_remove h k)) by apply without_filter. split; auto. split.
  - unfold h_get. pose proof (proj2 (getitem_missing _ _) (without_absent _ _ _ W)) as E. rewrite E. reflexivity.
  - intros k' Hk. apply (without_other k k' _ _ W). intros Q. apply Hk. unfold same_name in *. congruence.
Qed.
Lemma contains_remove h k : (if h_contains h k then h_remove h k else h) = h_remove h k.
Proof.
  destruct (h_contains h k) eqn:E; auto. unfold h_contains in E.
  destruct (getitem_cases h k) as [(v & Ev)|Ev]; [rewrite Ev in E; discriminate|].
  apply getitem_missing in Ev. unfold h_remove. induction Ev as [|kv h Hk _ IH]; auto. cbn [filter].
  rewrite (proj2 (same_false _ _) Hk). cbn [negb]. f_equal. apply IH. unfold h_contains in *.
  destruct kv as [a b]. cbn [h_getitem fst] in *. rewrite (proj2 (same_false _ _) Hk) in E. exact E.
Qed.

(** ** Sets of names *)
Lemma update_loop_calls items : forall s ins, hs_calls (fst (hs_update_loop s items ins)) = hs_calls s /\
  (snd (hs_update_loop s items ins) = false -> fst (hs_update_loop s items ins) = s).
Proof.
  induction items as [|i items IH]; intros s ins; cbn [hs_update_loop]; [auto|].
  destruct (mems (lower i) (hs_set s)); [apply IH|]. destruct (IH (HSt (hs_headers s ++ [i]) (lower i :: hs_set s) (hs_calls s)) true) as [A B].
  split; [exact A|]. intros H. exfalso. clear -H. revert H. generalize (HSt (hs_headers s ++ [i]) (lower i :: hs_set s) (hs_calls s)).
  induction items as [|j items IH]; intros t; cbn [hs_update_loop]; [discriminate|]. destruct (mems (lower j) (hs_set t)); apply IH.
Qed.
Lemma step_calls s o : hs_ok s ->
  let s' := fst (hs_step s o) in
  (hs_calls s' = hs_calls s /\ hs_headers s' = hs_headers s) \/ (hs_calls s' = S (hs_calls s) /\ snd (hs_step s o) = None).
Proof.
  intros H. cbv zeta.
  assert (U : forall l, let s' := hs_update s l in (hs_calls s' = hs_calls s /\ hs_headers s' = hs_headers s) \/ (hs_calls s' = S (hs_calls s))).
  { intros l. cbv zeta. unfold hs_update. destruct (update_loop_calls l s false) as [A B].
    destruct (hs_update_loop s l false) as [s' [|]]; cbn [fst snd] in *.
    - right. unfold bump. cbn. lia.
    - left. rewrite (B eq_refl). auto. }
  destruct o; cbn [hs_step].
  - destruct (U [h]); auto.
  - destruct (U l); auto.
  - unfold hs_remove. destruct (mems _ _); cbn; auto.
  - unfold hs_discard, hs_remove. destruct (mems _ _); cbn; auto.
  - right. auto.
  - pose proof (proj2 (delitem_ok s i H)) as K. unfold hs_delitem in *. destruct (py_index _ _); cbn; auto.
    destruct (mems _ _); cbn in *; auto. congruence.
  - unfold hs_setitem in *. destruct (py_index _ _); cbn; auto.
    destruct (mems _ _); cbn in *; auto.
Qed.
Lemma hs_call_cases {X} (f : X -> hset -> X * option exn) s x o : hs_ok s -> tame s o ->
  let '(s', x', e) := hs_call f s x o in
  s' = fst (hs_step s o) /\ hs_ok s' /\
  ((hs_iter s' = hs_iter s /\ x' = x) \/ (x', e) = f x s').
Proof.
  intros H T. unfold hs_call. pose proof (step_ok s o H T) as K. pose proof (step_calls s o H) as C.
  destruct (hs_step s o) as [s' e]. cbn [fst snd] in *.
  destruct (Nat.eqb (hs_calls s') (hs_calls s)) eqn:E.
  - apply Nat.eqb_eq in E. destruct C as [[_ C]|[C _]]; [|lia]. auto.
  - apply Nat.eqb_neq in E. destruct C as [[C _]|_]; [lia|]. destruct (f x s') as [x' e'] eqn:F. auto.
Qed.
Lemma qhv_one_line b t : SpecHeaders.one_line t -> SpecHeaders.one_line (quote_header_value b t).
Proof.
  intros H. enough (G : forall c, In c (quote_header_value b t) -> c <> 10 /\ c <> 13) by (split; intros X; apply G in X; tauto).
  intros c Hc. destruct H as [A B].
  assert (OL : In c t -> c <> 10 /\ c <> 13) by (intros I; split; intros ->; auto).
  unfold quote_header_value, quote_header_value_x in Hc.
  destruct (b && _); [auto|]. rewrite esc_replace in Hc.
  destruct Hc as [<-|Hc]; [lia|]. apply in_app_iff in Hc as [Hc|[<-|[]]]; [|lia].
  unfold ProofQuote.esc in Hc. apply in_flat_map in Hc as (y & Hy & Hc).
  unfold ProofQuote.esc_c in Hc. destruct (y =? 92) eqn:E1, (y =? 34) eqn:E2; cbn [In] in Hc; try lia.
  destruct Hc as [<-|[]]. auto.
Qed.
Lemma join_one_line l : Forall SpecHeaders.one_line l -> SpecHeaders.one_line (join [44; 32] l).
Proof.
  intros H. rewrite Forall_forall in H. split; intros X; apply ProofIri.in_join in X as [X|(x & Hx & X)].
  - destruct X as [X|[X|[]]]; discriminate.
  - apply H in Hx. destruct Hx. auto.
  - destruct X as [X|[X|[]]]; discriminate.
  - apply H in Hx. destruct Hx. auto.
Qed.
Lemma names_one_line b l : Forall fit_name l -> SpecHeaders.one_line (join [44; 32] (map (quote_header_value b) l)).
Proof.
  intros H. apply join_one_line. rewrite Forall_map. eapply Forall_impl; [|exact H]. intros n (_ & N & _). apply qhv_one_line, N.
Qed.
Lemma fit_reads l : Forall fit_name l -> parse_list_header (join [44; 32] (map (quote_header_value true) l)) = l.
Proof.
  intros H. apply (list_header_roundtrip true l).
  - intros ->. inversion H; subst. destruct H2 as [N _]. congruence.
  - eapply Forall_impl; [|exact H]. intros n (_ & _ & N). exact N.
Qed.
Lemma update_loop_names (P : str -> Prop) items : Forall P items -> forall s ins, Forall P (hs_headers s) ->
  Forall P (hs_headers (fst (hs_update_loop s items ins))).
Proof.
  induction 1 as [|i items Hi _ IH]; intros s ins H; cbn [hs_update_loop]; auto. destruct (mems (lower i) (hs_set s)); [apply IH, H|].
  apply IH. cbn [hs_headers]. apply Forall_app. auto.
Qed.
Lemma Forall_firstn' {A} (P : A -> Prop) n l : Forall P l -> Forall P (firstn n l).
Proof. intros H. revert n. induction H; intros [|n]; cbn [firstn]; constructor; auto. Qed.
Lemma Forall_skipn' {A} (P : A -> Prop) n l : Forall P l -> Forall P (skipn n l).
Proof. intros H. revert n. induction H; intros [|n]; cbn [skipn]; auto. Qed.
Lemma step_names (P : str -> Prop) s o : Forall P (hs_headers s) -> Forall P (names_in o) -> Forall P (hs_headers (fst (hs_step s o))).
Proof.
  intros H N.
  assert (U : forall l, Forall P l -> Forall P (hs_headers (hs_update s l))).
  { intros l Hl. unfold hs_update. pose proof (update_loop_names P l Hl s false H) as K.
    destruct (hs_update_loop s l false) as [s' [|]]; exact K. }
  assert (R : forall n, Forall P (hs_del_first n (hs_headers s))).
  { intros n. clear -H. induction H; cbn [hs_del_first]; [constructor|]. destruct (eqs _ _); auto. }
  destruct o; cbn [hs_step names_in] in *.
  - cbn [fst]. auto.
  - cbn [fst]. auto.
  - unfold hs_remove. destruct (mems _ _); cbn; auto.
  - unfold hs_discard, hs_remove. destruct (mems _ _); cbn; auto.
  - cbn. constructor.
  - unfold hs_delitem. destruct (py_index _ _) as [n|]; cbn [fst]; auto.
    assert (Forall P (remove_nth n (hs_headers s))) by (unfold remove_nth; apply Forall_app; split; [apply Forall_firstn'|apply Forall_skipn']; auto).
    destruct (mems _ _); cbn [fst bump hs_headers]; auto.
  - unfold hs_setitem. destruct (py_index _ _) as [n|]; cbn [fst]; auto. inversion N; subst.
    destruct (mems _ _); cbn [fst bump hs_headers]; auto. unfold set_nth. apply Forall_app. split; [apply Forall_firstn'; auto|].
    constructor; auto. apply Forall_skipn'; auto.
Qed.
(** What the lines of a name say about a set: nothing, or one line that reads as it. *)
Lemma set_update_lines name h s : hs_ok s -> Forall fit_name (hs_iter s) ->
  exists h', set_update name h s = (h', None) /\ set_lines name h' (hs_iter s) /\ others_kept name h h'.
Proof.
  intros K H. unfold set_update, set_lines. rewrite (ok_len s K). rewrite contains_remove.
  destruct (hs_iter s) as [|n l] eqn:E; cbn [length Nat.eqb].
  - destruct (remove_spec h name) as (W & _ & O). eexists. split; [reflexivity|]. split; [left; split; auto; eapply without_absent; eauto|exact O].
  - unfold hs_to_header. change (hs_headers s) with (hs_iter s). rewrite E.
    destruct (keep_set h name (join [44; 32] (map (quote_header_value true) (n :: l)))) as (h' & E1 & _ & _ & G & _ & O);
      [apply names_one_line, H|].
    exists h'. split; [exact E1|]. split; [|exact O]. right. split; [discriminate|]. eexists. split; [rewrite <- G; apply values_of_filter|].
    apply fit_reads, H.
Qed.
Lemma set_lines_read name h names : set_lines name h names -> hs_iter (get_set name h) = names.
Proof.
  unfold set_lines, get_set, h_get. intros [[-> A]|[N (line & V & P)]].
  - rewrite (proj2 (getitem_missing _ _) A). reflexivity.
  - rewrite (proj2 (getitem_ok _ _ _) (ex_intro _ [] V)). destruct line as [|c line]; [|exact P]. exfalso. apply N. rewrite <- P. reflexivity.
Qed.
Lemma set_calls_spec name ops : forall s h, hs_ok s -> Forall fit_name (hs_iter s) -> tame_run s ops -> Forall (fun o => Forall fit_name (names_in o)) ops ->
  let (s', h') := set_calls name s h ops in
  s' = hs_run s ops /\ others_kept name h h' /\
  ((hs_iter s' = hs_iter s /\ h' = h) \/ set_lines name h' (hs_iter s')).
Proof.
  unfold set_calls, hs_run. induction ops as [|o ops IH]; intros s h K F T N; cbn [fold_left fst snd].
  - split; auto. split; [intros k _; auto|]. auto.
  - inversion T as [|? ? ? T1 T2]; subst. inversion N as [|? ? N1 N2]; subst.
    pose proof (hs_call_cases (set_update name) s h o K T1) as C. destruct (hs_call (set_update name) s h o) as [[s1 h1] e].
    destruct C as (-> & K1 & C). cbn [fst snd] in *.
    assert (F1 : Forall fit_name (hs_iter (fst (hs_step s o)))) by (apply step_names; auto).
    specialize (IH (fst (hs_step s o)) h1 K1 F1 T2 N2).
    destruct (fold_left (fun sh o0 => fst (hs_call (set_update name) (fst sh) (snd sh) o0)) ops (fst (hs_step s o), h1)) as [s2 h2].
    destruct IH as (-> & O & C2). split; [reflexivity|].
    destruct C as [[Ei ->]|C].
    + split; [exact O|]. destruct C2 as [[A ->]|C2]; [left; split; congruence|right; exact C2].
    + destruct (set_update_lines name h (fst (hs_step s o)) K1 F1) as (h' & E1 & L & O1). rewrite E1 in C. assert (h1 = h') as -> by congruence.
      split; [intros k Hk; rewrite (O k Hk); apply O1, Hk|]. destruct C2 as [[A ->]|C2]; [right; rewrite A; exact L|right; exact C2].
Qed.
Lemma assign_names name h l : Forall fit_name l ->
  exists h', assign_set name h (SvNames l) = (h', None) /\ set_lines name h' l /\ others_kept name h h'.
Proof.
  intros H. unfold assign_set. destruct l as [|n l].
  - destruct (remove_spec h name) as (W & _ & O). eexists. split; [reflexivity|]. split; [left; split; auto; eapply without_absent; eauto|exact O].
  - unfold dump_header_list. destruct (keep_set h name (join [44; 32] (map (quote_header_value true) (n :: l)))) as (h' & E1 & _ & _ & G & _ & O);
      [apply names_one_line, H|].
    exists h'. split; [exact E1|]. split; [|exact O]. right. split; [discriminate|]. eexists. split; [rewrite <- G; apply values_of_filter|].
    apply fit_reads, H.
Qed.

(** ** Content-Range *)
Lemma filter_twice {A} (f : A -> bool) l : filter f (filter f l) = filter f l.
Proof. induction l as [|x l IH]; auto. cbn [filter]. destruct (f x) eqn:E; auto. cbn [filter]. rewrite E. congruence. Qed.
Lemma set_again h k t h' : h_set h k (HStr t) [] = Ok h' -> h_set h' k (HStr t) [] = Ok h'.
Proof.
  unfold h_set. rewrite stored_nil. cbn [text]. destruct (validate_value t); [|discriminate].
  assert (Sk : same k k = true) by (apply same_spec; reflexivity).
  destruct (set_loop h k t) as [l'|] eqn:E; intros H; injection H as <-.
  - assert (X : set_loop l' k t = Some l'); [|rewrite X; reflexivity].
    revert l' E. induction h as [|[n v] h IH]; intros l' E; cbn [set_loop] in E; [discriminate|].
    destruct (same n k) eqn:F; [injection E as <-; cbn [set_loop]; rewrite Sk, filter_twice; reflexivity|].
    destruct (set_loop h k t) as [r|]; [|discriminate]. injection E as <-. cbn [set_loop]. rewrite F, (IH r eq_refl). reflexivity.
  - assert (X : set_loop (h ++ [(k, t)]) k t = Some (h ++ [(k, t)])); [|rewrite X; reflexivity].
    induction h as [|[n v] h IH]; cbn [set_loop app]; [rewrite Sk; reflexivity|].
    cbn [set_loop] in E. destruct (same n k) eqn:F; [discriminate|]. destruct (set_loop h k t) eqn:G; [discriminate|]. rewrite (IH eq_refl). reflexivity.
Qed.
Lemma zdec_nosep z : SpecHeaders.one_line (zdec z).
Proof. apply zdec_one_line. Qed.
Lemma one_line_app a b : SpecHeaders.one_line a -> SpecHeaders.one_line b -> SpecHeaders.one_line (a ++ b).
Proof. intros [A B] [C D]. split; intros X; apply in_app_iff in X; tauto. Qed.
Lemma one_line_cons c a : c <> 10 -> c <> 13 -> SpecHeaders.one_line a -> SpecHeaders.one_line (c :: a).
Proof. intros N1 N2 [A B]. split; intros [X|X]; auto. Qed.
Lemma one_line_nil : SpecHeaders.one_line [].
Proof. split; intros []. Qed.
Lemma word_one_line u : word u -> SpecHeaders.one_line u.
Proof.
  intros [_ H]. rewrite Forall_forall in H. split; intros X; apply H in X; discriminate X.
Qed.
Lemma range_one_line c u t : c_units c = Some u -> SpecHeaders.one_line u -> content_range_to_header c = Ok t -> SpecHeaders.one_line t.
Proof.
  intros E U H. unfold content_range_to_header in H. rewrite E in H.
  assert (S : forall n, SpecHeaders.one_line (star_or n)) by (intros [n|]; [apply zdec_one_line|apply one_line_cons; [lia|lia|apply one_line_nil]]).
  destruct (c_start c) as [s|]; [destruct (c_stop c) as [e|]; [|discriminate]|]; injection H as <-;
  repeat first [apply one_line_app | apply one_line_cons; [lia|lia|] | apply S | apply zdec_one_line | exact U | apply one_line_nil].
Qed.
Lemma cr_update_writable h c u : writable_range c u ->
  exists line h', content_range_to_header c = Ok line /\ parse_content_range_header line = Ok (Some c) /\
    cr_update h c = (h', None) /\ set_effect (lit "Content-Range") line h h' /\ get_content_range h' = (h', Ok c).
Proof.
  intros (E & W & V). destruct c as [u' s e n]. cbn [c_units c_start c_stop c_length] in *. subst u'.
  destruct (content_range_roundtrip u s e n W V) as (line & E1 & E2).
  destruct (keep_set h (lit "Content-Range") line) as (h' & K1 & K2 & K3 & _ & K4 & _).
  { apply (range_one_line (CR (Some u) s e n) u); auto. apply word_one_line, W. }
  exists line, h'. repeat split; auto.
  - unfold cr_update. cbn [c_units]. rewrite E1. exact K1.
  - unfold get_content_range. rewrite (h_get_same h' (lit "content-range") (lit "Content-Range") eq_refl), K4, E2.
    unfold cr_update. cbn [c_units]. rewrite E1, (set_again _ _ _ _ K2). reflexivity.
Qed.
Lemma cr_update_none h c : c_units c = None -> exists h', cr_update h c = (h', None) /\ without (lit "Content-Range") h h' /\
  get_content_range h' = (h', Ok (CR None None None None)).
Proof.
  intros E. unfold cr_update. rewrite E. eexists. split; [reflexivity|]. destruct (remove_spec h (lit "content-range")) as (W & G & _). split.
  - clear -W. induction W; constructor; auto; intros Q; apply H; exact Q.
  - unfold get_content_range. rewrite G. unfold cr_update. cbn [c_units].
    pose proof (contains_remove (h_remove h (lit "content-range")) (lit "content-range")) as K.
    unfold h_contains in K. unfold h_get in G. destruct (h_getitem _ _); [discriminate|]. cbn [is_ok] in K. rewrite <- K. reflexivity.
Qed.
Lemma cr_step_told c h o c' h' r : cr_step c h o = (c', h', r) -> (c' = c /\ h' = h /\ r = Some ValueError) \/ (h', r) = cr_update h c'.
Proof.
  destruct o; cbn [cr_step]; try (destruct (is_byte_range_valid _ _ _); [|intros H; inv H; auto]);
    match goal with |- (let (_, _) := cr_update h ?x in _) = _ -> _ => destruct (cr_update h x) eqn:E; intros H; inv H; auto end.
Qed.

(** ** The entity tag *)
Lemma set_etag_ok h t w : ~ In 34 t -> SpecHeaders.one_line t -> exists h', set_etag h t w = (h', None) /\
  set_effect (lit "ETag") ((if w then lit "w/" else []) ++ 34 :: t ++ [34]) h h' /\ get_etag h' = Some (t, w).
Proof.
  intros Q L. assert (E : quote_etag t w = Ok ((if w then lit "w/" else []) ++ 34 :: t ++ [34])).
  { unfold quote_etag. apply mem_not_In in Q. rewrite Q. reflexivity. }
  unfold set_etag. rewrite E. destruct (keep_set h (lit "ETag") ((if w then lit "w/" else []) ++ 34 :: t ++ [34])) as (h' & K1 & _ & K2 & _ & K3 & _).
  { apply one_line_app; [destruct w; [split; cbn; intros X; repeat (destruct X as [X|X]; [discriminate|]); exact X|apply one_line_nil]|].
    apply one_line_cons; [lia|lia|]. apply one_line_app; auto. apply one_line_cons; [lia|lia|apply one_line_nil]. }
  exists h'. split; [exact K1|]. split; [exact K2|]. unfold get_etag. rewrite K3. apply etag_roundtrip, E.
Qed.
Lemma set_etag_bad h t w : In 34 t \/ ~ SpecHeaders.one_line t -> set_etag h t w = (h, Some ValueError).
Proof.
  intros H. unfold set_etag, quote_etag. destruct (mem 34 t) eqn:M; [reflexivity|]. apply mem_not_In in M. destruct H as [H|H]; [contradiction|].
  apply keep_bad. intros [A B]. apply H. split; intros X; [apply A|apply B]; apply in_app_iff; right; right; apply in_app_iff; auto.
Qed.

(** ** Dates *)
Lemma dated_parse v d : real_date d -> (100 <= dt_year d)%Z -> dated v d -> parse_date (Some v) = Ok (Some d).
Proof.
  intros R Y D.
  assert (Z0 : zone_ahead (lit "GMT") (0 * 3600)) by (apply za_name; left; reflexivity). change (0 * 3600)%Z with 0%Z in Z0.
  rewrite <- (minus_zero d R). destruct D as [n ->|n ->|n -> Hy|n ->].
  - apply parse_rfc1123; auto.
  - apply parse_netscape; auto.
  - apply parse_rfc850; auto.
  - apply parse_asctime; auto.
Qed.
Lemma split_ws_few a b c : Forall (fun x => is_space x = false) a -> Forall (fun x => is_space x = true) b ->
  Forall (fun x => is_space x = false) c -> (length (split_ws (a ++ b ++ c)) <= 2)%nat.
Proof.
  intros A B C.
  assert (N : forall w cur, Forall (fun x => is_space x = false) w -> forall r, split_ws_aux cur (w ++ r) = split_ws_aux (rev w ++ cur) r).
  { intros w. induction w as [|x w IH]; intros cur Hw r; auto. inversion Hw; subst. cbn [app split_ws_aux rev]. rewrite H1, IH by auto.
    rewrite <- app_assoc. reflexivity. }
  assert (W : forall cur, (length (split_ws_aux cur c) <= 1)%nat).
  { intros cur. rewrite <- (app_nil_r c), N by auto. cbn [split_ws_aux]. destruct (rev c ++ cur); cbn; lia. }
  assert (Bl : (length (split_ws_aux [] (b ++ c)) <= 1)%nat).
  { clear A N. induction B as [|x b Hx _ IH]; [apply W|]. cbn [app split_ws_aux]. rewrite Hx. exact IH. }
  unfold split_ws. rewrite N by auto. rewrite app_nil_r. generalize (rev a). intros cur.
  destruct b as [|x b]; [cbn [app]; specialize (W cur); lia|]. inversion B; subst. cbn [app split_ws_aux]. rewrite H1.
  cbn [app split_ws_aux] in Bl. rewrite H1 in Bl. destruct cur; [lia|]. cbn [length]. lia.
Qed.
Lemma few_no_date v : (length (split_ws (strip v)) <= 2)%nat -> parse_date (Some v) = Ok None.
Proof.
  intros H. unfold parse_date. destruct v as [|c v]; [reflexivity|]. 
  assert (E : parsedate_tz (strip (c :: v)) = Ok None); [|rewrite E; reflexivity].
  unfold parsedate_tz. destruct (split_ws (strip (c :: v))) as [|x [|y [|z l]]]; [reflexivity| | |cbn in H; lia].
  - cbn [skip_day]. destruct (_ || _); [reflexivity|]. destruct (rsplit1 44 x) as [[p q]|]; reflexivity.
  - cbn [skip_day]. destruct (_ || _); [reflexivity|]. destruct (rsplit1 44 x) as [[p q]|]; reflexivity.
Qed.
Lemma strip_ends a m z : is_space a = false -> is_space z = false -> strip (a :: m ++ [z]) = a :: m ++ [z].
Proof.
  intros A Z. unfold strip. apply strip_by_id.
  - intros c r E. injection E as <- _. exact A.
  - intros c r E. change (a :: m ++ [z]) with ((a :: m) ++ [z]) in E. apply app_inj_tail in E as [_ <-]. exact Z.
Qed.
Lemma tag_no_date m t : two_words t -> parse_date (Some (write_tag (m, t))) = Ok None.
Proof.
  intros (a & b & c & -> & A & B & C). apply few_no_date. unfold write_tag. cbn [fst snd].
  set (p := match m with Strong => [] | WeakW => lit "W/" | Weakw => lit "w/" end).
  assert (P : Forall (fun x => is_space x = false) p) by (destruct m; repeat constructor).
  assert (E : strip (p ++ 34 :: (a ++ b ++ c) ++ [34]) = p ++ 34 :: (a ++ b ++ c) ++ [34]).
  { destruct p as [|x p]; [apply (strip_ends 34 (a ++ b ++ c) 34); reflexivity|]. inversion P; subst.
    pose proof (strip_ends x (p ++ 34 :: a ++ b ++ c) 34 H1 eq_refl) as S. cbn [app]. rewrite <- app_assoc in S. cbn [app] in S. exact S. }
  rewrite E. replace (p ++ 34 :: (a ++ b ++ c) ++ [34]) with ((p ++ 34 :: a) ++ b ++ (c ++ [34])) by (repeat (progress (rewrite <- ?app_assoc; cbn [app])); reflexivity).
  apply split_ws_few; auto.
  - apply Forall_app. split; auto.
  - apply Forall_app. split; auto.
Qed.
Lemma if_range_tag m t : two_words t -> parse_if_range_header (Some (write_tag (m, t))) = Ok (mk_if_range (Some t) None).
Proof.
  intros H. unfold parse_if_range_header. rewrite (tag_no_date m t H). cbn [bind]. rewrite unquote_quoted. destruct m; reflexivity.
Qed.
Lemma if_range_date v d : real_date d -> (100 <= dt_year d)%Z -> dated v d ->
  parse_if_range_header (Some v) = Ok (mk_if_range None (Some d)).
Proof.
  intros R Y D. pose proof (dated_parse v d R Y D) as E. unfold parse_if_range_header. rewrite E. destruct v; [discriminate E|reflexivity].
Qed.
Lemma if_range_total v : exists r, parse_if_range_header v = Ok r /\ (ir_etag r = None \/ ir_date r = None).
Proof.
  unfold parse_if_range_header. destruct v as [[|c v]|]; [eexists; split; [reflexivity|auto]| |eexists; split; [reflexivity|auto]].
  destruct (parse_date_total (Some (c :: v))) as (r & E & _). rewrite E. cbn [bind]. destruct r; eexists; split; auto.
Qed.

Lemma date_micros_dated v d s : real_date d -> (100 <= dt_year d)%Z -> dated v d -> instant d s -> date_micros v = Some ((s + 86400) * 1000000)%Z.
Proof.
  intros R Y D I. unfold date_micros. rewrite (dated_parse v d R Y D). apply (real_instant d s R) in I. rewrite I. reflexivity.
Qed.
Lemma values_of_fun k h a b : values_of k h a -> values_of k h b -> a = b.
Proof.
  intros H. revert b. induction H; intros b' H'; inversion H'; subst; try contradiction; auto; f_equal; auto.
Qed.
Lemma conditional_http_dates now md5 fuel env r r' since_text since_date since v vs date modified :
  get_or_head (ce_method env) -> (ce_inm env = None \/ ce_inm env = Some [] \/ absent (lit "ETag") (rs_headers r)) ->
  ce_ims env = Some since_text -> dated since_text since_date -> real_date since_date -> (100 <= dt_year since_date)%Z -> instant since_date since ->
  values_of (lit "Last-Modified") (rs_headers r) (v :: vs) -> dated v date -> real_date date -> (100 <= dt_year date)%Z -> instant date modified ->
  make_conditional now date_micros md5 fuel env r = Some (r', None) ->
  ((modified <= since)%Z /\ rs_status r' = set_status_code 304) \/ ((since < modified)%Z /\ rs_status r' = rs_status r).
Proof.
  intros G N I D R Y S V Dv Rv Yv Sv M.
  pose proof (conditional_dates now date_micros md5 fuel env r r' G N M) as C. cbv zeta in C.
  destruct C as [[(h & sn & v' & vs' & m & E1 & E2 & E3 & E4 & L) St]|[Hn St]].
  - left. split; auto. rewrite I in E1. injection E1 as <-. pose proof (values_of_fun _ _ _ _ V E3) as Q. injection Q as <- <-.
    rewrite (date_micros_dated _ _ _ R Y D S) in E2. rewrite (date_micros_dated _ _ _ Rv Yv Dv Sv) in E4. injection E2 as <-. injection E4 as <-.
    rewrite Z.div_mul in L by lia. lia.
  - right. split; auto. destruct (Z.lt_ge_cases since modified) as [|Hge]; auto. exfalso. apply Hn.
    exists since_text, ((since + 86400) * 1000000)%Z, v, vs, ((modified + 86400) * 1000000)%Z. split; auto.
    split; [apply (date_micros_dated _ _ _ R Y D S)|]. split; auto. split; [apply (date_micros_dated _ _ _ Rv Yv Dv Sv)|].
    rewrite Z.div_mul by lia. lia.
Qed.

(** ** Cookies *)
Lemma zdec_chars z x : In x (zdec z) -> x < 128 /\ x <> 59.
Proof.
  assert (D : forall n, In x (dec n) -> x < 128 /\ x <> 59).
  { intros n H. pose proof (dec_digits n) as F. rewrite forallb_forall in F. apply F in H. unfold is_ascii_digit, between in H. lia. }
  destruct z; cbn [zdec].
  - intros [<-|[]]; lia.
  - apply D.
  - intros [<-|H]; [lia|apply (D _ H)].
Qed.
Lemma nth_names_chars (l : list str) i x : forallb (forallb (fun c => (c <? 128) && negb (c =? 59))) l = true -> In x (nth i l []) -> x < 128 /\ x <> 59.
Proof.
  intros H Hx. destruct (nth_in_or_default i l []) as [I|E]; [|rewrite E in Hx; destruct Hx].
  rewrite forallb_forall in H. apply H in I. rewrite forallb_forall in I. apply I in Hx. lia.
Qed.
Lemma date_text_chars d delim c : In c (date_text d delim) -> In c delim \/ (c < 128 /\ c <> 59).
Proof.
  assert (P : forall z x, In x (pad2 z) -> x < 128 /\ x <> 59).
  { intros z x. unfold pad2. cbv zeta. destruct (_ <? _)%nat; [intros [<-|Hx]; [lia|]|intros Hx]; eapply zdec_chars; eauto. }
  assert (L : forall s, forallb (fun c => (c <? 128) && negb (c =? 59)) s = true -> In c s -> c < 128 /\ c <> 59).
  { intros s F I. rewrite forallb_forall in F. apply F in I. lia. }
  unfold date_text. rewrite !in_app_iff. intros H.
  repeat match type of H with _ \/ _ => destruct H as [H|H] end; auto; right;
    solve [eapply P; eassumption | eapply zdec_chars; eassumption | (eapply nth_names_chars; [|eassumption]; reflexivity) | (eapply L; [|eassumption]; reflexivity)].
Qed.
Lemma cookie_date_chars a t c : cookie_date a = Ok t -> In c t -> c < 128 /\ c <> 59.
Proof.
  intros E H. assert (G : exists d, t = date_text d (lit "-")).
  { unfold cookie_date, dump_date in E. destruct a as [d [off|]|z]; [destruct (minus_seconds d off); [|discriminate]| |]; injection E as <-; eauto. }
  destruct G as [d ->]. apply date_text_chars in H as [H|H]; auto. destruct H as [H|[]]. change (45 = c) in H. lia.
Qed.
Lemma text_utf8 t : (forall c, In c t -> c < 128 /\ c <> 59) -> utf8_encode t = Ok t.
Proof. intros H. apply utf8_ascii. apply forallb_forall. intros c Hc. apply H in Hc. lia. Qed.
Lemma when_text now k d n : real_date d -> nth_day (dt_year d) (dt_month d) (dt_day d) n -> expires_when now k d ->
  let t := netscape n d (lit "GMT") in
  expiry_text (k_expires k) = Ok (Some t) \/ (k_expires k = None /\ exists m, k_max_age k = Some m /\ date_after now m = t).
Proof.
  intros R N W. cbv zeta. pose proof (proj2 (date_text_spec d n R N)) as E.
  destruct W as [d Hk|x s d Hk Hs Hd|m s d Hk Hm Hs Hd].
  - left. rewrite Hk. cbn [expiry_text]. unfold cookie_date, dump_date. rewrite E. reflexivity.
  - left. rewrite Hk. cbn [expiry_text]. unfold cookie_date, dump_date. rewrite (gmtime_spec x d s Hs R Hd), E. reflexivity.
  - right. split; auto. exists m. split; auto. unfold date_after, cookie_date, dump_date.
    rewrite <- Z.add_assoc in Hd. rewrite (gmtime_spec _ d s Hs R Hd), E. reflexivity.
Qed.
Section CookieFacts.
  Variables (idna_part : str -> res str) (ip_ok nfkc_ok : str -> bool) (now : Z).
  Lemma set_cookie_line h key value k h' : set_cookie idna_part ip_ok nfkc_ok now h key value k = Ok h' ->
    exists line, h' = h ++ [(lit "Set-Cookie", line)] /\ SpecHeaders.one_line line.
  Proof.
    unfold set_cookie. destruct (expiry_text _); cbn [bind]; [|discriminate].
    destruct (dump_cookie _ _ _ _ _ _ _) as [t|]; cbn [bind]; [|discriminate]. unfold h_add. rewrite stored_nil. cbn [text].
    destruct (validate_value t) eqn:E; [|discriminate]. intros H. injection H as <-. exists t. split; auto. apply validate_spec, E.
  Qed.
  Hypothesis idna_plain : forall p e, idna_part p = Ok e -> bytes_text e /\ ~ In 59 e.
  Lemma set_cookie_parts h key value k h' :
    (forall c, In c key -> name_char c) -> (forall p, k_path k = Some p -> ~ In 59 p) ->
    (forall e, k_expires k = Some (ExText e) -> ~ In 59 e) ->
    set_cookie idna_part ip_ok nfkc_ok now h key value k = Ok h' ->
    exists line w vb parts,
      h' = h ++ [(lit "Set-Cookie", line)] /\ SpecHeaders.one_line line /\
      split_on 59 line = (key ++ 61 :: w) :: parts /\
      utf8_encode value = Ok vb /\ (forall fuel, (length w <= fuel)%nat -> cookie_unquote fuel w = Some vb) /\
      Forall2 attr_name parts
        (requested (given (k_domain k)) (given (k_expires k) || given (k_max_age k)) (given (k_max_age k)) (k_secure k) (k_httponly k) (given (k_path k))) /\
      (forall m, k_max_age k = Some m -> In (lit " Max-Age=" ++ zdec m) parts) /\
      (forall d n, real_date d -> nth_day (dt_year d) (dt_month d) (dt_day d) n -> expires_when now k d ->
         In (lit " Expires=" ++ netscape n d (lit "GMT")) parts) /\
      (forall p, k_path k = Some p -> exists u, iri_to_uri idna_part ip_ok nfkc_ok p = Ok u /\ In (lit " Path=" ++ u) parts) /\
      (forall d, k_domain k = Some d -> SpecUrls.ascii_text d -> ~ In 58 d -> In (lit " Domain=" ++ cookie_quote d) parts).
  Proof.
    intros Hk Hp He H. destruct (set_cookie_line h key value k h' H) as (line & -> & L). exists line. unfold set_cookie in H.
    destruct (expiry_text (k_expires k)) as [ex|] eqn:Ex; cbn [bind] in H; [|discriminate].
    destruct (dump_cookie _ _ _ _ _ _ _) as [t|] eqn:D; cbn [bind] in H; [|discriminate].
    assert (t = line) as ->.
    { unfold h_add in H. rewrite stored_nil in H. cbn [text] in H. destruct (validate_value t); [|discriminate]. injection H as H. apply app_inv_head in H.
      congruence. }
    set (a := Args (k_max_age k) ex (k_path k) (k_domain k) (k_secure k) (k_httponly k) true) in *.
    (* the date of max_age, given outright *)
    set (a' := Args (k_max_age k) (match ex with Some e => Some e | None => option_map (date_after now) (k_max_age k) end)
                 (k_path k) (k_domain k) (k_secure k) (k_httponly k) true).
    assert (D' : dump_cookie idna_part ip_ok nfkc_ok (date_after now) key value a' = Ok line).
    { rewrite <- D. unfold dump_cookie, a, a'. cbn [a_path a_domain a_expires a_max_age a_sync a_secure a_httponly].
      destruct ex; [reflexivity|]. destruct (k_max_age k); reflexivity. }
    assert (Da : forall m c, In c (date_after now m) -> c < 128 /\ c <> 59).
    { intros m c Hc. unfold date_after in Hc. destruct (cookie_date (DNumber (now + m))) eqn:E; [|destruct Hc]. eapply cookie_date_chars; eauto. }
    assert (E59 : forall e, a_expires a' = Some e -> ~ In 59 e).
    { intros e. unfold a'. cbn [a_expires]. destruct ex as [e0|].
      - intros Q. injection Q as <-. destruct (k_expires k) as [[s|da]|]; cbn [expiry_text] in Ex; [injection Ex as <-; apply He; reflexivity| |discriminate].
        destruct (cookie_date da) eqn:Ed; cbn [bind] in Ex; [|discriminate]. injection Ex as <-. intros X. apply (cookie_date_chars _ _ _ Ed) in X. lia.
      - destruct (k_max_age k); cbn [option_map]; [|discriminate]. intros Q. injection Q as <-. intros X. apply Da in X. lia. }
    destruct (dump_cookie_safe idna_part ip_ok nfkc_ok (date_after now)
                (fun p e q => proj2 (idna_plain p e q)) (fun m X => proj2 (Da m 59 X) eq_refl) key value a' line
                (fun p e q => proj1 (idna_plain p e q)) Hk Hp E59 D') as (w & vb & parts & P1 & P2 & P3 & P4 & P5 & P6 & P7 & P8).
    exists w, vb, parts. split; auto. split; auto. split; auto. split; auto. split; auto. split.
    { unfold a' in P4. cbn [a_domain a_expires a_max_age a_sync a_secure a_httponly a_path] in P4.
      replace (given (k_expires k) || given (k_max_age k)) with
        (given (match ex with Some e => Some e | None => option_map (date_after now) (k_max_age k) end) || given (k_max_age k) && true); [exact P4|].
      destruct (k_expires k) as [[s|da]|]; cbn [expiry_text] in Ex.
      - injection Ex as <-. reflexivity.
      - destruct (cookie_date da); cbn [bind] in Ex; [|discriminate]. injection Ex as <-. reflexivity.
      - injection Ex as <-. destruct (k_max_age k); reflexivity. }
    split; auto. split; [|split; auto].
    intros d n R N W. apply (P6 (netscape n d (lit "GMT"))).
    - unfold a'. cbn [a_expires]. destruct (when_text now k d n R N W) as [E|(E & m & Em & Et)].
      + rewrite Ex in E. injection E as ->. reflexivity.
      + rewrite E in Ex. cbn [expiry_text] in Ex. injection Ex as <-. rewrite Em. cbn [option_map]. rewrite Et. reflexivity.
    - apply text_utf8. intros c Hc. pose proof (proj2 (date_text_spec d n R N)) as E. rewrite <- E in Hc.
      apply (cookie_date_chars (DDatetime d None) _ c eq_refl Hc).
  Qed.
  Lemma delete_cookie_parts h key path domain h' :
    (forall c, In c key -> name_char c) -> (forall p, path = Some p -> ~ In 59 p) ->
    delete_cookie idna_part ip_ok nfkc_ok now h key path domain = Ok h' ->
    exists line w parts,
      h' = h ++ [(lit "Set-Cookie", line)] /\ SpecHeaders.one_line line /\
      split_on 59 line = (key ++ 61 :: w) :: parts /\ (forall fuel, (length w <= fuel)%nat -> cookie_unquote fuel w = Some []) /\
      Forall2 attr_name parts (requested (given domain) true true false false (given path)) /\
      In (lit " Max-Age=0") parts /\ In (lit " Expires=Thu, 01-Jan-1970 00:00:00 GMT") parts /\
      (forall p, path = Some p -> exists u, iri_to_uri idna_part ip_ok nfkc_ok p = Ok u /\ In (lit " Path=" ++ u) parts) /\
      (forall d, domain = Some d -> SpecUrls.ascii_text d -> ~ In 58 d -> In (lit " Domain=" ++ cookie_quote d) parts).
  Proof.
    intros Hk Hp H. unfold delete_cookie in H.
    destruct (set_cookie_parts h key [] (mk_cookie (Some 0%Z) (Some (ExDate (DNumber 0))) path domain false false) h' Hk Hp (fun e (Q : Some (ExDate (DNumber 0)) = Some (ExText e)) => ltac:(discriminate Q)) H)
      as (line & w & vb & parts & P1 & P2 & P3 & P4 & P5 & P6 & P7 & P8 & P9 & P10).
    cbn [k_domain k_expires k_max_age k_secure k_httponly k_path given orb] in *.
    exists line, w, parts. injection P4 as <-. split; auto. split; auto. split; auto. split; auto. split; auto.
    split; [exact (P7 0%Z eq_refl)|]. split; [|split; auto].
    assert (I : instant epoch (719162 * 86400)) by apply epoch_instant.
    destruct I as (n & N & En). assert (R : real_date epoch) by (apply ProofDate.valid_spec; reflexivity).
    change (lit " Expires=Thu, 01-Jan-1970 00:00:00 GMT") with (lit " Expires=" ++ netscape 719162 epoch (lit "GMT")).
    assert (n = 719162)%Z as -> by (cbn in En; lia).
    apply P8; auto. apply (ew_number _ _ 0 (719162 * 86400)); auto; rewrite ?Z.add_0_r; apply epoch_instant.
  Qed.
End CookieFacts.

(** ** The mimetype *)
Lemma split_on_head c a r : ~ In c a -> hd [] (split_on c (a ++ c :: r)) = a.
Proof.
  intros H. rewrite split_on_app; auto.
Qed.
Lemma get_content_type_head m charset : ~ In 59 m -> hd [] (split_on 59 (get_content_type m charset)) = m.
Proof.
  intros H. unfold get_content_type. destruct (_ || _); [apply (split_on_head 59 m (lit " charset=" ++ charset) H)|]. rewrite split_on_none by auto. reflexivity.
Qed.
Lemma mimetype_reads charset h m : m <> [] -> strip m = m -> ~ In 59 m -> SpecHeaders.one_line m -> SpecHeaders.one_line charset ->
  exists h', set_mimetype charset h m = (h', None) /\ get_mimetype h' = Some m /\ others_kept (lit "Content-Type") h h'.
Proof.
  intros N S Q L C. unfold set_mimetype.
  destruct (keep_set h (lit "Content-Type") (get_content_type m charset)) as (h' & E & _ & _ & _ & G & O).
  { unfold get_content_type. destruct (_ || _); auto. apply one_line_app; auto. apply one_line_app; auto.
    split; cbn; intros X; repeat (destruct X as [X|X]; [discriminate|]); exact X. }
  exists h'. split; auto. split; auto. unfold get_mimetype. rewrite (h_get_same h' (lit "content-type") (lit "Content-Type") eq_refl), G.
  rewrite get_content_type_head, S by auto. unfold get_content_type. destruct (_ || _); destruct m; auto; congruence.
Qed.
Lemma option_name_one_line k : option_name k -> SpecHeaders.one_line k.
Proof.
  intros (_ & F & _). rewrite Forall_forall in F. split; intros X; apply F in X; destruct X as [X _]; discriminate X.
Qed.
Lemma qhv_x_one_line extra b t : SpecHeaders.one_line t -> SpecHeaders.one_line (quote_header_value_x extra b t).
Proof.
  intros H. unfold quote_header_value_x. destruct (b && _); auto.
  pose proof (qhv_one_line false t H) as K. unfold quote_header_value, quote_header_value_x in K. exact K.
Qed.
Lemma params_one_line m d : SpecHeaders.one_line m -> writable_params d -> SpecHeaders.one_line (dump_options_header (Some m) d).
Proof.
  intros Hm [_ F]. unfold dump_options_header. cbn [app].
  assert (G : Forall SpecHeaders.one_line (m :: map dump_option d)).
  { constructor; auto. rewrite Forall_map. eapply Forall_impl; [|exact F]. intros [k v] [Hk Hv]. cbn [fst snd] in *.
    pose proof (option_name_one_line k Hk). unfold dump_option. destruct v as [v|]; cbn [fst snd]; auto.
    destruct (Hv v eq_refl) as (_ & Lv & _). apply one_line_app; auto. apply one_line_cons; [lia|lia|]. first [apply qhv_one_line | apply qhv_x_one_line]; auto. }
  rewrite Forall_forall in G.
  split; intros X; apply ProofIri.in_join in X as [X|(x & Hx & X)]; try (destruct X as [X|[X|[]]]; discriminate); apply G in Hx; destruct Hx; auto.
Qed.
Lemma params_update_reads h m d : get_mimetype h = Some m -> option_name m -> writable_params d ->
  exists h', params_update h d = (h', None) /\ get_mimetype h' = Some m /\ get_mimetype_params h' = Ok d /\ others_kept (lit "Content-Type") h h'.
Proof.
  intros M N W. unfold params_update. rewrite M.
  destruct (keep_set h (lit "Content-Type") (dump_options_header (Some m) d)) as (h' & E & _ & _ & _ & G & O).
  { apply params_one_line; auto. apply option_name_one_line, N. }
  exists h'. split; auto. unfold get_mimetype, get_mimetype_params.
  rewrite (h_get_same h' (lit "content-type") (lit "Content-Type") eq_refl), G.
  assert (Hs : strip m = m /\ ~ In 59 m /\ m <> []).
  { destruct N as (Hn & F & _). rewrite Forall_forall in F. split; [|split; auto; intros X; apply F in X; tauto].
    unfold strip. apply strip_by_id.
    - intros c r ->. apply F. left. reflexivity.
    - intros c r ->. apply F. apply in_or_app. right. left. reflexivity. }
  destruct Hs as (Hs & H59 & Hn). split; [|split; auto].
  - assert (X : strip (hd [] (split_on 59 (dump_options_header (Some m) d))) = m).
    { unfold dump_options_header. cbn [app]. destruct d as [|kv d]; cbn [map join].
      - rewrite split_on_none by auto. exact Hs.
      - cbn [app]. rewrite split_on_head by auto. exact Hs. }
    rewrite X. destruct (dump_options_header (Some m) d) eqn:Q; [|reflexivity].
    exfalso. unfold dump_options_header in Q. cbn [app] in Q. destruct (map dump_option d); cbn [join] in Q; destruct m; try discriminate; congruence.
  - destruct W as [W1 W2]. rewrite (options_roundtrip_spec m d N); auto.
    + eapply Forall_impl; [|exact W2]. intros kv [K _]. exact K.
    + eapply Forall_impl; [|exact W2]. intros kv [_ K] v Hv. destruct (K v Hv) as (A & _ & B). auto.
Qed.
Lemma params_step h m d o : covered o -> get_mimetype h = Some m -> option_name m ->
  let '(d', h', r) := cb_step params_update d h o in
  writable_params d' ->
  (d' = d /\ h' = h) \/
  (get_mimetype h' = Some m /\ get_mimetype_params h' = Ok d' /\ others_kept (lit "Content-Type") h h' /\ exists y, r = Ok y).
Proof.
  intros C M N. pose proof (step_cb params_update d h o C) as S. destruct (cb_step params_update d h o) as [[d' h'] r].
  destruct S as [_ S]. intros W. destruct S as [(-> & -> & _)|(y & _ & Eh & Er)]; auto. right.
  destruct (params_update_reads h m d' M N W) as (h2 & E2 & A & B & O). rewrite E2 in Eh, Er. cbn [fst snd] in *. subst. eauto 6.
Qed.

(** ** WWW-Authenticate *)
Lemma shown_map d : (forall k v, In (k, v) d -> exists s, v = Some s) ->
  exists d0, d = map (fun kv => (fst kv, Some (snd kv))) d0 /\ flat_map shown_field d = d0.
Proof.
  induction d as [|[k v] d IH]; intros H; [exists []; auto|]. destruct (H k v) as [s ->]; [left; auto|].
  destruct IH as (d0 & E & F); [intros k' v' I; apply (H k' v'); right; exact I|].
  exists ((k, s) :: d0). split; [cbn [map fst snd]; congruence|]. cbn [flat_map shown_field snd fst]. rewrite F. reflexivity.
Qed.
Lemma www_one_line d : (forall k v, In (k, v) d -> SpecHeaders.one_line v) -> (forall k v, In (k, v) d -> k <> auth_type_key -> SpecHeaders.one_line k) ->
  (forall s, dget d auth_type_key = Some s -> is_token s) -> SpecHeaders.one_line (www_to_header d).
Proof.
  intros Hv Hk Ht. unfold www_to_header. cbv zeta. apply one_line_app.
  - assert (T : forall s, is_token s -> SpecHeaders.one_line (title false s)).
    { intros s H. apply key_token in H as [H _]. apply (title_token s false) in H. pose proof (token_nospace _ H) as K.
      split; intros X; apply K in X; discriminate X. }
    assert (B : is_token (lit "basic")).
    { tok. }
    destruct (dget d auth_type_key) as [[|c s]|] eqn:E; auto.
  - apply one_line_cons; [lia|lia|]. apply join_one_line. rewrite Forall_map. apply Forall_forall. intros [k v] I. cbn [fst snd].
    unfold ddel in I. apply filter_In in I as [I Hne]. apply one_line_app; [apply (Hk k v I)|apply one_line_cons; [lia|lia|apply qhv_one_line; eauto]].
    intros ->. cbn [fst] in Hne. rewrite eqs_refl in Hne. discriminate.
Qed.
Lemma token_one_line k : is_token k -> SpecHeaders.one_line k.
Proof. intros H. apply option_name_one_line, token_option_name, H. Qed.
Lemma www_update_reads h d : writable_challenge d -> exists h', www_update h d = (h', None) /\
  (forall k, dget (get_www h') k = dget d k) /\ others_kept (lit "WWW-Authenticate") h h'.
Proof.
  intros ((scheme & G & T & Lo) & Nd & F). change (lit "__auth_type__") with auth_type_key in *.
  destruct (shown_map d) as (d0 & E & Fm).
  { intros k v I. destruct (list_eq_dec N.eq_dec k auth_type_key) as [->|Hk]; [|destruct (F k v I Hk) as (_ & s & -> & _); eauto].
    pose proof (In_dget _ _ _ Nd I) as Q. rewrite G in Q. injection Q as <-. eauto. }
  assert (Gd : forall k, dget d k = option_map Some (dget d0 k)) by (intros k; rewrite E; apply (dget_map Some d0 k)).
  assert (G0 : dget d0 auth_type_key = Some scheme) by (rewrite Gd in G; destruct (dget d0 auth_type_key); [cbn in G; congruence|discriminate]).
  assert (N0 : NoDup (map fst d0)) by (rewrite E, map_map in Nd; exact Nd).
  assert (F0 : forall k v, In (k, v) d0 -> k <> auth_type_key -> is_token k /\ SpecHeaders.one_line v /\ ~ wears_quotes v).
  { intros k v I Hk. assert (I' : In (k, Some v) d) by (rewrite E; apply (in_map (fun kv => (fst kv, Some (snd kv))) _ _ I)).
    destruct (F k (Some v) I' Hk) as (A & s & Q & B & C). injection Q as <-. auto. }
  assert (W : SpecHeaders.one_line (www_text d)).
  { unfold www_text. rewrite Fm. apply www_one_line.
    - intros k v I. destruct (list_eq_dec N.eq_dec k auth_type_key) as [->|Hk]; [|apply (F0 k v I Hk)].
      pose proof (In_dget _ _ _ N0 I) as Q. rewrite G0 in Q. injection Q as <-. apply token_one_line, T.
    - intros k v I Hk. apply token_one_line, (F0 k v I Hk).
    - intros s Q. congruence. }
  destruct (keep_set h (lit "WWW-Authenticate") (www_text d) W) as (h' & K & _ & _ & _ & Kg & O).
  exists h'. split; [destruct d; [discriminate G|exact K]|]. split; [|exact O].
  intros k. unfold get_www. rewrite (h_get_same h' (lit "www-authenticate") (lit "WWW-Authenticate") eq_refl), Kg.
  unfold www_text. rewrite Fm, Gd.
  assert (Tk : forall k v, In (k, v) d0 -> k <> auth_type_key -> is_token k) by (intros k' v' I Hk; apply (F0 k' v' I Hk)).
  destruct (list_eq_dec N.eq_dec k auth_type_key) as [->|Hk].
  - rewrite (www_type d0 scheme G0 T N0 Tk), G0, Lo. reflexivity.
  - destruct (dget d0 k) as [v|] eqn:Q.
    + apply (www_value d0 scheme); auto. apply (F0 k v); auto. apply dget_In, Q.
    + apply (www_none d0 scheme); auto.
Qed.
Lemma www_update_empty h : exists h', www_update h [] = (h', None) /\ without (lit "WWW-Authenticate") h h' /\ get_www h' = [].
Proof.
  unfold www_update. rewrite contains_remove. eexists. split; [reflexivity|]. destruct (remove_spec h (lit "www-authenticate")) as (W & G & _). split.
  - clear -W. induction W; constructor; auto; intros Q; apply H; exact Q.
  - unfold get_www. rewrite G. reflexivity.
Qed.
Lemma www_step_update d h o : covered_www o ->
  let '(d', h', r) := www_step d h o in (d' = d /\ h' = h) \/ (h', r) = www_update h d'.
Proof.
  assert (D : forall o, covered o -> let '(d', h', r) := www_dict d h o in (d' = d /\ h' = h) \/ (h', r) = www_update h d').
  { intros o0 C. unfold www_dict. pose proof (step_cb www_update d h o0 C) as S. destruct (cb_step www_update d h o0) as [[d' h'] r].
    destruct S as [_ [(-> & -> & _)|(y & _ & Eh & Er)]]; auto. right. destruct (www_update h d') as [h2 e]. cbn [fst snd] in *. subst.
    destruct e; reflexivity. }
  assert (P : forall x, let '(d', h', r) := www_replace h x in (d' = d /\ h' = h) \/ (h', r) = www_update h d').
  { intros x. unfold www_replace. destruct (www_update h _) eqn:E. right. congruence. }
  destruct o as [name [v|]|[b|]| | |o0]; cbn [www_step covered_www]; intros C; try apply P; apply D; cbn; auto.
Qed.

Lemma www_reads h d h' r : writable_challenge d -> (h', r) = www_update h d ->
  r = None /\ (forall k, dget (get_www h') k = dget d k) /\ others_kept (lit "WWW-Authenticate") h h'.
Proof.
  intros W E. destruct (www_update_reads h d W) as (h2 & E2 & A & B). rewrite E2 in E. injection E as -> ->. auto.
Qed.
Lemma www_step_reads d h o d' h' r : covered_www o -> www_step d h o = (d', h', r) ->
  (d' = d /\ h' = h) \/
  (writable_challenge d' -> r = None /\ (forall k, dget (get_www h') k = dget d' k) /\ others_kept (lit "WWW-Authenticate") h h') /\
  (d' = [] -> r = None /\ without (lit "WWW-Authenticate") h h' /\ get_www h' = []).
Proof.
  intros C E. pose proof (www_step_update d h o C) as S. rewrite E in S. destruct S as [S|S]; auto. right. split.
  - intros W. apply www_reads; auto.
  - intros ->. destruct (www_update_empty h) as (h2 & E2 & A & B). rewrite E2 in S. injection S as -> ->. auto.
Qed.
Lemma www_set_step name s d h o : hs_ok s -> tame s o -> Forall fit_name (hs_iter s) -> Forall fit_name (names_in o) ->
  let '(s', (d', h'), r) := hs_call (www_set_update name) s (d, h) o in
  s' = fst (hs_step s o) /\
  ((hs_iter s' = hs_iter s /\ d' = d /\ h' = h) \/
   ((hs_iter s' = [] -> dget d' name = None) /\
    (hs_iter s' <> [] -> exists line, dget d' name = Some (Some line) /\ parse_list_header line = hs_iter s') /\
    (forall k, k <> name -> dget d' k = dget d k) /\
    (writable_challenge d' -> (d' = d /\ h' = h) \/
       r = None /\ (forall k, dget (get_www h') k = dget d' k) /\ others_kept (lit "WWW-Authenticate") h h'))).
Proof.
  intros K T F N. pose proof (hs_call_cases (www_set_update name) s (d, h) o K T) as C.
  destruct (hs_call (www_set_update name) s (d, h) o) as [[s' [d' h']] r]. destruct C as (Es & K' & C). split; auto.
  assert (F' : Forall fit_name (hs_iter s')) by (subst s'; apply step_names; auto).
  destruct C as [[Ei E]|C]; [injection E as -> ->; auto|]. right.
  unfold www_set_update in C. rewrite (ok_len s' K') in C.
  destruct (hs_iter s') as [|n l] eqn:Ei; cbn [length Nat.eqb] in C.
  - destruct (dhas d name) eqn:Dh.
    + unfold www_dict, cb_step, calls_update in C. cbn [ModelCallback.plain] in C.
      rewrite Dh in C.
      destruct (www_update h (ddel d name)) as [h2 e2] eqn:U. destruct e2; cbn [failure] in C; injection C as -> -> ->;
        (split; [intros _; apply dget_ddel_eq|split; [intros X; congruence|split; [intros k Hk; apply dget_ddel_neq; auto|]]]);
        intros W; right; apply (www_reads _ _ _ _ W); congruence.
    + injection C as -> -> ->. split; [intros _|split; [intros X; congruence|split; auto]].
      destruct (dget d name) eqn:G; auto. assert (X : dhas d name = true) by (apply dhas_spec; eauto). congruence.
  - unfold www_dict, cb_step, calls_update in C. cbn [ModelCallback.plain] in C.
    destruct (www_update h (dset d name (Some (hs_to_header s')))) as [h2 e2] eqn:U. destruct e2; cbn [failure] in C; injection C as -> -> ->;
      (split; [intros X; discriminate X|split; [intros _; exists (hs_to_header s'); split; [apply dget_dset_eq|]|split; [intros k Hk; apply dget_dset_neq; auto|]]]).
    all: try (intros W; right; apply (www_reads _ _ _ _ W); congruence).
    all: unfold hs_to_header; change (hs_headers s') with (hs_iter s'); rewrite Ei; apply fit_reads, F'.
Qed.

(** ** Tags sent back; what the fields of a challenge become *)
Lemma etag_sent_back now date md5 fuel env r h' t w r' : get_or_head (ce_method env) ->
  t <> [] -> ~ In 34 t -> SpecHeaders.one_line t ->
  set_etag (rs_headers r) t w = (h', None) -> ce_inm env = h_get h' (lit "ETag") -> (length t + 4 <= fuel)%nat ->
  make_conditional now date md5 fuel env (with_headers r h') = Some (r', None) ->
  rs_status r' = set_status_code 304.
Proof.
  intros G N Q L E I F M.
  assert (Eq : quote_etag t w = Ok (write_tag ((if w then Weakw else Strong), t))).
  { unfold quote_etag. apply mem_not_In in Q. rewrite Q. destruct w; reflexivity. }
  unfold set_etag in E. rewrite Eq in E.
  destruct (keep_set (rs_headers r) (lit "ETag") (write_tag ((if w then Weakw else Strong), t))) as (h2 & K1 & _ & _ & K3 & K4 & _).
  { unfold write_tag. cbn [fst snd]. apply one_line_app; [destruct w; split; cbn; intros X; repeat (destruct X as [X|X]; [discriminate|]); exact X|].
    apply one_line_cons; [lia|lia|]. apply one_line_app; auto. apply one_line_cons; [lia|lia|apply one_line_nil]. }
  rewrite K1 in E. injection E as ->. rewrite K4 in I.
  destruct (conditional_tags now date md5 fuel env (with_headers r h') r' (write_tag (if w then Weakw else Strong, t)) [(if w then Weakw else Strong, t)]
              (if w then Weakw else Strong) t []) as [[_ S]|[S _]]; auto.
  - apply tl_one.
  - constructor; [|constructor]. split; [exact N|split; [exact Q|apply L]].
  - unfold write_tag. cbn [fst snd]. destruct w; cbn [lit]; rewrite ?app_length; cbn [length]; rewrite app_length; cbn; lia.
  - cbn [with_headers rs_headers]. rewrite <- K3. apply values_of_filter.
  - exfalso. apply S. exists (if w then Weakw else Strong). split; [left; reflexivity|]. destruct w; auto.
Qed.
Lemma add_etag_kept md5 r w : h_contains (rs_headers r) (lit "etag") = true -> add_etag md5 r false w = (r, None).
Proof. intros H. unfold add_etag. rewrite H. reflexivity. Qed.
Lemma add_etag_made md5 r overwrite w r1 data : overwrite = true \/ h_contains (rs_headers r) (lit "etag") = false ->
  get_data r = (r1, Ok data) -> ~ In 34 (md5 data) -> SpecHeaders.one_line (md5 data) ->
  exists h', add_etag md5 r overwrite w = (with_headers r1 h', None) /\ get_etag h' = Some (md5 data, w) /\ others_kept (lit "ETag") (rs_headers r1) h'.
Proof.
  intros O D Q L. unfold add_etag. assert (X : overwrite || negb (h_contains (rs_headers r) (lit "etag")) = true).
  { destruct O as [->| ->]; [reflexivity|]. cbn [negb]. apply orb_true_r. }
  rewrite X, D. destruct (set_etag_ok (rs_headers r1) (md5 data) w Q L) as (h' & E & S & G). rewrite E. exists h'. split; auto. split; auto.
  unfold set_etag in E. destruct (quote_etag _ _) as [q|]; [|discriminate]. 
  destruct (h_set (rs_headers r1) (lit "ETag") (HStr q) []) as [h2|] eqn:Hs; [|discriminate]. injection E as ->.
  assert (Lq : SpecHeaders.one_line q).
  { unfold h_set in Hs. rewrite stored_nil in Hs. cbn [text] in Hs. destruct (validate_value q) eqn:V; [|discriminate]. apply validate_spec, V. }
  destruct (keep_set (rs_headers r1) (lit "ETag") q Lq) as (h3 & _ & K2 & _ & _ & _ & K). rewrite K2 in Hs. injection Hs as ->. exact K.
Qed.
Lemma www_fields d h o d' h' r : www_step d h o = (d', h', r) ->
  match o with
  | WwAttr name v => forall k, dget d' k = if eqs k name then option_map Some v else dget d k
  | WwStale v => forall k, dget d' k = if eqs k (lit "stale") then option_map (fun b : bool => Some (if b then lit "TRUE" else lit "FALSE")) v else dget d k
  | WwBasic realm => d' = [(lit "__auth_type__", Some (lit "basic")); (lit "realm", Some realm)]
  | WwDigest realm nonce qop opaque algorithm stale =>
      dget d' (lit "__auth_type__") = Some (Some (lit "digest")) /\ dget d' (lit "realm") = Some (Some realm) /\
      dget d' (lit "nonce") = Some (Some nonce) /\ dget d' (lit "qop") = Some (Some (dump_header_list true qop)) /\
      dget d' (lit "opaque") = option_map Some opaque /\ dget d' (lit "algorithm") = option_map Some algorithm /\
      dget d' (lit "stale") = (if stale then Some (Some (lit "TRUE")) else None)
  | WwDict o => d' = fst (ModelCallback.plain d o)
  end.
Proof.
  assert (P : forall o d' h' r, www_dict d h o = (d', h', r) -> d' = fst (ModelCallback.plain d o)).
  { clear. intros o d' h' r. unfold www_dict.
    assert (S : cb_step www_update d h o = calls_update www_update d h o \/ cb_step www_update d h o = no_call d h o).
    { unfold cb_step. destruct o as [| | | | |k v|k v|]; auto; [destruct (negb (dhas d k))|destruct (dhas d k)]; auto. }
    unfold calls_update, no_call in S. destruct (cb_step www_update d h o) as [[d1 h1] r1]. intros E. injection E as -> _ _.
    destruct (ModelCallback.plain d o) as [d2 [y|e]]; [destruct (www_update h d2)|]; destruct S as [S|S]; injection S as -> _ _; reflexivity. }
  assert (A : forall name v, www_step d h (WwAttr name v) = (d', h', r) -> forall k, dget d' k = if eqs k name then option_map Some v else dget d k).
  { intros name [v|]; cbn [www_step]; intros E k; apply P in E; subst; cbn [ModelCallback.plain fst option_map].
    - destruct (eqs k name) eqn:X; [apply eqs_eq in X; subst; apply dget_dset_eq|apply dget_dset_neq; intros ->; rewrite eqs_refl in X; discriminate].
    - destruct (eqs k name) eqn:X.
      + apply eqs_eq in X; subst. destruct (dget d name) eqn:G; [apply dget_ddel_eq|exact G].
      + destruct (dget d name) eqn:G; [apply dget_ddel_neq; intros ->; rewrite eqs_refl in X; discriminate|reflexivity]. }
  destruct o as [name v|v|realm|realm nonce qop opaque algorithm stale|o]; intros E.
  - apply A, E.
  - destruct v as [b|]; [apply (A (lit "stale") (Some (if b then lit "TRUE" else lit "FALSE")) E)|apply (A (lit "stale") None E)].
  - cbn [www_step] in E. unfold www_replace in E. destruct (www_update _ _) in E. injection E as <- _ _. reflexivity.
  - cbn [www_step] in E. unfold www_replace in E. destruct (www_update _ _) in E. injection E as <- _ _.
    destruct stale, opaque, algorithm; repeat split; reflexivity.
  - cbn [www_step] in E. eapply P, E.
Qed.
