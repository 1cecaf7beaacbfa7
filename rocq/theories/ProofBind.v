(** Lemmas about adapters bound to an environ and about what a route builds. *)
From Coq Require Import Arith List NArith ZArith Bool Lia ZifyBool ZifyN ZifyNat Permutation Sorting.Sorted.
From Verif Require Import PyStr PyStrFacts Regex Utf8 Utf8Facts ModelUrls SpecUrls ProofUrls ModelRoute SpecRoute ProofRoute ModelUrlMap SpecUrlMap ProofUrlMap
  ModelMultiDict ModelRequest SpecRequest ProofRequest ProofIri ModelBind SpecBind.
From Verif Require PropsRoute ProofConvArgs.
Import ListNotations.
Open Scope N_scope.
Ltac inv H := inversion H; subst; clear H.

Lemma join_step (sep x y : str) (l : list str) : join sep (x :: y :: l) = x ++ sep ++ join sep (y :: l).
Proof. reflexivity. Qed.

(** ** Hosts *)
Lemma usual_port_iff scheme port : usual_port scheme port = true <-> default_port scheme port.
Proof. unfold usual_port, default_port. rewrite orb_true_iff, !andb_true_iff, !eqs_eq. tauto. Qed.
Lemma environ_host_spec environ h : asked_host environ h -> environ_host environ = Ok h /\ wsgi_host environ = Ok h.
Proof.
  unfold environ_host, wsgi_host, env_get. intros [h0 E|name scheme port E1 E2 E3 E4 D|name scheme port E1 E2 E3 E4 D].
  - rewrite E. auto.
  - rewrite E1, E2, E3, E4. cbn [bind]. apply usual_port_iff in D. rewrite D. auto.
  - rewrite E1, E2, E3, E4. cbn [bind]. destruct (usual_port scheme port) eqn:U; [apply usual_port_iff in U; contradiction|auto].
Qed.
Lemma wsgi_string_spec environ k o : stands_for environ k o -> wsgi_string environ k = Ok o.
Proof.
  intros [E|w t E U]; unfold wsgi_string; rewrite E; auto.
  assert (D : wsgi_encoding_dance t = Ok w) by exact U. apply dance_roundtrip in D as [_ D]. rewrite D. reflexivity.
Qed.
Lemma rooted_spec script root : rooted script root ->
  (if ends [47] (match script with Some x => x | None => [47] end) then match script with Some x => x | None => [47] end
   else match script with Some x => x | None => [47] end ++ [47]) = root.
Proof.
  assert (E : forall s, ends [47] s = true <-> exists r, s = r ++ [47]).
  { intros s. unfold ends. rewrite starts_spec. split.
    - intros (u & H). exists (rev u). rewrite <- (rev_involutive s), H. cbn. reflexivity.
    - intros (r & ->). exists (rev r). rewrite rev_app_distr. reflexivity. }
  intros [|s|s H]; [reflexivity| |].
  - destruct (ends [47] (s ++ [47])) eqn:X; auto. exfalso. assert (Y : ends [47] (s ++ [47]) = true) by (apply E; eauto). congruence.
  - destruct (ends [47] s) eqn:X; auto. apply E in X as (r & X). destruct (H r X).
Qed.

Section Bind.
  Variable norm : str -> res str.
  Variable m : url_map.
  Lemma bind_spec environ server subdomain s sub root scheme path query n d :
    environ_names (g_host_matching (m_config m)) environ server subdomain = Ok (s, sub) ->
    requests environ root scheme path query ->
    match sub with Some x => if g_host_matching (m_config m) then False else norm x = Ok d
                 | None => if g_host_matching (m_config m) then d = [] else norm (g_default_subdomain (m_config m)) = Ok d end ->
    norm s = Ok n -> d = [] \/ n <> [] ->
    bind_environ norm m environ server subdomain =
      Ok (Bound (Adapter m n root (if g_host_matching (m_config m) then None else Some d) scheme) path query).
  Proof.
    intros E [(script & S1 & S2) Rs Rp Rq] Hs Hn Hd. unfold bind_environ. rewrite E. cbn [bind].
    rewrite (wsgi_string_spec _ _ _ S1), (wsgi_string_spec _ _ _ Rp), (wsgi_string_spec _ _ _ Rq). cbn [bind fst snd]. unfold env_get at 1. rewrite Rs. cbn [bind].
    unfold bind_map. rewrite (rooted_spec _ _ S2). destruct (g_host_matching (m_config m)).
    - destruct sub; [destruct Hs|]. cbn [bind]. rewrite Hn. reflexivity.
    - cbn [bind]. assert (G : norm (match sub with Some x => x | None => g_default_subdomain (m_config m) end) = Ok d) by (destruct sub; auto).
      rewrite G. cbn [bind]. rewrite Hn. cbn [bind]. destruct d as [|c d]; [reflexivity|]. destruct Hd as [Hd|Hd]; [discriminate|].
      destruct n; [destruct Hd; reflexivity|reflexivity].
  Qed.
  Lemma bind_host environ h root scheme path query n d : g_host_matching (m_config m) = false ->
    asked_host environ h -> requests environ root scheme path query ->
    norm h = Ok n -> norm (g_default_subdomain (m_config m)) = Ok d -> d = [] \/ n <> [] ->
    bind_environ norm m environ None None = Ok (Bound (Adapter m n root (Some d) scheme) path query).
  Proof.
    intros G H R Hn Hd Hx. destruct (environ_host_spec _ _ H) as [E _].
    rewrite (bind_spec environ None None h None root scheme path query n d); auto; rewrite ?G; auto. cbn [environ_names]. rewrite E. reflexivity.
  Qed.
  Lemma bind_host_matching environ h root scheme path query n : g_host_matching (m_config m) = true ->
    asked_host environ h -> requests environ root scheme path query -> norm h = Ok n ->
    bind_environ norm m environ None None = Ok (Bound (Adapter m n root None scheme) path query).
  Proof.
    intros G H R Hn. destruct (environ_host_spec _ _ H) as [E _].
    rewrite (bind_spec environ None None h None root scheme path query n []); auto; rewrite ?G; auto. cbn [environ_names]. rewrite E. reflexivity.
  Qed.
  Lemma bind_given environ s sub root scheme path query n d : g_host_matching (m_config m) = false ->
    requests environ root scheme path query -> norm s = Ok n -> norm sub = Ok d -> d = [] \/ n <> [] ->
    bind_environ norm m environ (Some s) (Some sub) = Ok (Bound (Adapter m n root (Some d) scheme) path query).
  Proof.
    intros G R Hn Hd Hx. rewrite (bind_spec environ (Some s) (Some sub) s (Some sub) root scheme path query n d); auto; rewrite ?G; auto.
  Qed.
  Lemma bind_given_matching environ s root scheme path query n : g_host_matching (m_config m) = true ->
    requests environ root scheme path query -> norm s = Ok n ->
    bind_environ norm m environ (Some s) None = Ok (Bound (Adapter m n root None scheme) path query) /\
    forall sub, bind_environ norm m environ (Some s) (Some sub) = Raise RuntimeError.
  Proof.
    intros G R Hn. split.
    - rewrite (bind_spec environ (Some s) None s None root scheme path query n []); auto; rewrite ?G; auto.
    - intros sub. destruct R as [(script & S1 & S2) Rs Rp Rq]. unfold bind_environ. cbn [environ_names bind].
      rewrite (wsgi_string_spec _ _ _ S1), (wsgi_string_spec _ _ _ Rp), (wsgi_string_spec _ _ _ Rq). cbn [bind fst snd]. unfold env_get at 1. rewrite Rs. cbn [bind].
      unfold bind_map. rewrite G. reflexivity.
  Qed.

  (** *** Subdomains *)
  Lemma list_eqb_eq (a b : list str) : list_eqb eqs a b = true <-> a = b.
  Proof.
    revert b. induction a as [|x a IH]; intros [|y b]; cbn [list_eqb]; try (split; [discriminate|discriminate]); [tauto|].
    rewrite andb_true_iff, eqs_eq, IH. split; [intros [-> ->]; auto|intros E; inv E; auto].
  Qed.
  Lemma split_dotted labels s : Forall (fun x => ~ In 46 x) labels -> labels <> [] ->
    split_on 46 (dotted labels ++ 46 :: s) = labels ++ split_on 46 s.
  Proof.
    intros F. induction F as [|x l Hx Hl IH]; intros N; [destruct N; auto|]. destruct l as [|y l].
    - cbn [dotted join app]. apply split_on_app; auto.
    - unfold dotted. rewrite join_step. rewrite <- !app_assoc. cbn [app]. rewrite split_on_app by auto. f_equal. apply IH. discriminate.
  Qed.
  Lemma filter_same (l : list str) : filter (fun s => negb (is_nil s)) l = filter (fun x => negb (eqs x [])) l.
  Proof. apply filter_ext. intros [|c s]; reflexivity. Qed.
  Lemma split_below server h sub : below server h sub -> split_subdomain server h = sub.
  Proof.
    intros [|labels N F]; unfold split_subdomain.
    - rewrite Nat.sub_diag. cbn [skipn firstn filter join]. rewrite (proj2 (list_eqb_eq _ _) eq_refl). reflexivity.
    - cbn [app]. rewrite split_dotted by auto. rewrite app_length.
      replace (length labels + length (split_on 46 server) - length (split_on 46 server))%nat with (length labels) by lia.
      rewrite skipn_app, firstn_app, skipn_all, firstn_all, Nat.sub_diag. cbn [skipn firstn app]. rewrite (proj2 (list_eqb_eq _ _) eq_refl), app_nil_r.
      unfold dotted. f_equal. apply filter_same.
  Qed.
  Lemma split_elsewhere server h : (forall sub, ~ below server h sub) -> split_subdomain server h = invalid_subdomain.
  Proof.
    intros H. unfold split_subdomain. set (n := (length (split_on 46 h) - length (split_on 46 server))%nat).
    destruct (list_eqb eqs (skipn n (split_on 46 h)) (split_on 46 server)) eqn:E; auto. exfalso. apply list_eqb_eq in E.
    assert (Eh : h = join [46] (firstn n (split_on 46 h) ++ split_on 46 server)) by (rewrite <- E, firstn_skipn, join_split; auto).
    remember (firstn n (split_on 46 h)) as labels eqn:El.
    assert (F : Forall (fun x => ~ In 46 x) labels).
    { subst labels. pose proof (split_on_parts 46 h) as P. rewrite <- (firstn_skipn n) in P. apply Forall_app in P. tauto. }
    clear El E. destruct labels as [|x l].
    - cbn [app] in Eh. rewrite join_split in Eh. subst h. exact (H _ (bl_same server)).
    - apply (H (dotted (filter (fun x => negb (eqs x [])) (x :: l)))).
      replace h with (dotted (x :: l) ++ [46] ++ server); [apply bl_sub; [discriminate|auto]|].
      rewrite Eh. clear. revert x. induction l as [|y l IH]; intros x.
      + cbn [app]. destruct (split_on 46 server) as [|z zs] eqn:Z; [destruct (split_on_nonnil _ _ Z)|].
        rewrite join_step. rewrite <- Z, join_split. reflexivity.
      + unfold dotted. cbn [app] in *. rewrite !join_step, <- IH. unfold dotted. rewrite <- !app_assoc. reflexivity.
  Qed.
  Lemma bind_subdomain environ h s sub root scheme path query n d : g_host_matching (m_config m) = false ->
    asked_host environ h -> below (lower s) (lower h) sub -> requests environ root scheme path query ->
    norm (lower s) = Ok n -> norm sub = Ok d -> d = [] \/ n <> [] ->
    bind_environ norm m environ (Some s) None = Ok (Bound (Adapter m n root (Some d) scheme) path query).
  Proof.
    intros G H B R Hn Hd Hx. destruct (environ_host_spec _ _ H) as [_ E].
    rewrite (bind_spec environ (Some s) None (lower s) (Some sub) root scheme path query n d); auto; rewrite ?G; auto.
    cbn [environ_names]. rewrite E. cbn [bind]. rewrite (split_below _ _ _ B). reflexivity.
  Qed.
  Lemma bind_elsewhere environ h s root scheme path query n : g_host_matching (m_config m) = false ->
    asked_host environ h -> (forall sub, ~ below (lower s) (lower h) sub) -> requests environ root scheme path query ->
    norm (lower s) = Ok n -> norm (lit "<invalid>") = Ok (lit "<invalid>") -> n <> [] ->
    bind_environ norm m environ (Some s) None = Ok (Bound (Adapter m n root (Some (lit "<invalid>")) scheme) path query).
  Proof.
    intros G H B R Hn Hd Hx. destruct (environ_host_spec _ _ H) as [_ E].
    rewrite (bind_spec environ (Some s) None (lower s) (Some (lit "<invalid>")) root scheme path query n (lit "<invalid>")); auto; rewrite ?G; auto.
    cbn [environ_names]. rewrite E. cbn [bind]. rewrite (split_elsewhere _ _ B). reflexivity.
  Qed.
End Bind.

(** *** No route *)
Lemma only_instance r d ts slash path : only_for r d -> instance r ts slash path -> exists p, path = d ++ 124 :: p.
Proof.
  intros [_ D] I. assert (T : route_text r ts slash path) by (destruct I; auto).
  destruct T as (tsd & tsp & x & p & F & _ & _ & ->). exists (p ++ slash).
  replace x with d; [reflexivity|]. destruct D as [D|[D ->]]; rewrite D in F.
  - apply fills_static in F as (v & F & ->). inv F. rewrite app_nil_r. auto.
  - inv F. auto.
Qed.
Lemma no_route ip_ok nfkc_ok mk g a x p q : made mk g (a_map a) -> g_host_matching (m_config (a_map a)) = false -> a_subdomain a = Some x -> ~ In 124 x ->
  (forall b, In b (m_routes (a_map a)) -> plain_route (b_route b) /\ exists d, only_for (b_route b) d /\ d <> x) ->
  snd (match_path ip_ok nfkc_ok a p q) = Ok NotFound.
Proof.
  intros M G Ex Hx H. set (path := full_path a p).
  assert (Ep : path = x ++ 124 :: 47 :: lstrip_slash p).
  { unfold path, full_path, host_matching. rewrite G. cbn [andb]. rewrite Ex. reflexivity. }
  apply (not_found ip_ok nfkc_ok mk g a p q M). intros b Hb. apply H in Hb as (P & d & O & Nd). fold path.
  apply PropsRoute.C58_no_instance; auto. intros ts slash U.
  assert (B : forall w, ~ instance (b_route b) ts slash (x ++ 124 :: w)).
  { intros w I. destruct (only_instance _ _ _ _ _ O I) as (u & E). destruct O as [O _]. apply Nd. symmetry.
    apply (f_equal (split1 124)) in E. rewrite !split1_app in E by auto. inv E. reflexivity. }
  destruct U as [I|(w & Ew & I)]; [rewrite Ep in I; exact (B _ I)|].
  rewrite Ep in Ew. destruct (@exists_last _ (124 :: 47 :: lstrip_slash p)) as (w' & c & E'); [discriminate|].
  rewrite E', app_assoc in Ew. apply app_inj_tail in Ew as [Ew _]. subst w.
  destruct w' as [|c0 w']; [discriminate|]. inv E'. exact (B _ I).
Qed.

(** ** What a route builds *)
Lemma static_spelled s q : urlquote (lit "/:|+") s = Ok q -> quoted_form (lit "/:|+") q /\ decodes q s.
Proof.
  intros H. split.
  - apply urlquote_spec in H as (b & _ & Hb & ->). apply quote_quoted_form; auto.
  - apply (urlquote_roundtrip (lit "/:|+")); auto. vm_compute. intuition lia.
Qed.
Lemma pieces_spelled values l t : build_pieces l values = Ok (Some t) -> spells values l t.
Proof.
  revert t. induction l as [|[s|n c] l IH]; intros t H; cbn [build_pieces] in H.
  - inv H. constructor.
  - destruct (urlquote _ s) as [q|] eqn:Eq; cbn [bind] in H; [|discriminate].
    destruct (build_pieces l values) as [[u|]|]; cbn [bind option_map] in H; try discriminate. inv H.
    destruct (static_spelled s q Eq). constructor; auto.
  - destruct (dget values n) as [v|] eqn:Ev; [|discriminate]. destruct (c_to_url c v) as [[x|]|] eqn:Ex; cbn [bind] in H; try discriminate.
    destruct (build_pieces l values) as [[u|]|]; cbn [bind option_map] in H; try discriminate. inv H. econstructor; eauto.
Qed.
Definition can_write (values : dict value) (l : list piece) : Prop :=
  forall p, In p l -> match p with PStatic s => unicode_text s | PVar n c => exists v x, dget values n = Some v /\ c_to_url c v = Ok (Some x) end.
Lemma pieces_total values l : can_write values l -> exists t, build_pieces l values = Ok (Some t).
Proof.
  induction l as [|p l IH]; intros H; cbn [build_pieces]; [eauto|].
  destruct IH as (t & Ht); [intros p' Hp'; apply H; right; auto|]. rewrite Ht.
  pose proof (H p (or_introl eq_refl)) as Hp. destruct p as [s|n c].
  - destruct (urlquote_ok (lit "/:|+") s Hp) as (q & ->). cbn. eauto.
  - destruct Hp as (v & x & -> & ->). cbn. eauto.
Qed.
Lemma pieces_lack values l : lacks values l -> build_pieces l values = Raise KeyError.
Proof.
  induction 1 as [s l U _ IH|n c v x l E W _ IH|n c l E]; cbn [build_pieces].
  - destruct (urlquote_ok (lit "/:|+") s U) as (q & ->). cbn [bind]. rewrite IH. reflexivity.
  - rewrite E, W. cbn [bind]. rewrite IH. reflexivity.
  - rewrite E. reflexivity.
Qed.
Lemma pieces_decline values l : declined values l -> build_pieces l values = Ok None.
Proof.
  induction 1 as [s l U _ IH|n c v x l E W _ IH|n c v l E W]; cbn [build_pieces].
  - destruct (urlquote_ok (lit "/:|+") s U) as (q & ->). cbn [bind]. rewrite IH. reflexivity.
  - rewrite E, W. cbn [bind]. rewrite IH. reflexivity.
  - rewrite E, W. reflexivity.
Qed.
Lemma bar_unicode : unicode_text [124].
Proof. intros c [<-|[]]. lia. Qed.
Lemma lacks_bar values l l' : lacks values (l ++ l') -> lacks values (l ++ PStatic [124] :: l').
Proof.
  induction l as [|p l IH]; intros H; cbn [app] in *; [apply la_static; [exact bar_unicode|auto]|].
  inv H; [apply la_static; auto|eapply la_var; eauto|apply la_here; auto].
Qed.
Lemma declined_bar values l l' : declined values (l ++ l') -> declined values (l ++ PStatic [124] :: l').
Proof.
  induction l as [|p l IH]; intros H; cbn [app] in *; [apply de_static; [exact bar_unicode|auto]|].
  inv H; [apply de_static; auto|eapply de_var; eauto|eapply de_here; eauto].
Qed.
Lemma build_lack r values au : lacks values (r_domain r ++ path_pieces r) -> route_build r values au = Raise KeyError.
Proof. intros H. apply lacks_bar, pieces_lack in H. unfold route_build, trace. unfold path_pieces in H. rewrite H. reflexivity. Qed.
Lemma build_decline r values au : declined values (r_domain r ++ path_pieces r) -> route_build r values au = Ok None.
Proof. intros H. apply declined_bar, pieces_decline in H. unfold route_build, trace. unfold path_pieces in H. rewrite H. reflexivity. Qed.
Lemma pieces_fail values e l : fails values e l -> build_pieces l values = Raise e.
Proof.
  induction 1 as [s l U _ IH|n c v x l E W _ IH|n c v l E W]; cbn [build_pieces].
  - destruct (urlquote_ok (lit "/:|+") s U) as (q & ->). cbn [bind]. rewrite IH. reflexivity.
  - rewrite E, W. cbn [bind]. rewrite IH. reflexivity.
  - rewrite E, W. reflexivity.
Qed.
Lemma fails_bar values e l l' : fails values e (l ++ l') -> fails values e (l ++ PStatic [124] :: l').
Proof.
  induction l as [|p l IH]; intros H; cbn [app] in *; [apply fa_static; [exact bar_unicode|auto]|].
  inv H; [apply fa_static; auto|eapply fa_var; eauto|eapply fa_here; eauto].
Qed.
Lemma build_fail r values au e : fails values e (r_domain r ++ path_pieces r) -> route_build r values au = Raise e.
Proof. intros H. apply fails_bar, pieces_fail in H. unfold route_build, trace. unfold path_pieces in H. rewrite H. reflexivity. Qed.
Lemma int_written fixed mn mx :
  (forall z, c_to_url (conv_int fixed mn mx) (VStr (zdec z)) = c_to_url (conv_int fixed mn mx) (VInt z)) /\
  (forall s c, In c s -> is_ascii_digit c = false -> ~ In c [95; 43; 45] -> is_space c = false ->
     c_to_url (conv_int fixed mn mx) (VStr s) = Raise ValueError) /\
  c_to_url (conv_int fixed mn mx) (VStr []) = Raise ValueError /\
  (forall s, c_to_url (conv_int fixed mn mx) (VObj s) = Raise TypeError).
Proof.
  split; [|split; [|split; reflexivity]].
  - intros z. cbn [conv_int c_to_url]. unfold int_to_url, int_of_value. rewrite py_int_zdec. reflexivity.
  - intros s c Hc Hd Hn Hs. cbn [conv_int c_to_url]. unfold int_to_url, int_of_value. rewrite (ProofConvArgs.py_int_no c s); auto.
    rewrite Hs. assert (c <> 95 /\ c <> 43 /\ c <> 45) as (A & B & D).
    { repeat split; intros ->; apply Hn; cbn; auto. }
    apply N.eqb_neq in A, B, D. rewrite A, B, D. reflexivity.
Qed.

(** *** The query *)
Lemma str_ltb_iff a b : str_ltb a b = true <-> text_lt a b.
Proof.
  revert b. induction a as [|x a IH]; intros [|y b]; cbn [str_ltb].
  - split; [discriminate|intros H; inv H].
  - split; [constructor|auto].
  - split; [discriminate|intros H; inv H].
  - rewrite orb_true_iff, andb_true_iff, N.ltb_lt, N.eqb_eq, IH. split.
    + intros [H|[-> H]]; [apply tl_first; auto|apply tl_rest; auto].
    + intros H. inv H; auto.
Qed.
Lemma text_lt_trans a b c : text_lt a b -> text_lt b c -> text_lt a c.
Proof.
  intros H. revert c. induction H; intros c' H'; inv H'; try (constructor; lia); try (constructor; auto; fail).
Qed.
Lemma text_lt_total a b : a <> b -> text_lt a b \/ text_lt b a.
Proof.
  revert b. induction a as [|x a IH]; intros [|y b] H.
  - destruct H; auto.
  - left. constructor.
  - right. constructor.
  - destruct (N.lt_trichotomy x y) as [L|[->|L]]; [left; apply tl_first; auto| |right; apply tl_first; auto].
    destruct (IH b) as [L|L]; [congruence|left; apply tl_rest; auto|right; apply tl_rest; auto].
Qed.
Lemma insert_item_in {V} (kv : str * V) l x : In x (insert_item kv l) <-> x = kv \/ In x l.
Proof.
  induction l as [|y l IH]; cbn [insert_item]; [cbn; intuition|]. destruct (str_ltb _ _); cbn [In]; [intuition|rewrite IH; intuition].
Qed.
Lemma insert_item_sorted {V} (kv : str * V) l : StronglySorted (fun x y => text_lt (fst x) (fst y)) l -> (forall x, In x l -> fst x <> fst kv) ->
  StronglySorted (fun x y => text_lt (fst x) (fst y)) (insert_item kv l).
Proof.
  induction 1 as [|y l S IH F]; intros N; cbn [insert_item]; [constructor; constructor|].
  destruct (str_ltb (fst kv) (fst y)) eqn:E.
  - apply str_ltb_iff in E. constructor; [constructor; auto|]. constructor; auto.
    rewrite Forall_forall in *. intros z Hz. eapply text_lt_trans; [exact E|apply F; auto].
  - constructor; [apply IH; intros x Hx; apply N; right; auto|]. rewrite Forall_forall in *. intros z Hz. apply insert_item_in in Hz as [->|Hz]; auto.
    destruct (text_lt_total (fst kv) (fst y)) as [L|L]; auto; [intros X; apply (N y); [left|]; auto|]. apply str_ltb_iff in L. congruence.
Qed.
Lemma sort_items_spec {V} (l : list (str * V)) : NoDup (map fst l) ->
  (forall x, In x (sort_items l) <-> In x l) /\ StronglySorted (fun x y => text_lt (fst x) (fst y)) (sort_items l).
Proof.
  intros N. unfold sort_items.
  assert (G : forall l acc, NoDup (map fst l) -> (forall x y, In x acc -> In y l -> fst x <> fst y) ->
    StronglySorted (fun x y => text_lt (fst x) (fst y)) acc ->
    (forall x, In x (fold_left (fun acc kv => insert_item kv acc) l acc) <-> In x acc \/ In x l) /\
    StronglySorted (fun x y => text_lt (fst x) (fst y)) (fold_left (fun acc (kv : str * V) => insert_item kv acc) l acc)).
  { clear. induction l as [|kv l IH]; intros acc N H S; cbn [fold_left]; [split; [intros x; cbn; tauto|auto]|].
    cbn [map] in N. apply NoDup_cons_iff in N as [N1 N2].
    destruct (IH (insert_item kv acc)) as [I1 I2]; auto.
    - intros x y Hx Hy. apply insert_item_in in Hx as [->|Hx]; [|apply H; [|right]; auto].
      intros E. apply N1. rewrite E. apply in_map; auto.
    - apply insert_item_sorted; auto. intros x Hx. apply (H x kv Hx). left; auto.
    - split; auto. intros x. rewrite I1, insert_item_in. cbn [In]. intuition. }
  destruct (G l [] N) as [G1 G2]; [intros x y []|constructor|]. split; auto. intros x. rewrite G1. cbn. tauto.
Qed.
Lemma query_vars_in r values k v : In (k, v) (query_vars r values) <-> In (k, v) values /\ ~ takes r k.
Proof.
  unfold query_vars. rewrite filter_In. cbn [fst]. rewrite negb_true_iff, takes_in.
  assert (E : existsb (eqs k) (arguments r ++ var_names r) = true <-> In k (arguments r)).
  { rewrite existsb_exists. split.
    - intros (x & Hx & E). apply eqs_eq in E as ->. apply in_app_iff in Hx as [Hx|Hx]; auto. unfold arguments. apply nodup_In, in_app_iff. auto.
    - intros H. exists k. split; [apply in_app_iff; auto|apply eqs_refl]. }
  destruct (existsb _ _); split; intros [H1 H2]; split; auto; try discriminate; [destruct H2; apply E; auto|rewrite <- E; discriminate].
Qed.
Lemma filter_NoDup {V} (f : str * V -> bool) l : NoDup (map fst l) -> NoDup (map fst (filter f l)).
Proof.
  induction l as [|x l IH]; intros N; cbn [filter]; auto. cbn [map] in N. apply NoDup_cons_iff in N as [N1 N2].
  destruct (f x); auto. cbn [map]. constructor; auto. intros H. apply N1. apply in_map_iff in H as (y & E & H). apply filter_In in H as [H _].
  rewrite <- E. apply in_map; auto.
Qed.
Lemma others_sorted r values : NoDup (map fst values) -> others r values (sort_items (query_vars r values)).
Proof.
  intros N. destruct (sort_items_spec (query_vars r values)) as [S1 S2]; [apply filter_NoDup; auto|].
  constructor; auto. intros k v. rewrite S1. apply query_vars_in.
Qed.
Lemma shows_str v : shows v (value_str v).
Proof. destruct v; constructor. Qed.
Lemma plus_no_hash s q : urlquote_plus [] s = Ok q -> ~ In 35 q.
Proof.
  unfold urlquote_plus. destruct (utf8_encode s) as [b|] eqn:E; cbn [bind]; [|discriminate]. intros H Hc. inv H.
  pose proof (utf8_encode_bytes _ _ E) as Hb. apply is_bytes_text in Hb.
  apply in_map_iff in Hc as (x & Ex & Hx). apply quote_bytes_chars in Hx; auto.
  rewrite quote_safe_spec in Hx. unfold unreserved in Hx. cbn [In] in Hx. destruct (N.eqb_spec x 32); lia.
Qed.
Lemma pairs_mean l raws : urlencode_pairs l = Ok raws -> Forall2 pair_means raws l.
Proof.
  revert raws. induction l as [|[k v] l IH]; intros raws H; cbn [urlencode_pairs] in H; [inv H; constructor|].
  destruct (urlquote_plus [] k) as [qk|] eqn:K; cbn [bind] in H; [|discriminate].
  destruct (urlquote_plus [] (value_str v)) as [qv|] eqn:V; cbn [bind] in H; [|discriminate].
  destruct (urlencode_pairs l) as [rs|]; cbn [bind] in H; [|discriminate]. inv H. constructor; auto.
  destruct (quoted_plus_form _ _ K) as [K1 _], (quoted_plus_form _ _ V) as [V1 V2].
  apply (pm_intro _ _ _ _ (value_str v)); auto; try (intros X; first [apply (quoted_plus_chars _ _ _ K) in X|apply (quoted_plus_chars _ _ _ V) in X]; lia).
  - eapply plus_no_hash; eauto.
  - eapply plus_no_hash; eauto.
  - apply shows_str.
Qed.
Lemma pairs_total l : (forall k v s, In (k, v) l -> shows v s -> unicode_text k /\ unicode_text s) -> exists raws, urlencode_pairs l = Ok raws.
Proof.
  assert (P : forall s, unicode_text s -> exists q, urlquote_plus [] s = Ok q).
  { intros s Hs. unfold urlquote_plus, utf8_encode. apply scalar_text in Hs. rewrite Hs. cbn [bind]. eauto. }
  induction l as [|[k v] l IH]; intros H; cbn [urlencode_pairs]; [eauto|].
  destruct (H k v (value_str v) (or_introl eq_refl) (shows_str v)) as [Uk Uv]. apply P in Uk as (qk & ->), Uv as (qv & ->). cbn [bind].
  destruct IH as (rs & ->); [intros; eapply H; [right|]; eauto|]. cbn. eauto.
Qed.
Lemma build_spec r values au d path : NoDup (map fst values) ->
  (forall u, spells values (r_domain r) u -> ~ In 124 u) ->
  route_build r values au = Ok (Some (d, path)) ->
  exists u q, spells values (r_domain r) d /\ spells values (path_pieces r) u /\ path = u ++ q /\
    (au = false -> q = []) /\ (au = true -> exists l, others r values l /\ query_says l q).
Proof.
  intros N Hbar H. unfold route_build, trace in H. fold (path_pieces r) in H.
  destruct (build_pieces (r_domain r ++ PStatic [124] :: path_pieces r) values) as [[t|]|] eqn:E; cbn [bind] in H; try discriminate.
  apply build_pieces_app in E as (t1 & t2 & E1 & E2 & ->). cbn [build_pieces] in E2. rewrite bar_text in E2. cbn [bind] in E2.
  destruct (build_pieces (path_pieces r) values) as [[up|]|] eqn:E3; cbn [bind option_map] in E2; try discriminate.
  assert (t2 = [124] ++ up) as -> by congruence. cbn [app] in H. clear E2. apply pieces_spelled in E1, E3.
  rewrite split1_app in H by auto. pose proof (others_sorted r values N) as O.
  destruct au; [destruct (sort_items (query_vars r values)) as [|q0 qs] eqn:Eq|].
  - assert (t1 = d) as <- by congruence. assert (up = path) as <- by congruence.
    exists up, []. rewrite app_nil_r. repeat split; auto; try discriminate. intros _. exists []. split; auto. constructor.
  - unfold ModelRoute.urlencode in H. destruct (urlencode_pairs (q0 :: qs)) as [raws|] eqn:Er; cbn [bind] in H; [|discriminate].
    assert (t1 = d) as <- by congruence. assert (up ++ 63 :: join [38] raws = path) as <- by congruence.
    exists up, (63 :: join [38] raws). repeat split; auto; try discriminate. intros _. exists (q0 :: qs). split; auto.
    apply qs_some; [discriminate|]. apply pairs_mean; auto.
  - assert (t1 = d) as <- by congruence. assert (up = path) as <- by congruence.
    exists up, []. rewrite app_nil_r. repeat split; auto; discriminate.
Qed.
Lemma build_total r values au : can_write values (r_domain r ++ path_pieces r) -> NoDup (map fst values) ->
  (au = true -> forall k v s, In (k, v) values -> ~ takes r k -> shows v s -> unicode_text k /\ unicode_text s) ->
  exists d path, route_build r values au = Ok (Some (d, path)).
Proof.
  intros W N H. unfold route_build, trace. fold (path_pieces r).
  destruct (pieces_total values (r_domain r ++ PStatic [124] :: path_pieces r)) as (t & Et).
  { intros p Hp. apply in_app_iff in Hp as [Hp|[<-|Hp]]; [apply W, in_app_iff; auto|exact bar_unicode|apply W, in_app_iff; auto]. }
  rewrite Et. cbn [bind]. apply build_pieces_app in Et as (t1 & t2 & E1 & E2 & ->). cbn [build_pieces] in E2. rewrite bar_text in E2. cbn [bind] in E2.
  destruct (build_pieces (path_pieces r) values) as [[up|]|] eqn:E3; cbn [bind option_map] in E2; try discriminate.
  assert (t2 = [124] ++ up) as -> by congruence. cbn [app].
  destruct (split1 124 (t1 ++ 124 :: up)) as [[a b]|] eqn:S.
  - destruct au; [|eauto]. destruct (sort_items (query_vars r values)) as [|q0 qs] eqn:Eq; [eauto|].
    destruct (pairs_total (q0 :: qs)) as (raws & Er).
    { intros k v s Hi Hs. rewrite <- Eq in Hi. destruct (others_sorted r values N) as [O _]. apply O in Hi as [H1 H2]. eapply H; eauto. }
    unfold ModelRoute.urlencode. rewrite Er. cbn. eauto.
  - exfalso. assert (X : forall s, split1 124 s = None -> ~ In 124 s).
    { clear. induction s as [|c s IH]; cbn [split1]; [intros _ []|]. destruct (N.eqb_spec c 124); [discriminate|].
      destruct (split1 124 s) as [[? ?]|]; [discriminate|]. intros _ [E|Hi]; [congruence|exact (IH eq_refl Hi)]. }
    apply (X _ S). apply in_app_iff. right. left. auto.
Qed.

(** *** The query read back *)
Lemma decoded_empty q b : percent_decodes q b -> (q = [] <-> b = []).
Proof.
  intros H. inv H; try (split; discriminate); [tauto| |].
  - split; [|discriminate]. inv H0. discriminate.
  - inv H0. cbn. split; discriminate.
Qed.
Lemma form_empty raw t : form_decodes raw t -> (raw = [] <-> t = []).
Proof.
  intros (_ & b & P & U). pose proof (decoded_empty _ _ P) as D. assert (raw = [] <-> plus_as_space raw = []) as -> by (destruct raw; cbn; split; congruence).
  rewrite D. split; intros ->.
  - eapply utf8_encode_inj; [exact U|reflexivity].
  - cbn in U. inv U. reflexivity.
Qed.
Lemma query_read environ l w : query_says l (63 :: w) -> dget environ (lit "QUERY_STRING") = Some w ->
  exists d, req_args environ = Ok d /\
    forall k, m_getlist d k = flat_map (fun kv => if list_eq_dec N.eq_dec (fst kv) k then match value_str (snd kv) with [] => [] | s => [s] end else []) l.
Proof.
  intros Q H. inversion Q as [|l' raws Hl F El Er]. subst l' w. clear Q.
  assert (P : exists means, Forall2 piece_means raws means /\ forall k, values_for (somes means) k =
    flat_map (fun kv => if list_eq_dec N.eq_dec (fst kv) k then match value_str (snd kv) with [] => [] | s => [s] end else []) l).
  { clear Hl H. induction F as [|raw [k v] raws l M F' (means & IH1 & IH2)]; [exists []; split; [constructor|reflexivity]|]. inversion M as [rawname rawvalue name v0 s N1 N2 N3 N4 N5 D1 D2 Sh E1 E2]. subst name v0 raw. clear M.
    assert (Es : s = value_str v) by (destruct v; inversion Sh; auto). destruct s as [|c s].
    - exists (None :: means). split.
      + constructor; auto. assert (rawvalue = []) as -> by (apply (form_empty _ [] D2); auto). apply pm_blank; auto. apply D1.
      + intros k'. cbn [somes flat_map app fst snd]. rewrite <- Es. rewrite <- IH2. destruct (list_eq_dec N.eq_dec k k'); reflexivity.
    - exists (Some (k, c :: s) :: means). split.
      + constructor; auto. apply pm_pair; auto. intros X. apply (form_empty _ (c :: s) D2) in X. discriminate.
      + intros k'. cbn [somes flat_map app fst snd]. rewrite <- Es. fold (somes means). unfold values_for. cbn [filter fst].
        destruct (list_eq_dec N.eq_dec k k'); cbn [map snd app]; [f_equal; apply IH2|apply IH2]. }
  destruct P as (means & M & G). destruct (args_spec environ raws means H M) as (d & D & L). exists d. split; auto. intros k. rewrite L. apply G.
Qed.
