(** Proofs about middlewares and environment helpers. *)
From Coq Require Import Arith List NArith ZArith Bool Lia ZifyBool ZifyN ZifyNat.
From Verif Require Import PyStr PyStrFacts ModelUrls ModelAuth SpecAuth ProofIri ProofAuth ModelWsgi SpecWsgi.
Import ListNotations.
Open Scope N_scope.

(** ** DispatcherMiddleware *)
Lemma dispatch_loop_spec fuel : forall mounts default script path_info chosen s p,
  (path_info = [] \/ exists r, path_info = 47 :: r) ->
  dispatch_loop fuel mounts default script path_info = Some (chosen, s, p) ->
  boundary_prefix (script ++ path_info) s p /\
  (exists t, script = s ++ t) /\
  match dget mounts s with
  | Some a => chosen = a
  | None => chosen = default /\ ~ In 47 s
  end /\
  (forall m rest, boundary_prefix (script ++ path_info) m rest -> (length s < length m <= length script)%nat ->
     dget mounts m = None).
Proof.
  induction fuel as [|f IH]; intros mounts default script path_info chosen s p Hp; cbn [dispatch_loop]; [discriminate|].
  destruct (rsplit1 47 script) as [[script' last]|] eqn:E.
  - apply rsplit1_some in E. destruct E as [-> Hl].
    destruct (dget mounts (script' ++ 47 :: last)) as [a|] eqn:Em.
    + intros [= <- <- <-]. split; [split; auto|]. split; [exists []; rewrite app_nil_r; auto|].
      rewrite Em. split; auto. intros; lia.
    + intros H. apply IH in H; [|right; eauto].
      replace (script' ++ 47 :: last ++ path_info) with ((script' ++ 47 :: last) ++ path_info) in H
        by (rewrite <- app_assoc; auto).
      destruct H as (B & [t Ht] & D & L). split; auto. split; [exists (t ++ 47 :: last); rewrite Ht, <- app_assoc; auto|].
      split; auto.
      intros m rest Hb Hm. destruct (le_lt_dec (length m) (length script')) as [Hle|Hgt].
      { apply (L m rest); auto. lia. }
      (* m lies in script' / last: it must be the whole script *)
      destruct Hb as [E R].
      assert (m = script' ++ 47 :: last) as ->; [|auto].
      rewrite <- app_assoc in E. cbn [app] in E.
      symmetry in E. apply app_eq_app in E. destruct E as [l [[-> E]|[-> E]]].
      * destruct l as [|x l]; [rewrite app_nil_r in Hgt; lia|]. injection E as <- E.
        rewrite app_length in Hm. cbn [length] in Hm. rewrite app_length in Hm. cbn [length] in Hm.
        apply app_eq_app in E. destruct E as [k [[-> E]|[-> E]]].
        -- destruct R as [->|[r ->]].
           ++ symmetry in E. apply app_eq_nil in E. destruct E as [-> ->]. rewrite app_nil_r. auto.
           ++ destruct k as [|y k]; [rewrite app_nil_r; auto|]. exfalso. injection E as <- E.
              apply Hl. rewrite in_app_iff. right. left. auto.
        -- rewrite app_length in Hm. assert (k = []) as -> by (destruct k; [auto|cbn in Hm; lia]).
           rewrite app_nil_r. auto.
      * rewrite app_length in Hgt. lia.
  - apply rsplit1_none in E. intros [= <- <- <-]. split; [split; auto|].
    split; [exists []; rewrite app_nil_r; auto|]. split; [destruct (dget mounts script); auto|].
    intros; lia.
Qed.

Lemma dispatch_loop_ends fuel : forall mounts default script path_info,
  (length script < fuel)%nat -> dispatch_loop fuel mounts default script path_info <> None.
Proof.
  induction fuel as [|f IH]; intros mounts default script path_info H; [lia|]. cbn [dispatch_loop].
  destruct (rsplit1 47 script) as [[script' last]|] eqn:E; [|discriminate].
  apply rsplit1_some in E. destruct E as [-> _]. destruct (dget mounts _); [discriminate|].
  apply IH. rewrite app_length in H. cbn in H. lia.
Qed.

Lemma lit_neq_sp : lit "PATH_INFO" <> lit "SCRIPT_NAME".
Proof. discriminate. Qed.

Lemma getenv_dset_eq e k v : getenv (dset e k v) k = v.
Proof. unfold getenv. rewrite dget_dset_eq. auto. Qed.
Lemma getenv_dset_neq e k k' v : k' <> k -> getenv (dset e k v) k' = getenv e k'.
Proof. intros H. unfold getenv. rewrite dget_dset_neq by auto. auto. Qed.

Lemma dispatcher_ok : forall mounts default environ fuel,
  (length (getenv environ (lit "PATH_INFO")) < fuel)%nat ->
  exists chosen environ' prefix,
    dispatcher fuel mounts default environ = Some (chosen, environ') /\
    getenv environ' (lit "SCRIPT_NAME") = getenv environ (lit "SCRIPT_NAME") ++ prefix /\
    boundary_prefix (getenv environ (lit "PATH_INFO")) prefix (getenv environ' (lit "PATH_INFO")) /\
    (forall k, k <> lit "SCRIPT_NAME" -> k <> lit "PATH_INFO" -> dget environ' k = dget environ k) /\
    (dget mounts prefix = Some chosen \/
     chosen = default /\ forall m rest, boundary_prefix (getenv environ (lit "PATH_INFO")) m rest ->
       dget mounts m = None) /\
    (forall m rest, boundary_prefix (getenv environ (lit "PATH_INFO")) m rest -> (length prefix < length m)%nat ->
       dget mounts m = None).
Proof.
  intros mounts default environ fuel Hf. unfold dispatcher.
  destruct (dispatch_loop fuel mounts default (getenv environ (lit "PATH_INFO")) []) as [[[chosen s] p]|] eqn:E;
    [|destruct (dispatch_loop_ends _ _ _ _ _ Hf E)].
  apply dispatch_loop_spec in E; [|auto]. rewrite app_nil_r in E. destruct E as (B & _ & D & L).
  assert (L' : forall m rest, boundary_prefix (getenv environ (lit "PATH_INFO")) m rest -> (length s < length m)%nat ->
       dget mounts m = None).
  { intros m rest Hb Hl. apply (L m rest Hb). split; auto. destruct Hb as [-> _]. rewrite app_length. lia. }
  eexists chosen, _, s. split; [reflexivity|]. split; [|split; [|split; [|split]]].
  - rewrite getenv_dset_neq by discriminate. rewrite getenv_dset_eq. auto.
  - rewrite getenv_dset_eq. auto.
  - intros k H1 H2. rewrite !dget_dset_neq; auto.
  - destruct (dget mounts s) as [a|] eqn:Es; [left; congruence|]. right. destruct D as [-> D]. split; auto.
    intros m rest Hb. destruct (le_lt_dec (length m) (length s)) as [Hle|Hgt]; [|eapply L'; eauto].
    enough (m = s) by congruence. destruct B as [B1 B2]. destruct Hb as [Hb1 Hb2].
    rewrite B1 in Hb1. symmetry in Hb1. apply app_eq_app in Hb1.
    destruct Hb1 as [l [[-> Hb]|[-> Hb]]]; rewrite app_length in Hle.
    + destruct l; [apply app_nil_r|cbn in Hle; lia].
    + destruct l as [|x l]; [rewrite app_nil_r; auto|]. exfalso. destruct Hb2 as [->|[r ->]]; [discriminate|].
      injection Hb as <- _. apply D. apply in_app_iff. right. left. auto.
  - exact L'.
Qed.

(** ** SharedDataMiddleware *)
Lemma split_on_nosep c s x : In x (split_on c s) -> ~ In c x.
Proof.
  revert x. induction s as [|y s IH]; intros x; cbn [split_on].
  - intros [<-|[]] [].
  - destruct (N.eqb_spec y c) as [->|Hy].
    + intros [<-|H]; [intros []|auto].
    + pose proof (split_on_nonnil c s). destruct (split_on c s) as [|h t]; [easy|].
      intros [<-|H1].
      * intros [->|Hc]; [easy|]. apply (IH h); [left; auto|auto].
      * apply IH. right. auto.
Qed.

Lemma clean_comps p : exists comps, clean_path p = 47 :: join [47] comps /\
  Forall (fun c => c <> [] /\ c <> lit ".." /\ ~ In 47 c) comps.
Proof.
  eexists. split; [reflexivity|]. apply Forall_forall. intros x Hx. apply filter_In in Hx.
  destruct Hx as [Hx1 Hx2]. apply andb_true_iff in Hx2. rewrite !negb_true_iff in Hx2. destruct Hx2 as [A B].
  split; [intros ->; discriminate|]. split; [intros ->; discriminate|].
  eapply split_on_nosep; eauto.
Qed.

Lemma split_on_mid c a s : split_on c (a ++ c :: s) = split_on c a ++ split_on c s.
Proof.
  induction a as [|x a IH]; cbn [app split_on].
  - rewrite N.eqb_refl. auto.
  - rewrite IH. destruct (N.eqb_spec x c); [auto|].
    pose proof (split_on_nonnil c a). destruct (split_on c a); [easy|auto].
Qed.

Lemma split_on_join_free c comps : comps <> [] -> Forall (fun x => ~ In c x) comps ->
  split_on c (join [c] comps) = comps.
Proof.
  induction comps as [|x comps IH]; [easy|]. intros _ H. inversion H as [|? ? H1 H2]; subst.
  destruct comps as [|y comps].
  - cbn [join]. apply split_on_none. auto.
  - change (join [c] (x :: y :: comps)) with (x ++ [c] ++ join [c] (y :: comps)). cbn [app].
    rewrite split_on_app by auto. rewrite IH by (auto; discriminate). auto.
Qed.

Lemma rel_safe comps sp rel : Forall (fun c => c <> [] /\ c <> lit ".." /\ ~ In 47 c) comps ->
  47 :: join [47] comps = (sp ++ [47]) ++ rel -> safe_rel rel.
Proof.
  intros H E. destruct comps as [|c comps].
  - cbn in E. destruct sp as [|x sp]; cbn in E.
    + injection E as <-. exists []. auto.
    + injection E as <- E. destruct sp; discriminate.
  - set (cs := c :: comps) in *.
    assert (split_on 47 (47 :: join [47] cs) = [] :: cs) as S1.
    { cbn [split_on]. rewrite N.eqb_refl. f_equal. apply split_on_join_free; [discriminate|].
      eapply Forall_impl; [|exact H]. intros x (_ & _ & Hx). exact Hx. }
    rewrite E, <- app_assoc in S1. cbn [app] in S1. rewrite split_on_mid in S1.
    exists (split_on 47 rel). split; [symmetry; apply join_split|].
    apply Forall_forall. intros x Hx.
    destruct (split_on 47 sp) as [|y l] eqn:Es; [destruct (split_on_nonnil 47 sp Es)|].
    injection S1 as _ S1. rewrite Forall_forall in H. apply H. rewrite <- S1. apply in_app_iff. auto.
Qed.

Lemma safe_rel_relative rel : safe_rel rel -> starts [47] rel = false.
Proof.
  intros (comps & -> & H). destruct comps as [|c comps]; [auto|]. inversion H as [|? ? (A & B & C) _]; subst.
  destruct c as [|x c]; [easy|].
  assert (x <> 47) by (intros ->; apply C; left; auto).
  replace (join [47] ((x :: c) :: comps)) with (x :: c ++ match comps with [] => [] | _ => 47 :: join [47] comps end)
    by (destruct comps; [cbn; rewrite app_nil_r|]; auto).
  cbn [starts]. destruct (N.eqb_spec 47 x); [congruence|auto].
Qed.

Lemma join_inside d rel : safe_rel rel -> inside d rel (path_join d rel).
Proof.
  intros H. unfold path_join. rewrite (safe_rel_relative _ H).
  destruct d as [|x d]; [left; auto|]. destruct (ends [47] (x :: d)) eqn:E.
  - left. split; auto. right. apply ends_spec in E. exact E.
  - right. auto.
Qed.

Lemma load_none_exported ex e asked r n : load ex e None = (asked, r) ->
  In n asked \/ (exists b, r = Some (b, n)) -> exported e n.
Proof.
  destruct e as [f|d|d]; cbn; intros [= <- <-].
  - intros [[]|[b [= _ <-]]]. auto.
  - intros [[<-|[]]|[b Hb]]; [auto|]. destruct (ex d); [|discriminate]. injection Hb as _ <-. auto.
  - intros [[]|[b Hb]]. discriminate.
Qed.
Lemma load_some_exported ex e rel asked r n : safe_rel rel -> load ex e (Some rel) = (asked, r) ->
  In n asked \/ (exists b, r = Some (b, n)) -> exported e n.
Proof.
  intros Hr. destruct e as [f|d|d]; cbn; intros [= <- <-].
  - intros [[]|[b [= _ <-]]]. auto.
  - assert (exported (EDir d) (path_join d rel)) as K by (right; exists rel; split; [auto|apply join_inside; auto]).
    intros [[<-|[]]|[b Hb]]; [auto|]. destruct (ex (path_join d rel)); [|discriminate]. injection Hb as _ <-. auto.
  - assert (exported (EPackage d) (path_join d rel)) as K by (exists rel; split; [auto|apply join_inside; auto]).
    intros [[<-|[]]|[b Hb]]; [auto|]. destruct (ex (path_join d rel)); [|discriminate]. injection Hb as _ <-. auto.
Qed.

Lemma find_file_exported ex exports path comps : path = 47 :: join [47] comps ->
  Forall (fun c => c <> [] /\ c <> lit ".." /\ ~ In 47 c) comps ->
  forall asked r n, find_file ex exports path = (asked, r) -> In n asked \/ (exists b, r = Some (b, n)) ->
  exists k e, In (k, e) exports /\ exported e n.
Proof.
  intros Hp Hc. induction exports as [|[k e] rest IH]; intros asked r n; cbn [find_file].
  - intros [= <- <-]. intros [[]|[b Hb]]. discriminate.
  - destruct (if eqs k path then load ex e None else ([], None)) as [a1 r1] eqn:E1.
    assert (K1 : In n a1 \/ (exists b, r1 = Some (b, n)) -> exported e n).
    { destruct (eqs k path); [eapply load_none_exported; eauto|]. injection E1 as <- <-. intros [[]|[b Hb]]; discriminate. }
    destruct r1 as [q|].
    { intros [= <- <-] H. exists k, e. split; [left; auto|auto]. }
    set (sp := if ends [47] k then k else k ++ [47]).
    destruct (if starts sp path then _ else _) as [a2 r2] eqn:E2.
    assert (K2 : In n a2 \/ (exists b, r2 = Some (b, n)) -> exported e n).
    { destruct (starts sp path) eqn:Es; [|injection E2 as <- <-; intros [[]|[b Hb]]; discriminate].
      apply starts_spec in Es. destruct Es as [rel Er]. rewrite Er in E2.
      rewrite skipn_app, skipn_all, Nat.sub_diag in E2. cbn [app skipn] in E2.
      eapply load_some_exported; [|exact E2].
      assert (exists q, sp = q ++ [47]) as [q Hq].
      { unfold sp. destruct (ends [47] k) eqn:Ee; [apply ends_spec in Ee; auto|eauto]. }
      rewrite Hq in Er. apply (rel_safe comps q rel Hc). rewrite <- Hp. auto. }
    destruct r2 as [q|].
    { intros [= <- <-] H. exists k, e. split; [left; auto|]. rewrite in_app_iff in H. tauto. }
    destruct (find_file ex rest path) as [a3 r3] eqn:E3. intros [= <- <-] H. rewrite !in_app_iff in H.
    destruct H as [[H|[H|H]]|H].
    + exists k, e. split; [left; auto|auto].
    + exists k, e. split; [left; auto|auto].
    + destruct (IH _ _ n eq_refl (or_introl H)) as (k' & e' & A & B). exists k', e'. split; [right; auto|auto].
    + destruct (IH _ _ n eq_refl (or_intror H)) as (k' & e' & A & B). exists k', e'. split; [right; auto|auto].
Qed.

Lemma shared_exported : forall exists_ allowed exports path_info asked r n,
  shared_data exists_ allowed exports path_info = (asked, r) -> In n asked \/ r = Some n ->
  exists k e, In (k, e) exports /\ exported e n.
Proof.
  intros ex allowed exports path_info asked r n. unfold shared_data.
  destruct (find_file ex exports (clean_path path_info)) as [a q] eqn:E. intros [= <- <-] H.
  destruct (clean_comps path_info) as (comps & Hp & Hc).
  eapply find_file_exported; eauto. destruct H as [H|H]; [auto|]. right.
  destruct q as [[b f]|]; [|discriminate]. destruct (allowed b); [|discriminate]. injection H as ->. eauto.
Qed.

(** ** host_is_trusted *)
Lemma host_port_norm idna h name : host_port h name -> ascii_text name -> normalize_host idna h = Ok name.
Proof.
  intros [Hn Hh] Ha. unfold normalize_host.
  assert (match rsplit1 58 h with Some (a, _) => a | None => h end = name) as ->.
  { destruct Hh as [->|(port & -> & Hp)].
    - destruct (rsplit1 58 name) as [[a b]|] eqn:E; auto. apply rsplit1_some in E. destruct E as [-> _].
      exfalso. apply Hn. apply in_app_iff. right. left. auto.
    - assert (rsplit1 58 (name ++ 58 :: port) = Some (name, port)) as -> by (apply rsplit1_some; auto). auto. }
  unfold encode_idna. assert (is_ascii name = true) as ->; auto.
  unfold is_ascii. apply forallb_forall. intros c Hc. specialize (Ha c Hc). lia.
Qed.

Lemma host_port_fun h n1 n2 : host_port h n1 -> host_port h n2 -> n1 = n2.
Proof.
  intros [A1 B1] [A2 B2].
  assert (forall n, ~ In 58 n -> (h = n \/ exists port, h = n ++ 58 :: port /\ ~ In 58 port) ->
    n = match rsplit1 58 h with Some (a, _) => a | None => h end) as K.
  { intros n Hn [->|(port & -> & Hp)].
    - destruct (rsplit1 58 n) as [[a b]|] eqn:E; auto. apply rsplit1_some in E. destruct E as [-> _].
      exfalso. apply Hn. apply in_app_iff. right. left. auto.
    - assert (rsplit1 58 (n ++ 58 :: port) = Some (n, port)) as -> by (apply rsplit1_some; auto). auto. }
  rewrite (K n1), (K n2); auto.
Qed.

Lemma trusted_loop_sound idna h : forall trusted,
  (forall ref, In ref trusted -> exists name, entry_name ref name /\ ascii_text name) ->
  trusted_loop idna h trusted = Ok true -> exists ref, In ref trusted /\ entry_name ref h.
Proof.
  induction trusted as [|ref rest IH]; intros Hr; cbn [trusted_loop]; [discriminate|].
  destruct (Hr ref (or_introl eq_refl)) as (name & He & Ha).
  assert (exists r b, match ref with c :: r => if c =? 46 then (r, true) else (ref, false) | [] => (ref, false) end = (r, b)
    /\ host_port r name) as (r & b & E & Hp).
  { destruct He as [[He1 He2]|(r & -> & He)].
    - destruct ref as [|c r]; [eauto|]. destruct (N.eqb_spec c 46) as [->|]; [destruct (He2 r eq_refl)|eauto].
    - rewrite N.eqb_refl. eauto. }
  rewrite E. rewrite (host_port_norm idna r name Hp Ha). cbn [bind].
  destruct (eqs name h) eqn:Eq.
  - apply eqs_eq in Eq. subst. intros _. exists ref. split; [left; auto|auto].
  - destruct b; [discriminate|]. intros H. destruct IH as (ref' & A & B); auto.
    { intros ref' Hin. apply Hr. right. auto. }
    exists ref'. split; [right; auto|auto].
Qed.

Lemma trusted_sound : forall idna host name trusted,
  host_port host name -> ascii_text name ->
  (forall ref, In ref trusted -> exists n, entry_name ref n /\ ascii_text n) ->
  host_is_trusted idna host trusted = Ok true ->
  host <> [] /\ exists ref, In ref trusted /\ entry_name ref name.
Proof.
  intros idna host name trusted Hh Ha Hr. unfold host_is_trusted.
  destruct host as [|c host]; [discriminate|]. rewrite (host_port_norm idna _ _ Hh Ha). cbn [bind].
  intros H. split; [discriminate|]. eapply trusted_loop_sound; eauto.
Qed.

Lemma trusted_complete : forall idna host name trusted ref,
  host_port host name -> ascii_text name -> host <> [] ->
  (forall ref, In ref trusted -> exists n, host_port ref n /\ ascii_text n /\ forall r, ref <> 46 :: r) ->
  In ref trusted -> host_port ref name ->
  host_is_trusted idna host trusted = Ok true.
Proof.
  intros idna host name trusted ref Hh Ha Hne Hr Hin Hp. unfold host_is_trusted.
  destruct host as [|c host]; [easy|]. rewrite (host_port_norm idna _ _ Hh Ha). cbn [bind].
  clear Hh Hne. induction trusted as [|x rest IH]; [destruct Hin|]. cbn [trusted_loop].
  destruct (Hr x (or_introl eq_refl)) as (n & Hx & Hax & Hdot).
  assert (match x with c0 :: r => if c0 =? 46 then (r, true) else (x, false) | [] => (x, false) end = (x, false)) as ->.
  { destruct x as [|d x]; auto. destruct (N.eqb_spec d 46) as [->|]; [destruct (Hdot x eq_refl)|auto]. }
  rewrite (host_port_norm idna _ _ Hx Hax). cbn [bind].
  destruct Hin as [->|Hin].
  - rewrite (host_port_fun ref n name); auto. rewrite eqs_refl. auto.
  - destruct (eqs n name); auto. apply IH; auto. intros y Hy. apply Hr. right. auto.
Qed.

Lemma trusted_never : forall idna host name trusted,
  host_port host name -> ascii_text name ->
  (forall ref, In ref trusted -> exists n, host_port ref n /\ ascii_text n /\ n <> name /\ forall r, ref <> 46 :: r) ->
  host_is_trusted idna host trusted = Ok false.
Proof.
  intros idna host name trusted Hh Ha Hr. unfold host_is_trusted.
  destruct host as [|c host]; [auto|]. rewrite (host_port_norm idna _ _ Hh Ha). cbn [bind].
  clear Hh. induction trusted as [|x rest IH]; [auto|]. cbn [trusted_loop].
  destruct (Hr x (or_introl eq_refl)) as (n & Hx & Hax & Hne & Hdot).
  assert (match x with c0 :: r => if c0 =? 46 then (r, true) else (x, false) | [] => (x, false) end = (x, false)) as ->.
  { destruct x as [|d x]; auto. destruct (N.eqb_spec d 46) as [->|]; [destruct (Hdot x eq_refl)|auto]. }
  rewrite (host_port_norm idna _ _ Hx Hax). cbn [bind].
  destruct (eqs n name) eqn:E; [apply eqs_eq in E; congruence|]. apply IH. intros y Hy. apply Hr. right. auto.
Qed.

Lemma get_host_trusted : forall idna environ trusted h,
  get_host idna environ (Some trusted) = Ok h -> host_is_trusted idna h trusted = Ok true.
Proof.
  intros idna environ trusted h. unfold get_host.
  set (x := match dget environ (lit "HTTP_X_FORWARDED_HOST") with Some _ => _ | None => _ end).
  destruct x as [rv|e]; cbn [bind]; [|discriminate].
  destruct (host_is_trusted idna rv trusted) as [[]|] eqn:E; cbn; try discriminate. intros [= <-]. auto.
Qed.

(** ** EnvironHeaders *)
Lemma upper_same s t : same_letters s t -> upper s = upper t.
Proof.
  intros H. unfold upper. induction H as [|c d s t H _ IH]; auto. cbn. rewrite IH. f_equal.
  unfold upper_c, is_ascii_lower, between. destruct H as [->|[[H ->]|[H ->]]]; auto.
  - replace (97 <=? c) with false by lia. replace (97 <=? c + 32) with true by lia.
    replace (c + 32 <=? 122) with true by lia. cbn. lia.
  - replace (97 <=? d + 32) with true by lia. replace (d + 32 <=? 122) with true by lia.
    replace (97 <=? d) with false by lia. cbn. lia.
Qed.
Lemma upper_title s : forall b, upper (title b s) = upper s.
Proof.
  induction s as [|c s IH]; intros b; auto. cbn [title]. unfold upper in *. cbn [map]. rewrite IH. f_equal.
  unfold upper_c, is_ascii_upper, is_ascii_lower, between.
  destruct (N.leb_spec 65 c), (N.leb_spec c 90), (N.leb_spec 97 c), (N.leb_spec c 122); cbn; destruct b; cbn;
    repeat match goal with |- context [?a <=? ?b] => destruct (N.leb_spec a b) end; cbn; lia.
Qed.
Lemma cgi_back k : cgi_name k -> swap_c 45 95 (upper (swap_c 95 45 k)) = k.
Proof.
  intros H. unfold swap_c, upper. rewrite !map_map. rewrite <- map_id. apply map_ext_in.
  intros c Hc. specialize (H c Hc). unfold upper_c, is_ascii_lower, between.
  destruct (N.eqb_spec c 95) as [->|]; [reflexivity|].
  destruct (N.leb_spec 97 c); cbn; [lia|]. destruct (N.eqb_spec c 45); [lia|auto].
Qed.

Lemma env_iter_in environ n v : In (n, v) (env_iter environ) ->
  exists k, In (k, v) environ /\ env_header k = Some n.
Proof.
  induction environ as [|[k w] rest IH]; cbn [env_iter]; [intros []|].
  destruct (env_header k) as [m|] eqn:E.
  - intros [[= <- <-]|H]; [exists k; split; [left|]; auto|]. destruct (IH H) as (k' & A & B). exists k'. split; [right|]; auto.
  - intros H. destruct (IH H) as (k' & A & B). exists k'. split; [right|]; auto.
Qed.

Lemma dget_in {V} (d : dict V) k v : NoDup (map fst d) -> In (k, v) d -> dget d k = Some v.
Proof.
  induction d as [|[k' v'] d IH]; [intros _ []|]. cbn. intros N H. inversion N as [|? ? N1 N2]; subst.
  destruct H as [[= -> ->]|H].
  - rewrite eqs_refl. auto.
  - destruct (eqs k k') eqn:E; [|auto]. apply eqs_eq in E. subst. exfalso. apply N1.
    apply in_map_iff. exists (k', v). auto.
Qed.

Lemma is_content_spec k : is_content_key k = true <-> k = lit "CONTENT_TYPE" \/ k = lit "CONTENT_LENGTH".
Proof.
  unfold is_content_key, content_keys. cbn [existsb]. rewrite !orb_true_iff, !eqs_eq. intuition discriminate.
Qed.

Lemma env_lookup : forall environ n v n',
  NoDup (map fst environ) -> (forall k, In k (map fst environ) -> starts (lit "HTTP_") k = true -> cgi_name k) ->
  In (n, v) (env_iter environ) -> same_letters n' n ->
  env_getitem environ n' = Ok v.
Proof.
  intros environ n v n' Hd Hc H Hs. destruct (env_iter_in _ _ _ H) as (k & Hk & Eh).
  unfold env_getitem. cbv zeta. rewrite (upper_same _ _ Hs).
  unfold env_header in Eh. destruct (starts (lit "HTTP_") k && _) eqn:E.
  - apply andb_true_iff in E. destruct E as [E1 E2].
    assert (n = title false (swap_c 95 45 (skipn 5 k))) as -> by congruence. clear Eh Hs H.
    assert (cgi_name k) as Ck by (apply Hc; auto; apply in_map_iff; exists (k, v); auto).
    apply starts_spec in E1. destruct E1 as [r ->].
    assert (skipn 5 (lit "HTTP_" ++ r) = r) as -> by reflexivity. rewrite upper_title.
    rewrite cgi_back by (intros c Hr; apply Ck; apply in_app_iff; auto).
    assert (is_content_key r = false) as ->.
    { destruct (is_content_key r) eqn:Er; auto. apply is_content_spec in Er.
      destruct Er as [-> | ->]; discriminate E2. }
    rewrite (dget_in _ _ v); auto.
  - destruct (is_content_key k) eqn:Ek; [|discriminate].
    assert (n = title false (swap_c 95 45 k)) as -> by congruence. rewrite upper_title.
    rewrite cgi_back.
    + rewrite Ek. rewrite (dget_in _ _ v); auto.
    + apply is_content_spec in Ek. intros c Hin.
      destruct Ek as [-> | ->]; cbn in Hin; repeat (destruct Hin as [<-|Hin]; [lia|]); destruct Hin.
Qed.
Lemma header_var_spec k : header_var k <-> exists n, env_header k = Some n.
Proof.
  unfold header_var, env_header. split.
  - intros [(r & -> & A & B)|Hk].
    + replace (starts (lit "HTTP_") (lit "HTTP_" ++ r)) with true by (symmetry; apply starts_spec; eauto).
      replace (existsb _ _) with false; [cbn; eauto|]. symmetry.
      destruct (existsb _ _) eqn:E; auto. exfalso. cbn [existsb] in E.
      rewrite !orb_true_iff, !eqs_eq in E. destruct E as [E|[E|E]]; [apply A|apply B|discriminate].
      * change (lit "HTTP_CONTENT_TYPE") with (lit "HTTP_" ++ lit "CONTENT_TYPE") in E. apply app_inv_head in E. auto.
      * change (lit "HTTP_CONTENT_LENGTH") with (lit "HTTP_" ++ lit "CONTENT_LENGTH") in E. apply app_inv_head in E. auto.
    + destruct Hk as [-> | ->]; eexists; reflexivity.
  - intros [n H]. destruct (starts (lit "HTTP_") k && _) eqn:E.
    + left. apply andb_true_iff in E. destruct E as [E1 E2]. apply starts_spec in E1. destruct E1 as [r ->].
      exists r. split; auto. split; intros ->; discriminate E2.
    + right. destruct (is_content_key k) eqn:Ek; [|discriminate]. apply is_content_spec; auto.
Qed.

Lemma env_complete : forall environ k v, In (k, v) environ -> header_var k ->
  exists n, In (n, v) (env_iter environ).
Proof.
  intros environ k v H Hk. apply header_var_spec in Hk. destruct Hk as [n Hn].
  exists n. induction environ as [|[k' w] rest IH]; [destruct H|]. cbn [env_iter].
  destruct H as [[= -> ->]|H].
  - rewrite Hn. left. auto.
  - destruct (env_header k'); [right|]; auto.
Qed.

Lemma env_len_counts : forall environ (hdrs : list (str * str)),
  NoDup (map fst environ) -> NoDup hdrs ->
  (forall k v, In (k, v) hdrs <-> In (k, v) environ /\ header_var k) ->
  env_len environ = length hdrs.
Proof.
  intros environ hdrs Hd Hn Hh.
  set (f := fun kv : str * str => match env_header (fst kv) with Some _ => true | None => false end).
  assert (env_len environ = length (filter f environ)) as ->.
  { unfold env_len. clear. induction environ as [|[k v] rest IH]; auto. cbn [env_iter filter].
    unfold f at 1. cbn [fst]. destruct (env_header k); cbn; auto. }
  assert (NoDup environ) as Hd' by (eapply NoDup_map_inv; eauto).
  apply Nat.le_antisymm; apply NoDup_incl_length.
  - apply NoDup_filter; auto.
  - intros [k v] H. apply filter_In in H. destruct H as [A B]. apply Hh. split; auto. apply header_var_spec.
    unfold f in B. cbn in B. destruct (env_header k); [eauto|discriminate].
  - auto.
  - intros [k v] H. apply Hh in H. destruct H as [A B]. apply filter_In. split; auto. apply header_var_spec in B.
    destruct B as [n B]. unfold f. cbn. rewrite B. auto.
Qed.

(** ** secure_filename *)
Lemma name_char_spec c : name_char c = true <-> filename_char c.
Proof.
  unfold name_char, filename_char, is_ascii_alnum, is_ascii_alpha, is_ascii_upper, is_ascii_lower, is_ascii_digit, between. lia.
Qed.

Definition dot_us (c : N) : bool := (c =? 46) || (c =? 95).
Lemma lstrip_sub f s c : In c (lstrip_by f s) -> In c s.
Proof. induction s as [|x s IH]; cbn; auto. destruct (f x); auto. Qed.
Lemma strip_sub f s c : In c (strip_by f s) -> In c s.
Proof. unfold strip_by, rstrip_by. rewrite <- in_rev. intros H. apply lstrip_sub in H. rewrite <- in_rev in H. eapply lstrip_sub; eauto. Qed.
Lemma lstrip_head f s c r : lstrip_by f s = c :: r -> f c = false.
Proof. induction s as [|x s IH]; cbn; [discriminate|]. destruct (f x) eqn:E; auto. intros [= <- <-]. auto. Qed.
Lemma lstrip_suffix f s : exists p, s = p ++ lstrip_by f s.
Proof. induction s as [|x s [p IH]]; cbn; [exists []; auto|]. destruct (f x); [exists (x :: p); cbn; congruence|exists []; auto]. Qed.
Lemma strip_head f s c r : strip_by f s = c :: r -> f c = false.
Proof.
  unfold strip_by, rstrip_by. intros H.
  destruct (lstrip_suffix f (rev (lstrip_by f s))) as [p Hp].
  apply (f_equal (@rev N)) in Hp. rewrite rev_involutive, rev_app_distr, H in Hp.
  eapply lstrip_head. rewrite Hp. reflexivity.
Qed.
Lemma strip_last f s r c : strip_by f s = r ++ [c] -> f c = false.
Proof.
  unfold strip_by, rstrip_by. intros H. apply (f_equal (@rev N)) in H.
  rewrite rev_involutive, rev_app_distr in H. eapply lstrip_head. exact H.
Qed.
Lemma strip_fix f s : (forall c r, s = c :: r -> f c = false) -> (forall r c, s = r ++ [c] -> f c = false) ->
  strip_by f s = s.
Proof.
  intros A B. unfold strip_by, rstrip_by.
  assert (forall t, (forall c r, t = c :: r -> f c = false) -> lstrip_by f t = t) as K.
  { intros t Ht. destruct t as [|x t]; auto. cbn. rewrite (Ht x t eq_refl). auto. }
  rewrite (K s) by auto. rewrite K; [apply rev_involutive|].
  intros c r E. apply (B (rev r) c). apply (f_equal (@rev N)) in E. rewrite rev_involutive in E. rewrite E. cbn. auto.
Qed.

Lemma filter_id {A} (f : A -> bool) l : (forall x, In x l -> f x = true) -> filter f l = l.
Proof. induction l as [|x l IH]; auto. intros H. cbn. rewrite (H x) by (left; auto). rewrite IH; auto. intros; apply H; right; auto. Qed.
Lemma swap_id a b s : ~ In a s -> swap_c a b s = s.
Proof.
  intros H. unfold swap_c. rewrite <- map_id. apply map_ext_in. intros c Hc.
  destruct (N.eqb_spec c a) as [->|]; [easy|auto].
Qed.
Lemma split_ws_one s : s <> [] -> (forall c, In c s -> is_space c = false) -> split_ws s = [s].
Proof.
  intros Hn H. unfold split_ws.
  assert (forall t cur, (forall c, In c t -> is_space c = false) -> split_ws_aux cur t = match rev cur ++ t with [] => [] | x => [x] end) as K.
  { induction t as [|c t IH]; intros cur Ht; cbn [split_ws_aux].
    - rewrite app_nil_r. destruct cur as [|x cur]; auto. destruct (rev (x :: cur)) eqn:E; auto.
      apply (f_equal (@rev N)) in E. rewrite rev_involutive in E. discriminate.
    - rewrite (Ht c) by (left; auto). rewrite IH by (intros; apply Ht; right; auto).
      cbn [rev]. rewrite <- app_assoc. auto. }
  rewrite K by auto. cbn. destruct s; [easy|auto].
Qed.

(** the name before the check for device files *)
Definition core (nfkd : str -> str) (nt : bool) (filename : str) : str :=
  strip_by dot_us (filter name_char (join [95] (split_ws
    (swap_c 47 32 (let f := filter (fun c => c <? 128) (nfkd filename) in if nt then swap_c 92 32 f else f))))).
Definition is_device (f : str) : bool := negb (eqs f []) && existsb (eqs (upper (hd [] (split_on 46 f)))) device_files.
Lemma secure_core nfkd nt f : secure_filename nfkd nt f =
  if nt && is_device (core nfkd nt f) then 95 :: core nfkd nt f else core nfkd nt f.
Proof. unfold secure_filename, core, is_device, dot_us. rewrite andb_assoc. reflexivity. Qed.

Lemma core_chars nfkd nt f c : In c (core nfkd nt f) -> filename_char c.
Proof. unfold core. intros H. apply strip_sub in H. apply filter_In in H. apply name_char_spec. tauto. Qed.
Lemma core_head nfkd nt f c r : core nfkd nt f = c :: r -> c <> 46 /\ c <> 95.
Proof. intros H. apply strip_head in H. unfold dot_us in H. lia. Qed.
Lemma core_last nfkd nt f r c : core nfkd nt f = r ++ [c] -> c <> 46 /\ c <> 95.
Proof. intros H. apply strip_last in H. unfold dot_us in H. lia. Qed.

Lemma core_fix nfkd nt s : (forall t, ascii_text t -> nfkd t = t) ->
  (forall c, In c s -> filename_char c) ->
  core nfkd nt s = strip_by dot_us s.
Proof.
  intros Hk Hc. unfold core.
  assert (ascii_text s) as Ha by (intros c H; specialize (Hc c H); unfold filename_char in Hc; lia).
  rewrite (Hk s Ha). rewrite (filter_id _ s) by (intros c H; specialize (Ha c H); lia).
  assert ((if nt then swap_c 92 32 s else s) = s) as ->.
  { destruct nt; auto. apply swap_id. intros H. specialize (Hc _ H). unfold filename_char in Hc. lia. }
  rewrite swap_id by (intros H; specialize (Hc _ H); unfold filename_char in Hc; lia).
  f_equal. destruct s as [|x s].
  - reflexivity.
  - rewrite split_ws_one; [|discriminate|].
    + cbn [join]. apply filter_id. intros c H. apply name_char_spec. auto.
    + intros c H. specialize (Hc c H). unfold filename_char in Hc. unfold is_space, between. lia.
Qed.

Lemma secure_chars : forall nfkd nt f c, In c (secure_filename nfkd nt f) -> filename_char c.
Proof.
  intros nfkd nt f c. rewrite secure_core. destruct (nt && _).
  - intros [<-|H]; [unfold filename_char; lia|]. eapply core_chars; eauto.
  - apply core_chars.
Qed.
Lemma secure_ends : forall nfkd f,
  (forall c r, secure_filename nfkd false f = c :: r -> c <> 46 /\ c <> 95) /\
  (forall r c, secure_filename nfkd false f = r ++ [c] -> c <> 46 /\ c <> 95).
Proof.
  intros nfkd f. rewrite secure_core. cbn [andb]. split; intros.
  - eapply core_head; eauto.
  - eapply core_last; eauto.
Qed.
Lemma upper_dot s : In 46 (upper s) <-> In 46 s.
Proof.
  unfold upper. rewrite in_map_iff. split.
  - intros (c & E & H). unfold upper_c, is_ascii_lower, between in E. destruct (_ && _) eqn:K; [lia|]. subst. auto.
  - intros H. exists 46. split; auto.
Qed.
Lemma first_part t : exists name rest, t = name ++ rest /\ (rest = [] \/ exists ext, rest = 46 :: ext) /\ ~ In 46 name /\ hd [] (split_on 46 t) = name.
Proof.
  destruct (in_dec N.eq_dec 46 t) as [H|H].
  - assert (X : exists a b, t = a ++ 46 :: b /\ ~ In 46 a).
    { induction t as [|c t IH]; [destruct H|]. destruct (N.eq_dec c 46) as [->|N]; [exists [], t; auto|].
      destruct IH as (a & b & -> & Ha); [destruct H; [congruence|auto]|]. exists (c :: a), b. split; auto. intros [K|K]; auto. }
    destruct X as (a & b & -> & Ha). exists a, (46 :: b). rewrite split_on_app by auto. cbn [hd]. repeat split; eauto.
  - exists t, []. rewrite app_nil_r, split_on_none by auto. auto.
Qed.
Lemma device_spec t : is_device t = true <-> names_device t.
Proof.
  unfold is_device, names_device. destruct (first_part t) as (name & rest & Et & Hr & Hn & Eh). rewrite Eh.
  rewrite andb_true_iff, negb_true_iff, existsb_exists. split.
  - intros (_ & dev & Hd & E). apply eqs_eq in E. subst dev. exists name, rest. auto.
  - intros (n2 & r2 & E2 & Hr2 & I).
    assert (N2 : ~ In 46 n2).
    { rewrite <- upper_dot. intros K. repeat (destruct I as [I|I]; [rewrite <- I in K; vm_compute in K; repeat (destruct K as [K|K]; [discriminate|]); exact K|]). exact I. }
    assert (E : n2 = name).
    { rewrite <- Eh, E2. destruct Hr2 as [->|[ext ->]]; [rewrite app_nil_r, split_on_none; auto|rewrite split_on_app; auto]. }
    subst n2. split.
    + apply eqs_neq. intros ->. destruct name; [|discriminate]. cbn in I. repeat (destruct I as [I|I]; [discriminate|]). exact I.
    + exists (upper name). split; [exact I|apply eqs_refl].
Qed.
Lemma secure_no_device : forall nfkd f, ~ names_device (secure_filename nfkd true f).
Proof.
  intros nfkd f. rewrite <- device_spec, secure_core. cbn [andb]. destruct (is_device (core nfkd true f)) eqn:E; [|congruence].
  intros H. apply device_spec in H as (name & rest & E1 & [->|[ext ->]] & I); (destruct name as [|c name]; cbn [app] in E1;
    [try discriminate|injection E1 as <- E2]; cbn in I; repeat (destruct I as [I|I]; [discriminate|]); exact I).
Qed.
Lemma secure_ends_nt : forall nfkd f,
  (forall c r, secure_filename nfkd true f = c :: r -> c <> 46 /\
     (c = 95 -> names_device r)) /\
  (forall r c, secure_filename nfkd true f = r ++ [c] -> c <> 46 /\ c <> 95).
Proof.
  intros nfkd f. rewrite secure_core. cbn [andb].
  pose proof (core_head nfkd true f) as CH. pose proof (core_last nfkd true f) as CL.
  destruct (core nfkd true f) as [|x0 x] eqn:Ex; [split; intros; [discriminate|destruct r; discriminate]|].
  destruct (is_device (x0 :: x)) eqn:E.
  - apply device_spec in E. split.
    + intros c r [= <- <-]. split; [lia|]. intros _. exact E.
    + intros r c H. destruct r as [|y r]; [discriminate|]. cbn in H. injection H as _ H. eapply CL; eauto.
  - split; intros.
    + pose proof (CH _ _ H). split; [tauto|]. intros ->. tauto.
    + eapply CL; eauto.
Qed.
Lemma secure_idempotent : forall nfkd nt f, (forall t, ascii_text t -> nfkd t = t) ->
  secure_filename nfkd nt (secure_filename nfkd nt f) = secure_filename nfkd nt f.
Proof.
  intros nfkd nt f Hk. set (x := secure_filename nfkd nt f).
  assert (core nfkd nt x = core nfkd nt f) as Hc.
  { rewrite core_fix; [|exact Hk|intros c H; eapply secure_chars; exact H].
    unfold x. rewrite secure_core. 
    assert (strip_by dot_us (core nfkd nt f) = core nfkd nt f) as Hs.
    { apply strip_fix; intros.
      - pose proof (core_head _ _ _ _ _ H). unfold dot_us. lia.
      - pose proof (core_last _ _ _ _ _ H). unfold dot_us. lia. }
    destruct (nt && _); exact Hs. }
  rewrite secure_core, Hc. unfold x. rewrite secure_core. auto.
Qed.
Lemma secure_keeps : forall nfkd f, (forall t, ascii_text t -> nfkd t = t) ->
  (forall c, In c f -> filename_char c) ->
  (forall c r, f = c :: r -> c <> 46 /\ c <> 95) -> (forall r c, f = r ++ [c] -> c <> 46 /\ c <> 95) ->
  secure_filename nfkd false f = f.
Proof.
  intros nfkd f Hk Hc A B. rewrite secure_core. cbn [andb]. rewrite core_fix by auto. apply strip_fix.
  - intros c r E. specialize (A c r E). unfold dot_us. lia.
  - intros r c E. specialize (B r c E). unfold dot_us. lia.
Qed.

Lemma dispatcher_preserves : forall mounts default environ fuel chosen environ',
  dispatcher fuel mounts default environ = Some (chosen, environ') ->
  getenv environ' (lit "SCRIPT_NAME") ++ getenv environ' (lit "PATH_INFO") =
  getenv environ (lit "SCRIPT_NAME") ++ getenv environ (lit "PATH_INFO").
Proof.
  intros mounts default environ fuel chosen environ'. unfold dispatcher.
  destruct (dispatch_loop _ _ _ _ _) as [[[c s] p]|] eqn:E; [|discriminate]. intros [= <- <-].
  apply dispatch_loop_spec in E; [|auto]. rewrite app_nil_r in E. destruct E as ([E _] & _).
  rewrite getenv_dset_eq. rewrite getenv_dset_neq by discriminate. rewrite getenv_dset_eq, <- app_assoc, E. auto.
Qed.

Lemma load_base ex e path asked b n : load ex e path = (asked, Some (b, n)) ->
  b = basename n /\ (ex n = true \/ e = EFile n).
Proof.
  destruct e as [f|d|d]; cbn.
  - intros [= <- <- <-]. auto.
  - destruct path as [r|].
    + destruct (ex (path_join d r)) eqn:E; [|discriminate]. intros [= <- <- <-]. auto.
    + destruct (ex d) eqn:E; [|discriminate]. intros [= <- <- <-]. auto.
  - destruct path as [r|]; [|discriminate].
    destruct (ex (path_join d r)) eqn:E; [|discriminate]. intros [= <- <- <-]. auto.
Qed.
Lemma find_base ex exports path : forall asked b n, find_file ex exports path = (asked, Some (b, n)) ->
  b = basename n /\ (ex n = true \/ exists k, In (k, EFile n) exports).
Proof.
  induction exports as [|[k e] rest IH]; intros asked b n; cbn [find_file]; [discriminate|].
  assert (K : forall p a, load ex e p = (a, Some (b, n)) -> b = basename n /\ (ex n = true \/ exists k0, In (k0, EFile n) ((k, e) :: rest))).
  { intros p a H. apply load_base in H. destruct H as [A [B|B]]; [auto|]. split; auto. right. exists k. left. congruence. }
  destruct (if eqs k path then load ex e None else ([], None)) as [a1 r1] eqn:E1.
  destruct r1 as [q|].
  { intros [= <- ->]. destruct (eqs k path); [eapply K; eauto|discriminate]. }
  set (sp := if ends [47] k then k else k ++ [47]).
  destruct (if starts sp path then _ else _) as [a2 r2] eqn:E2. destruct r2 as [q|].
  { intros [= <- ->]. destruct (starts sp path); [eapply K; eauto|discriminate]. }
  destruct (find_file ex rest path) as [a3 r3] eqn:E3. intros [= <- ->].
  destruct (IH _ _ _ eq_refl) as [A [B|[k' B]]]; split; auto. right. exists k'. right. auto.
Qed.
Lemma shared_allowed : forall exists_ allowed exports path_info asked n,
  shared_data exists_ allowed exports path_info = (asked, Some n) ->
  allowed (basename n) = true /\
  (exists_ n = true \/ exists k, In (k, EFile n) exports).
Proof.
  intros ex allowed exports path_info asked n. unfold shared_data.
  destruct (find_file ex exports (clean_path path_info)) as [a [[b f]|]] eqn:E; [|discriminate].
  destruct (allowed b) eqn:Ea; [|discriminate]. intros [= <- <-]. apply find_base in E.
  destruct E as [-> E]. auto.
Qed.

(** ** host_is_trusted, exactly, for ASCII names *)
Lemma cut_port_norm h n : cut_port h n <-> match rsplit1 58 h with Some (a, _) => a | None => h end = n.
Proof.
  split.
  - intros [[A ->]|(port & -> & A)].
    + apply rsplit1_none in A. rewrite A. reflexivity.
    + replace (rsplit1 58 (n ++ 58 :: port)) with (Some (n, port)); [reflexivity|]. symmetry. apply rsplit1_some. auto.
  - destruct (rsplit1 58 h) as [[a b]|] eqn:E; intros <-.
    + apply rsplit1_some in E. right. exists b. exact E.
    + apply rsplit1_none in E. left. auto.
Qed.
Lemma cut_norm idna h n : cut_port h n -> ascii_text h -> normalize_host idna h = Ok n.
Proof.
  intros C A. assert (An : ascii_text n).
  { destruct C as [[_ ->]|(p & -> & _)]; [exact A|]. intros c Hc. apply A. apply in_or_app. left. exact Hc. }
  apply cut_port_norm in C. unfold normalize_host. rewrite C. unfold encode_idna.
  assert (is_ascii n = true) as ->; [|reflexivity]. unfold is_ascii. apply forallb_forall. intros c Hc. specialize (An c Hc). lia.
Qed.
Lemma cut_exists h : exists n, cut_port h n.
Proof. eexists. apply cut_port_norm. reflexivity. Qed.
Lemma cut_fun h n n' : cut_port h n -> cut_port h n' -> n = n'.
Proof. intros A B. apply cut_port_norm in A. apply cut_port_norm in B. congruence. Qed.

Lemma loop_step idna h ref rest : ascii_text ref ->
  (entry_cut ref h /\ trusted_loop idna h (ref :: rest) = Ok true) \/
  (~ entry_cut ref h /\ dotted ref /\ trusted_loop idna h (ref :: rest) = Raise TypeError) \/
  (~ entry_cut ref h /\ ~ dotted ref /\ trusted_loop idna h (ref :: rest) = trusted_loop idna h rest).
Proof.
  intros A. cbn [trusted_loop].
  assert (X : (exists r, ref = 46 :: r /\ match ref with c :: r => if c =? 46 then (r, true) else (ref, false) | [] => (ref, false) end = (r, true)) \/
              (~ dotted ref /\ match ref with c :: r => if c =? 46 then (r, true) else (ref, false) | [] => (ref, false) end = (ref, false))).
  { destruct ref as [|c r]; [right; split; [intros (? & ?); discriminate|reflexivity]|].
    destruct (N.eqb_spec c 46) as [->|N]; [left; exists r; auto|].
    right. split; [intros (? & E); congruence|reflexivity]. }
  destruct X as [(r & -> & ->)|[Nd ->]].
  - destruct (cut_exists r) as (n & C). rewrite (cut_norm idna r n C) by (intros c Hc; apply A; right; exact Hc). cbn [bind].
    destruct (eqs n h) eqn:E.
    + apply eqs_eq in E. subst. left. split; [right; exists r; auto|reflexivity].
    + apply eqs_neq in E. right. left. split; [|split; [exists r; reflexivity|reflexivity]].
      intros [[N _]|(r' & R & C')]; [apply N; exists r; reflexivity|]. inv R. apply E. eapply cut_fun; eauto.
  - destruct (cut_exists ref) as (n & C). rewrite (cut_norm idna ref n C A). cbn [bind].
    destruct (eqs n h) eqn:E.
    + apply eqs_eq in E. subst. left. split; [left; auto|reflexivity].
    + apply eqs_neq in E. right. right. split; [|auto].
      intros [[_ C']|(r' & R & _)]; [apply E; eapply cut_fun; eauto|]. apply Nd. exists r'. exact R.
Qed.
Lemma trusted_exact : forall idna host name trusted, host <> [] -> cut_port host name -> ascii_text host -> Forall ascii_text trusted ->
  (host_is_trusted idna host trusted = Ok true <->
     exists pre ref post, trusted = pre ++ ref :: post /\ entry_cut ref name /\ Forall (fun r => ~ entry_cut r name /\ ~ dotted r) pre) /\
  (forall e, host_is_trusted idna host trusted = Raise e <-> e = TypeError /\
     exists pre ref post, trusted = pre ++ ref :: post /\ dotted ref /\ ~ entry_cut ref name /\ Forall (fun r => ~ entry_cut r name) pre).
Proof.
  intros idna host name trusted Hn C A F.
  assert (E : host_is_trusted idna host trusted = trusted_loop idna name trusted).
  { unfold host_is_trusted. destruct host as [|c0 host]; [contradiction|]. rewrite (cut_norm idna _ _ C A). reflexivity. }
  rewrite E. clear E C A Hn host. induction F as [|ref rest Ha F IH].
  - split.
    + split; [discriminate|]. intros ([|? ?] & ? & ? & X & _); discriminate.
    + intros e. split; [discriminate|]. intros (_ & [|? ?] & ? & ? & X & _); discriminate.
  - destruct IH as [I1 I2]. destruct (loop_step idna name ref rest Ha) as [[Y ->]|[(Y & D & ->)|(Y & D & ->)]]; split.
    + split; [|reflexivity]. intros _. exists [], ref, rest. auto.
    + intros e. split; [discriminate|]. intros (_ & [|p pre] & r & post & X & _ & N & P); inv X; [contradiction|]. inv P. contradiction.
    + split; [discriminate|]. intros ([|p pre] & r & post & X & N & P); inv X; [contradiction|]. inv P. tauto.
    + intros e. split.
      * intros X. inv X. split; [reflexivity|]. exists [], ref, rest. auto.
      * intros [-> _]. reflexivity.
    + rewrite I1. split.
      * intros (pre & r & post & -> & N & P). exists (ref :: pre), r, post. split; [reflexivity|]. split; [exact N|]. constructor; auto.
      * intros ([|p pre] & r & post & X & N & P); inv X; [contradiction|]. inv P. exists pre, r, post. auto.
    + intros e. rewrite I2. split.
      * intros (-> & pre & r & post & -> & N & M & P). split; [reflexivity|]. exists (ref :: pre), r, post. auto.
      * intros (-> & [|p pre] & r & post & X & N & M & P); inv X; [contradiction|]. inv P. split; [reflexivity|]. exists pre, r, post. auto.
Qed.
