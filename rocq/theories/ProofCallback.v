From Coq Require Import Arith List NArith ZArith Bool Lia ZifyBool ZifyN ZifyNat.
From Verif Require Import PyStr PyStrFacts ModelQuote ModelHeaders ModelRange ModelCallback SpecQuote SpecHeaders SpecCallback ProofQuote ProofHeaders ProofMultiDict ProofIri ProofAuth ProofResponse.
Import ListNotations.
Open Scope N_scope.

Section CB.
  Context {V X : Type} (on_update : X -> dict V -> X * option exn).
  Lemma plain_raise (d : dict V) o e : covered o -> snd (plain d o) = Raise e -> fst (plain d o) = d.
  Proof.
    destruct o as [k v|k| | |l [e'|]|k v|k x|l]; cbn [covered plain]; intros H; try contradiction; cbn [fst snd]; try discriminate.
    - destruct (dhas d k); [discriminate|]. auto.
    - destruct (rev d) as [|[k v] r]; [auto|discriminate].
    - destruct (dget d k); discriminate.
    - destruct (dget d k), x; try discriminate; auto.
  Qed.
  Lemma step_cb d x o : covered o ->
    let '(d', x', r) := cb_step on_update d x o in
    d' = fst (plain d o) /\
    ((d' = d /\ x' = x /\ r = snd (plain d o)) \/
     (exists y, snd (plain d o) = Ok y /\ x' = fst (on_update x d') /\
        r = match snd (on_update x d') with None => Ok y | Some e => Raise e end)).
  Proof.
    intros Hc.
    assert (HU : let '(d', x', r) := calls_update on_update d x o in
      d' = fst (plain d o) /\ ((d' = d /\ x' = x /\ r = snd (plain d o)) \/
      (exists y, snd (plain d o) = Ok y /\ x' = fst (on_update x d') /\ r = match snd (on_update x d') with None => Ok y | Some e => Raise e end))).
    { unfold calls_update. pose proof (plain_raise d o) as Hr. destruct (plain d o) as [d' [y|e]]; cbn [fst snd] in *.
      - destruct (on_update x d') as [x' e] eqn:E. split; auto. right. exists y. rewrite E. auto.
      - specialize (Hr e Hc eq_refl). auto. }
    assert (HN : fst (plain d o) = d -> let '(d', x', r) := no_call d x o in
      d' = fst (plain d o) /\ ((d' = d /\ x' = x /\ r = snd (plain d o)) \/
      (exists y, snd (plain d o) = Ok y /\ x' = fst (on_update x d') /\ r = match snd (on_update x d') with None => Ok y | Some e => Raise e end))).
    { intros E. unfold no_call. destruct (plain d o) as [d' r]. cbn [fst snd] in *. auto. }
    destruct o as [k v|k| | |l e|k v|k x0|l]; cbn [cb_step covered] in *; try exact HU; try contradiction.
    - destruct (dhas d k) eqn:E; cbn [negb]; [|exact HU]. apply HN. cbn [plain]. unfold dhas in E. destruct (dget d k); [auto|discriminate].
    - destruct (dhas d k) eqn:E; [exact HU|]. apply HN. cbn [plain]. unfold dhas in E. destruct (dget d k); [discriminate|]. destruct x0; auto.
  Qed.
  Lemma run_cb (f : dict V -> X) : (forall x d, on_update x d = (f d, None)) -> forall ops d x, Forall covered ops ->
    let (d', x') := cb_run on_update d x ops in (d' = d /\ x' = x) \/ x' = f d'.
  Proof.
    intros Hf. induction ops as [|o ops IH]; intros d x Ho; cbn [cb_run]; auto. inversion Ho; subst.
    pose proof (step_cb d x o H1) as S. destruct (cb_step on_update d x o) as [[d1 x1] r]. destruct S as [_ S]. specialize (IH d1 x1 H2).
    destruct (cb_run on_update d1 x1 ops) as [d2 x2]. destruct IH as [[-> ->]|IH]; auto.
    destruct S as [(-> & -> & _)|(y & _ & E & _)]; auto. rewrite Hf in E. auto.
  Qed.
End CB.

(** ** The mirrored header *)
Lemma dump_one_line d : Forall (fun kv => one_line (fst kv) /\ (forall v, snd kv = Some v -> one_line v)) d -> one_line (dump_header_dict true d).
Proof.
  intros H. enough (G : forall c, In c (dump_header_dict true d) -> c <> 10 /\ c <> 13) by (split; intros X; apply G in X; tauto).
  intros c Hc. unfold dump_header_dict in Hc. apply in_join in Hc as [Hc|(x & Hx & Hc)].
  - destruct Hc as [<-|[<-|[]]]; lia.
  - apply in_map_iff in Hx as ([k v] & <- & Hin). rewrite Forall_forall in H. destruct (H _ Hin) as [Hk Hv]. cbn [fst snd] in *.
    unfold dump_item in Hc. cbn [fst snd] in Hc.
    assert (OL : forall s, one_line s -> In c s -> c <> 10 /\ c <> 13) by (intros s [A B] I; split; intros ->; auto).
    destruct v as [v|]; [|apply (OL k); auto]. specialize (Hv v eq_refl).
    apply in_app_iff in Hc as [Hc|[<-|Hc]]; [apply (OL k); auto|lia|].
    destruct (quote_seen_cases true v) as [(E & _)|(E & _)]; rewrite E in Hc; [apply (OL v); auto|].
    destruct Hc as [<-|Hc]; [lia|]. apply in_app_iff in Hc as [Hc|[<-|[]]]; [|lia].
    unfold ProofQuote.esc in Hc. apply in_flat_map in Hc as (y & Hy & Hc). assert (Hvv := Hv). destruct Hvv as [A B].
    unfold ProofQuote.esc_c in Hc. destruct (y =? 92) eqn:E1, (y =? 34) eqn:E2; cbn [In] in Hc; try lia.
    destruct Hc as [<-|[]]. apply (OL v); auto.
Qed.
Lemma cc_one_line d : Forall tidy_pair d -> one_line (cc_to_header d).
Proof.
  intros H. apply dump_one_line. rewrite Forall_map. eapply Forall_impl; [|exact H]. intros [k v] [Hk Hv]. cbn [fst snd] in *. split; auto.
  intros s E. destruct v; cbn in E; inversion E; subst; auto.
  - split; cbn; intros X; repeat (destruct X as [X|X]; [discriminate|]); exact X.
  - split; cbn; intros X; repeat (destruct X as [X|X]; [discriminate|]); exact X.
  - apply zdec_one_line.
Qed.
Lemma getlist_remove h k k' : h_getlist (h_remove h k) k' = if same k k' then [] else h_getlist h k'.
Proof.
  destruct (same k k') eqn:E.
  - apply same_spec in E. apply (getlist_absent k); auto. apply (without_absent k h). apply without_filter.
  - apply same_false in E. apply (without_other k k' h); auto. apply without_filter.
Qed.
Lemma update_mirrors h d : Forall tidy_pair d -> exists h', cc_on_update h d = (h', None) /\ mirrors h' d /\
  forall k, ~ same_name k (lit "cache-control") -> h_getlist h' k = h_getlist h k.
Proof.
  intros H. unfold cc_on_update, mirrors. destruct d as [|kv d].
  - destruct (h_contains h (lit "cache-control")) eqn:E.
    + eexists. split; [reflexivity|]. split; [rewrite getlist_remove; reflexivity|]. intros k Hk. rewrite getlist_remove.
      destruct (same (lit "cache-control") k) eqn:F; auto. apply same_spec in F. destruct Hk. unfold same_name in *. congruence.
    + eexists. split; [reflexivity|]. split; auto. apply (getlist_absent (lit "cache-control")); [|reflexivity].
      destruct (h_contains h (lit "cache-control")) eqn:F; [discriminate|].
      assert (G := contains_spec h (lit "cache-control")). rewrite F in G.
      destruct (getitem_cases h (lit "cache-control")) as [(v & Ev)|Ev]; [|apply getitem_missing; auto].
      unfold h_contains in F. rewrite Ev in F. discriminate.
  - unfold h_set. rewrite stored_nil. cbn [text]. rewrite (proj2 (validate_spec _) (cc_one_line _ H)).
    pose proof (set_effect_model h (lit "Cache-Control") (cc_to_header (kv :: d))) as S.
    set (h' := match set_loop h (lit "Cache-Control") (cc_to_header (kv :: d)) with Some l' => l' | None => h ++ [(lit "Cache-Control", cc_to_header (kv :: d))] end) in *.
    exists h'. split; [unfold h'; destruct (set_loop h (lit "Cache-Control") (cc_to_header (kv :: d))); reflexivity|].
    destruct (set_get _ _ _ _ S) as [G1 G2]. split; [apply G1; reflexivity|]. intros k Hk. apply G2.
    intros E. apply Hk. unfold same_name in *. rewrite <- E. reflexivity.
Qed.
Lemma tidy_dset (d : ccdict) k v : Forall tidy_pair d -> tidy_pair (k, v) -> Forall tidy_pair (dset d k v).
Proof.
  intros H Hv. induction H as [|[k0 v0] d H0 H IH]; cbn [dset]; [constructor; auto|]. destruct (eqs k k0); constructor; auto.
  destruct H0 as [A _], Hv as [_ B]. split; auto.
Qed.
Lemma tidy_ddel (d : ccdict) k : Forall tidy_pair d -> Forall tidy_pair (ddel d k).
Proof. intros H. unfold ddel. rewrite Forall_forall in *. intros x Hx. apply filter_In in Hx. apply H. tauto. Qed.
Lemma tidy_plain d o : Forall tidy_pair d -> tidy_dict_call o -> Forall tidy_pair (fst (plain d o)).
Proof.
  intros H Ho. destruct o as [k v|k| | |l [e|]|k v|k x|l]; cbn [plain tidy_dict_call] in *; try contradiction; cbn [fst].
  - apply tidy_dset; auto.
  - destruct (dhas d k); auto. apply tidy_ddel; auto.
  - constructor.
  - destruct (rev d) as [|[k v] r] eqn:E; auto. cbn [fst]. assert (Hr : Forall tidy_pair (rev d)) by (apply Forall_rev; auto).
    rewrite E in Hr. inversion Hr; subst. apply Forall_rev. auto.
  - revert d H. unfold dupdate. induction Ho as [|[k v] l Hk Hl IH]; intros d H; auto. cbn [fold_left fst snd]. apply IH, tidy_dset; auto.
  - destruct (dget d k); auto. apply tidy_dset; auto.
  - destruct (dget d k); [apply tidy_ddel; auto|]. destruct x; auto.
Qed.
Definition other_lines (h h' : headers) : Prop := forall k, ~ same_name k (lit "cache-control") -> h_getlist h' k = h_getlist h k.
Lemma dict_call_mirrors d h o : Forall tidy_pair d -> tidy_dict_call o ->
  let s := fst (cb_step cc_on_update d h o) in
  Forall tidy_pair (fst s) /\ other_lines h (snd s) /\ ((fst s = d /\ snd s = h) \/ mirrors (snd s) (fst s)).
Proof.
  cbv zeta. intros H Ho. assert (Hc : covered o) by (destruct o as [k v|k| | |l [e|]|k v|k x|l]; cbn in *; auto).
  pose proof (step_cb cc_on_update d h o Hc) as S. pose proof (tidy_plain d o H Ho) as T.
  destruct (cb_step cc_on_update d h o) as [[d' h'] r]. destruct S as [E S]. cbn [fst snd]. rewrite <- E in T. split; auto.
  destruct S as [(-> & -> & _)|(y & _ & Eh & _)]; [split; [intros k _; auto|auto]|].
  destruct (update_mirrors h d' T) as (h2 & E2 & M & O). rewrite E2 in Eh. cbn in Eh. subst h'. split; [exact O|]. right. exact M.
Qed.
Lemma attr_tidy d o o' : tidy_call (CAttr o) -> attr_call d o = Some o' -> tidy_dict_call o'.
Proof.
  intros H. destruct o as [p v|p]; cbn in *.
  - assert (N : tidy_pair (cp_key p, PNone)) by (destruct H; split; cbn; auto).
    destruct (cp_type p); [destruct (truthy v); intros E; inversion E; subst; cbn; auto| |]; destruct v; intros E; inversion E; subst; cbn; auto.
  - destruct (dhas d (cp_key p)); [|discriminate]. intros E; inversion E; subst. cbn. auto.
Qed.
Lemma cc_calls_mirror : forall l d h, Forall tidy_pair d -> Forall tidy_call l ->
  let (d', h') := cc_calls d h l in
  other_lines h h' /\ ((d' = d /\ h' = h) \/ mirrors h' d').
Proof.
  unfold cc_calls. induction l as [|c l IH]; intros d h Hd Hl; cbn [fold_left fst snd]; [split; auto; intros k _; auto|].
  inversion Hl; subst.
  assert (S : let s := cc_call d h c in Forall tidy_pair (fst s) /\ other_lines h (snd s) /\ ((fst s = d /\ snd s = h) \/ mirrors (snd s) (fst s))).
  { cbv zeta. destruct c as [o|o]; cbn [cc_call].
    - destruct (attr_call d o) as [o'|] eqn:E; [|cbn; split; auto; split; [intros k _; auto|auto]].
      apply dict_call_mirrors; auto. eapply attr_tidy; eauto.
    - apply dict_call_mirrors; auto. }
  cbv zeta in S. destruct (cc_call d h c) as [d1 h1]. cbn [fst snd] in *. destruct S as (T & O & M).
  specialize (IH d1 h1 T H2). destruct (fold_left _ l (d1, h1)) as [d2 h2]. destruct IH as [O2 M2]. split.
  - intros k Hk. rewrite (O2 k Hk). apply O; auto.
  - destruct M2 as [[-> ->]|M2]; auto.
Qed.
Lemma ddel_missing {V} (d : dict V) k : dget d k = None -> ddel d k = d.
Proof.
  unfold ddel. induction d as [|[k0 v0] d IH]; cbn; auto. destruct (eqs k k0); [discriminate|]. cbn. intros H. rewrite IH; auto.
Qed.
Lemma attr_same d h p v : (forall d', cc_set p v d = Ok d' -> fst (cc_call d h (CAttr (CCSet p v))) = d') /\
  fst (cc_call d h (CAttr (CCDel p))) = cc_del p d.
Proof.
  split.
  - intros d' E. unfold cc_call, cc_set, attr_call in *.
    assert (F : forall o, fst (fst (cb_step cc_on_update d h o)) = fst (plain d o)).
    { intros o. destruct o; cbn [cb_step]; unfold calls_update, no_call;
        repeat match goal with |- context [if ?b then _ else _] => destruct b end;
        destruct (plain d _) as [dd [y|e]]; auto; destruct (cc_on_update h dd); auto. }
    assert (DP : forall x, fst (plain d (DPop (cp_key p) (Some x))) = ddel d (cp_key p)).
    { intros x. cbn [plain]. destruct (dget d (cp_key p)) eqn:G; auto. cbn. symmetry. apply ddel_missing. auto. }
    destruct (cp_type p); [destruct (truthy v)| |]; [| |destruct v..]; rewrite F; inversion E; subst; cbn [plain fst]; auto.
    + apply DP.
    + unfold dhas in *. destruct (dget d (cp_key p)); inversion E; auto.
    + unfold dhas in *. destruct (dget d (cp_key p)); inversion E; auto.
  - unfold cc_call, attr_call, cc_del. destruct (dhas d (cp_key p)) eqn:E.
    + cbn [cb_step]. unfold calls_update. cbn [plain]. rewrite E. destruct (cc_on_update h (ddel d (cp_key p))); auto.
    + cbn. symmetry. apply ddel_missing. unfold dhas in E. destruct (dget d (cp_key p)); [discriminate|auto].
Qed.

(** ** Immutable containers *)
Lemma imm_covers c name : In name (mutators c) -> name = open_mutator c \/ existsb (eqs name) (overridden c) = true.
Proof.
  assert (H : forallb (fun n => eqs n (open_mutator c) || existsb (eqs n) (overridden c)) (mutators c) = true) by (destruct c; vm_compute; reflexivity).
  intros Hi. rewrite forallb_forall in H. specialize (H _ Hi). apply orb_prop in H as [H|H]; auto. apply eqs_eq in H. auto.
Qed.
Lemma imm_unchanged {S A R} (base : str -> A -> S -> S * res R) c s calls :
  Forall (fun call => In (fst call) (mutators c) /\ fst call <> open_mutator c) calls ->
  imm_run base c s calls = (s, map (fun _ => Raise TypeError) calls).
Proof.
  induction 1 as [|call calls [H1 H2] H IH]; auto. cbn [imm_run map]. unfold imm_call. destruct (imm_covers c (fst call) H1) as [E|E]; [congruence|].
  rewrite E, IH. auto.
Qed.
Lemma imm_open {S A R} (base : str -> A -> S -> S * res R) c s (a : A) :
  In (open_mutator c) (mutators c) /\ imm_call base c s (open_mutator c, a) = base (open_mutator c) a s.
Proof. destruct c; (split; [cbn; tauto|reflexivity]). Qed.
