(** Lemmas about sets of entity tags. *)
From Coq Require Import Arith List NArith ZArith Bool Lia.
From Verif Require Import PyStr PyStrFacts ModelHeaders ModelEtag SpecEtag ProofEtag ModelEtagSet SpecEtagSet.
Import ListNotations.
Open Scope N_scope.

Lemma has_tag_In x l : has_tag x l = true <-> In x l.
Proof.
  unfold has_tag. rewrite existsb_exists. split.
  - intros (y & Hy & E). destruct x, y; try discriminate; [apply eqs_eq in E; subst|]; assumption.
  - intros H. exists x. split; [exact H|]. destruct x; [apply eqs_eq|]; reflexivity.
Qed.
Definition listed (x : option (list str)) : list str := match x with Some l => l | None => [] end.
Lemma given_listed x t : given x t <-> In t (listed x).
Proof. destruct x; reflexivity. Qed.
Lemma es_new_eq s w star : es_new s w star = ET (if star then [] else map Some (listed s)) (map Some (listed w)) star.
Proof. destruct s, w, star; reflexivity. Qed.
Lemma In_some t (l : list str) : In (Some t) (map Some l) <-> In t l.
Proof. rewrite in_map_iff. split; [intros (x & E & H); inversion E; subst; exact H|intros H; exists t; auto]. Qed.
Lemma has_listed t x : has_tag (Some t) (map Some (listed x)) = true <-> given x t.
Proof. rewrite has_tag_In, In_some, given_listed. reflexivity. Qed.

Lemma strong_members s w t :
  let e := es_new s w false in
  (es_in e (Some t) = true <-> given s t) /\ (In (Some t) (es_iter e) <-> given s t) /\
  (In (Some t) (es_as_set e false) <-> given s t) /\ (et_is_weak e (Some t) = true <-> given w t) /\
  (et_contains_weak e (Some t) = true <-> given s t \/ given w t) /\
  (In (Some t) (es_as_set e true) <-> given s t \/ given w t).
Proof.
  cbv zeta. rewrite es_new_eq. unfold es_in, es_iter, es_as_set, et_contains_weak, et_is_weak, et_contains. cbn [e_strong e_weak e_star].
  refine (conj _ (conj _ (conj _ (conj _ (conj _ _))))); cbn [orb];
    rewrite ?orb_true_iff, ?in_app_iff, ?has_listed, ?In_some, <- ?given_listed; tauto.
Qed.
Lemma no_none s w star b : ~ In None (es_as_set (es_new s w star) b).
Proof.
  rewrite es_new_eq. unfold es_as_set. cbn [e_strong e_weak].
  assert (forall l : list str, ~ In None (map Some l)) as N by (intros l H; apply in_map_iff in H; destruct H as (x & E & _); discriminate).
  destruct star, b; rewrite ?in_app_iff; intros H; try (destruct H as [H|H]); try contradiction; eapply N; exact H.
Qed.
Lemma call_members g s w t b : es_call g (es_new s w false) (Some t) None b = Ok true <-> given s t \/ (b = true /\ given w t).
Proof.
  rewrite es_new_eq. unfold es_call. cbn [e_strong e_weak].
  destruct b; cbn [andb].
  - destruct (has_tag (Some t) (map Some (listed w))) eqn:W.
    + apply has_listed in W. split; auto.
    + split.
      * intros H. inversion H as [H']. rewrite H'. apply has_listed in H'. auto.
      * intros [H|[_ H]]; [apply has_listed in H; rewrite H; reflexivity|apply has_listed in H; congruence].
  - split.
    + intros H. inversion H as [H']. apply has_listed in H'. auto.
    + intros [H|[H _]]; [apply has_listed in H; rewrite H; reflexivity|discriminate].
Qed.
Lemma call_data g e d b : es_call g e None (Some d) b = es_call g e (Some (g d)) None b.
Proof. reflexivity. Qed.
Lemma call_args g e etag data b : es_call g e etag data b = Raise TypeError <-> (etag = None <-> data = None).
Proof.
  destruct etag, data; cbn; split; intros H; try reflexivity; try discriminate; try (split; intros; congruence).
  - destruct (b && _); discriminate.
  - destruct H as [_ H]. discriminate (H eq_refl).
  - destruct (b && _); discriminate.
  - destruct H as [H _]. discriminate (H eq_refl).
Qed.
Lemma star_members s w t : let e := es_new s w true in es_in e (Some t) = true /\ et_contains_weak e (Some t) = true /\
  (forall raw, et_contains_raw e raw = true) /\ es_str e = [42].
Proof.
  cbv zeta. rewrite es_new_eq. unfold es_in, et_contains_weak, et_contains, et_contains_raw. cbn [e_star orb].
  repeat split; rewrite ?orb_true_r; auto. intros raw. destruct (unquote_etag raw) as [[u []]|]; cbn; unfold et_contains_weak, et_contains; cbn; rewrite ?orb_true_r; reflexivity.
Qed.
Lemma raw_member s w star t m :
  (et_contains_raw (es_new s w star) (write_tag (m, t)) = true <->
   star = true \/ given s t \/ (weak_mark m = true /\ given w t)).
Proof.
  unfold et_contains_raw. rewrite unquote_quoted, es_new_eq.
  unfold et_contains_weak, et_is_weak, et_contains. cbn [e_star e_strong e_weak].
  destruct star; cbn [orb]; [destruct (weak_mark m); rewrite ?orb_true_r; tauto|].
  destruct (weak_mark m); rewrite ?orb_true_iff, ?has_listed; intuition congruence.
Qed.
Lemma bool_spec s w star : et_bool (es_new s w star) = true <->
  star = true \/ (exists t, given s t) \/ (exists t, given w t).
Proof.
  rewrite es_new_eq. unfold et_bool. cbn [e_star e_strong e_weak]. destruct star; cbn [orb]; [tauto|].
  split.
  - destruct s as [[|a s]|], w as [[|b w]|]; cbn; try discriminate; intros _; right; try (left; exists a; left; reflexivity); right; exists b; left; reflexivity.
  - destruct s as [[|a s]|], w as [[|b w]|]; cbn; intros [H|[(t & H)|(t & H)]]; try reflexivity; try contradiction; discriminate.
Qed.

(* the header *)
Definition tags_of (s w : list str) : list tag := map (pair Strong) s ++ map (pair Weakw) w.
Lemma header_write s w : et_to_header (ET (map Some s) (map Some w) false) = join [44; 32] (map write_tag (tags_of s w)).
Proof.
  unfold et_to_header, tags_of. cbn [e_star e_strong e_weak]. rewrite !map_map, map_app, !map_map. reflexivity.
Qed.
Lemma join_tag_list l : l <> [] -> tag_list (join [44; 32] (map write_tag l)) l.
Proof.
  induction l as [|t l IH]; [congruence|]. intros _. destruct l as [|u l]; [cbn; constructor|].
  specialize (IH ltac:(discriminate)).
  change (join [44; 32] (map write_tag (t :: u :: l))) with (write_tag t ++ [44; 32] ++ join [44; 32] (map write_tag (u :: l))).
  change ([44; 32] ++ join [44; 32] (map write_tag (u :: l))) with ([] ++ 44 :: [32] ++ join [44; 32] (map write_tag (u :: l))).
  apply tl_cons; [constructor|repeat constructor|exact IH].
Qed.
Lemma texts_tags s w b : texts b (tags_of s w) = map Some (if b then w else s).
Proof.
  unfold texts, tags_of. rewrite filter_app, map_app.
  assert (forall m (l : list str), map (fun t : tag => Some (snd t)) (filter (fun t => Bool.eqb (weak_mark (fst t)) b) (map (pair m) l)) =
    if Bool.eqb (weak_mark m) b then map Some l else []) as H.
  { intros m l. induction l as [|x l IH]; cbn; [destruct (Bool.eqb _ b); reflexivity|].
    destruct (Bool.eqb (weak_mark m) b) eqn:E; cbn; rewrite IH; reflexivity. }
  rewrite !H. destruct b; cbn; rewrite ?app_nil_r; reflexivity.
Qed.
Lemma header_roundtrip s w fuel : Forall writable (listed s) -> Forall writable (listed w) ->
  (length (es_str (es_new s w false)) <= fuel)%nat ->
  parse_etags fuel (es_str (es_new s w false)) = Some (es_new s w false).
Proof.
  intros Hs Hw. unfold es_str. rewrite es_new_eq, header_write. intros F.
  destruct (tags_of (listed s) (listed w)) as [|t l] eqn:E.
  - cbn. unfold tags_of in E. apply app_eq_nil in E. destruct E as [E1 E2]. apply map_eq_nil in E1, E2. rewrite E1, E2.
    destruct fuel; reflexivity.
  - rewrite <- E in *. rewrite (parse_etags_list _ (tags_of (listed s) (listed w))).
    + rewrite !texts_tags. reflexivity.
    + apply join_tag_list. rewrite E. discriminate.
    + unfold tags_of. apply Forall_app. split; apply Forall_map; eapply Forall_impl; try eassumption; intros a H; exact H.
    + exact F.
Qed.
