(** * Content negotiation: proofs *)
From Coq Require Import Arith List NArith ZArith QArith Bool Lia ZifyBool ZifyN ZifyNat Lqa Permutation.
From Verif Require Import PyStr PyStrFacts Regex RegexFacts ModelAccept SpecRange SpecAccept.
From Verif Require ProofRange.
Import ListNotations.
Open Scope N_scope.
Ltac inv H := inversion H; subst; clear H.

(** ** Splitting at the slash *)
Lemma split_on_none c s : ~ In c s -> split_on c s = [s].
Proof.
  induction s as [|x s IH]; intros H; cbn [split_on]; [reflexivity|].
  rewrite IH by (intros F; apply H; right; exact F).
  assert (x <> c) by (intros ->; apply H; left; reflexivity).
  destruct (x =? c) eqn:E; [lia | reflexivity].
Qed.
Lemma split_on_app c a b : ~ In c a ->
  split_on c (a ++ c :: b) = a :: split_on c b.
Proof.
  induction a as [|x a IH]; intros H; cbn [split_on app].
  - rewrite N.eqb_refl. reflexivity.
  - rewrite IH by (intros F; apply H; right; exact F).
    assert (x <> c) by (intros ->; apply H; left; reflexivity).
    destruct (x =? c) eqn:E; [lia | reflexivity].
Qed.
Lemma split_on_ne c s : split_on c s <> [].
Proof.
  destruct s; cbn; [discriminate|]. destruct (_ =? _); [discriminate|].
  destruct (split_on c s); discriminate.
Qed.
Lemma split_on_one c s x : split_on c s = [x] -> s = x /\ ~ In c s.
Proof.
  revert x. induction s as [|y s IH]; intros x; cbn.
  - intros [= <-]. split; [reflexivity | tauto].
  - destruct (y =? c) eqn:E.
    + intros [= <- F]. destruct (split_on_ne c s F).
    + destruct (split_on c s) as [|z l] eqn:F; [destruct (split_on_ne c s F)|].
      intros [= <- ->]. destruct (IH z eq_refl) as [-> H].
      split; [reflexivity|]. intros [->|G]; [lia | contradiction].
Qed.
Lemma split_on_cons c s x y l : split_on c s = x :: y :: l ->
  exists s', s = x ++ c :: s' /\ ~ In c x /\ split_on c s' = y :: l.
Proof.
  revert x y l. induction s as [|z s IH]; intros x y l; cbn; [discriminate|].
  destruct (z =? c) eqn:E.
  - intros [= <- F]. exists s. apply N.eqb_eq in E. subst. repeat split; [tauto | exact F].
  - destruct (split_on c s) as [|w m] eqn:F; [discriminate|].
    intros [= <- ->]. destruct (IH w y l eq_refl) as (s' & -> & H & G).
    exists s'. repeat split; [|exact G]. intros [->|K]; [lia | contradiction].
Qed.

Lemma two_parts_ok v t s : two_parts v = Ok (t, s) <-> media_text v t s.
Proof.
  unfold two_parts, media_text, slashed. split.
  - destruct (split_on 47 v) as [|x [|y [|z l]]] eqn:E; try discriminate.
    intros [= -> ->]. destruct (split_on_cons _ _ _ _ _ E) as (s' & -> & H & G).
    destruct (split_on_one _ _ _ G) as [-> K]. auto.
  - intros (-> & H & K). cbn. rewrite split_on_app by exact H.
    rewrite split_on_none by exact K. reflexivity.
Qed.
Lemma two_parts_cases v :
  (exists t s, two_parts v = Ok (t, s) /\ media_text v t s) \/
  (two_parts v = Raise ValueError /\ ~ well_formed v).
Proof.
  destruct (two_parts v) as [[t s]|e] eqn:E.
  - left. exists t, s. split; [reflexivity | apply two_parts_ok; exact E].
  - right. split.
    + unfold two_parts in E. destruct (split_on 47 v) as [|? [|? [|? ?]]]; congruence.
    + intros (t & s & H). apply two_parts_ok in H. congruence.
Qed.
Lemma media_text_fun v t s t' s' : media_text v t s -> media_text v t' s' -> t = t' /\ s = s'.
Proof.
  intros H H'. apply two_parts_ok in H. apply two_parts_ok in H'. rewrite H in H'.
  inv H'. auto.
Qed.
Lemma star_no_slash : ~ In 47 star.
Proof. cbn. intros [H|[]]; discriminate. Qed.
Lemma slashed_inj t s t' s' : ~ In 47 t -> ~ In 47 s -> ~ In 47 t' -> ~ In 47 s' ->
  slashed t s = slashed t' s' -> t = t' /\ s = s'.
Proof.
  intros A B C D E. apply (media_text_fun (slashed t s)); repeat split; auto.
Qed.

(** ** One option *)
Lemma eqs_refl a : eqs a a = true.
Proof. apply eqs_eq. reflexivity. Qed.
Lemma eqs_false a b : eqs a b = false <-> a <> b.
Proof.
  split; intros H.
  - intros ->. rewrite eqs_refl in H. discriminate.
  - destruct (eqs a b) eqn:E; [|reflexivity]. apply eqs_eq in E. contradiction.
Qed.

Lemma content_type_option_spec v o :
  well_formed (v_text v) -> well_formed (rg_value o) ->
  let m := media_matches (rg_value o) (v_text v) \/ star_subtype (rg_value o) (v_text v) in
  (m /\ exists t s ot os, media_text (v_text v) t s /\ media_text (rg_value o) ot os /\
     content_type_option v o = Ok (mk_acc (b2z (eqs ot t), b2z (eqs os s)) (rg_q o) (v_qs v)))
  \/ (~ m /\ content_type_option v o = Raise NotAcceptable).
Proof.
  intros (t & s & Hv) (ot & os & Ho). cbv zeta.
  unfold content_type_option.
  rewrite (proj2 (two_parts_ok _ _ _) Hv), (proj2 (two_parts_ok _ _ _) Ho). cbn [bind fst snd].
  assert (M : (media_matches (rg_value o) (v_text v) \/ star_subtype (rg_value o) (v_text v))
              <-> (ot = t \/ ot = star) /\ (os = s \/ os = star)).
  { destruct Ho as (Eo & Ho1 & Ho2). rewrite Eo. destruct Hv as (Ev & Hv1 & Hv2). split.
    - intros [(t' & s' & (E & H1 & H2) & H)|(t' & s' & (E & H1 & H2) & H)].
      + assert (t' = t /\ s' = s) as [-> ->]
          by (apply slashed_inj; auto; congruence).
        destruct H as [H|[H|H]];
          apply slashed_inj in H; auto using star_no_slash; tauto.
      + assert (t' = t /\ s' = s) as [-> ->]
          by (apply slashed_inj; auto; congruence).
        apply slashed_inj in H; auto using star_no_slash; tauto.
    - intros [[-> | ->] [-> | ->]].
      + left. exists t, s. unfold media_text. tauto.
      + left. exists t, s. unfold media_text. tauto.
      + right. exists t, s. unfold media_text. tauto.
      + left. exists t, s. unfold media_text. tauto. }
  destruct (eqs ot t) eqn:E1; [apply eqs_eq in E1|apply eqs_false in E1;
    destruct (eqs ot star) eqn:E2; [apply eqs_eq in E2 | apply eqs_false in E2]]; cbn [bind].
  3: right; split; [rewrite M; tauto | reflexivity].
  all: (destruct (eqs os s) eqn:E3; [apply eqs_eq in E3|apply eqs_false in E3;
    destruct (eqs os star) eqn:E4; [apply eqs_eq in E4 | apply eqs_false in E4]]; cbn [bind];
    [ left; split; [tauto|] | left; split; [tauto|]
    | right; split; [rewrite M; tauto | reflexivity]]).
  all: exists t, s, ot, os; repeat split; try apply Hv; try apply Ho; try reflexivity.
  all: try (subst ot; rewrite eqs_refl); try (subst os; rewrite eqs_refl).
  all: repeat match goal with H : ?a <> ?b |- context [eqs ?a ?b] =>
         rewrite (proj2 (eqs_false a b) H) end; reflexivity.
Qed.

Lemma starts_spec p s : starts p s = true <-> exists r, s = p ++ r.
Proof.
  revert s. induction p as [|x p IH]; intros s; cbn.
  - split; [intros _; exists s; reflexivity | reflexivity].
  - destruct s as [|y s]; [split; [discriminate | intros [r F]; discriminate]|].
    rewrite andb_true_iff, N.eqb_eq, IH. split.
    + intros [-> [r ->]]. exists r. reflexivity.
    + intros [r F]. inv F. split; [reflexivity | exists r; reflexivity].
Qed.

Lemma language_option_spec v o :
  (language_matches (rg_value o) (v_text v) /\ exists a, language_option v o = Ok a /\ a_q a = rg_q o)
  \/ (~ language_matches (rg_value o) (v_text v) /\ language_option v o = Raise NotAcceptable).
Proof.
  unfold language_option, language_matches.
  destruct (eqs (v_text v) (rg_value o)) eqn:E1.
  { apply eqs_eq in E1. left. split; [auto | eexists; split; reflexivity]. }
  apply eqs_false in E1.
  destruct (starts (rg_value o ++ [45]) (v_text v)) eqn:E2.
  { apply starts_spec in E2 as [r E2]. left. split.
    - right; right. exists r. rewrite E2, <- app_assoc. reflexivity.
    - eexists; split; reflexivity. }
  destruct (eqs (rg_value o) star) eqn:E3.
  { apply eqs_eq in E3. left. split; [auto | eexists; split; reflexivity]. }
  apply eqs_false in E3. right. split; [|reflexivity].
  intros [H|[H|[r H]]]; try congruence.
  enough (starts (rg_value o ++ [45]) (v_text v) = true) by congruence.
  apply starts_spec. exists r. rewrite H, <- app_assoc. reflexivity.
Qed.

Lemma charset_option_spec v o :
  (charset_matches (rg_value o) (v_text v) /\ exists a, charset_option v o = Ok a /\ a_q a = rg_q o)
  \/ (~ charset_matches (rg_value o) (v_text v) /\ charset_option v o = Raise NotAcceptable).
Proof.
  unfold charset_option, charset_matches.
  destruct (eqs (rg_value o) star) eqn:E1.
  { apply eqs_eq in E1. left. split; [auto | eexists; split; reflexivity]. }
  apply eqs_false in E1.
  destruct (eqs (v_text v) (rg_value o)) eqn:E2.
  { apply eqs_eq in E2. left. split; [auto | eexists; split; reflexivity]. }
  apply eqs_false in E2. right. split; [|reflexivity]. intros [H|H]; congruence.
Qed.

(** ** Clamping *)
Lemma qle_false x y : Qle_bool x y = false <-> (y < x)%Q.
Proof.
  split; intros H.
  - apply Qnot_le_lt. intros F. apply Qle_bool_iff in F. congruence.
  - destruct (Qle_bool x y) eqn:E; [|reflexivity]. apply Qle_bool_iff in E. lra.
Qed.
Lemma qle_true x y : Qle_bool x y = true <-> (x <= y)%Q.
Proof. apply Qle_bool_iff. Qed.

Lemma clamp_closest x : x <> NaN -> closest x (clamp x).
Proof.
  intros H. destruct x as [| | |q]; [contradiction|reflexivity|reflexivity|].
  unfold closest, clamp, fmin, fmax. cbn [flt f_one].
  destruct (Qle_bool q 1) eqn:E; cbn [negb].
  - apply qle_true in E. cbn [flt f_zero].
    destruct (Qle_bool 0 q) eqn:F; cbn [negb].
    + apply qle_true in F. repeat split; intros; try lra; try reflexivity.
    + apply qle_false in F. repeat split; intros; try lra; try reflexivity.
  - apply qle_false in E. repeat split; intros; try lra; try reflexivity.
Qed.
Lemma closest_within x y : closest x y -> within01 y.
Proof.
  destruct x as [| | |q]; cbn; [contradiction| | |].
  - intros ->. exists 0%Q. split; [reflexivity | lra].
  - intros ->. exists 1%Q. split; [reflexivity | lra].
  - intros (A & B & C). destruct (Qlt_le_dec q 0) as [H|H].
    { rewrite (A H). exists 0%Q. split; [reflexivity | lra]. }
    destruct (Qlt_le_dec 1 q) as [K|K].
    { rewrite (B K). exists 1%Q. split; [reflexivity | lra]. }
    rewrite C by auto. exists q. auto.
Qed.

(** ** The loop over the ranges *)
Lemma not_acceptable_eq e : is_not_acceptable e = true -> e = NotAcceptable.
Proof.
  destruct e as [| | | | | | | | | |n]; cbn; try discriminate.
  intros H. unfold NotAcceptable. f_equal.
  destruct (Nat.eq_dec n 406) as [->|D]; [reflexivity|].
  exfalso. revert H D.
  do 406 (destruct n as [|n]; [discriminate|]).
  destruct n; [contradiction | discriminate].
Qed.
Opaque is_not_acceptable.
Lemma na_na : is_not_acceptable NotAcceptable = true.
Proof. reflexivity. Qed.

Section loops.
  Variable fmul : fl -> fl -> fl.

  Lemma best_option_cases f l best r : best_option fmul f l best = Ok r ->
    match r with
    | Some m => best = Some m \/ exists o, In o l /\ f o = Ok m
    | None => best = None /\ forall o, In o l -> f o = Raise NotAcceptable
    end.
  Proof.
    revert best. induction l as [|o l IH]; intros best; cbn [best_option].
    - intros [= <-]. destruct best; [auto | split; [reflexivity | intros o []]].
    - destruct (f o) as [m|e] eqn:E.
      + intros H. apply IH in H. destruct r as [m'|].
        * destruct H as [H|(o' & Hi & Hf)].
          -- destruct best as [b|].
             ++ destruct (acc_gt fmul m b); inv H; [right; exists o; split; [left; reflexivity | exact E] | auto].
             ++ inv H. right. exists o. split; [left; reflexivity | exact E].
          -- right. exists o'. split; [right; exact Hi | exact Hf].
        * destruct H as [H _]. destruct best as [b|]; [destruct (acc_gt fmul m b)|]; discriminate.
      + destruct (is_not_acceptable e) eqn:N; [|discriminate].
        apply not_acceptable_eq in N. subst e. intros H. apply IH in H. destruct r as [m'|].
        * destruct H as [H|(o' & Hi & Hf)]; [auto|].
          right. exists o'. split; [right; exact Hi | exact Hf].
        * destruct H as [H H']. split; [exact H|]. intros o' [<-|Hi]; auto.
  Qed.
  Lemma best_option_total f l best :
    (forall o, In o l -> (exists m, f o = Ok m) \/ f o = Raise NotAcceptable) ->
    exists r, best_option fmul f l best = Ok r.
  Proof.
    revert best. induction l as [|o l IH]; intros best H; cbn [best_option]; [eauto|].
    destruct (H o (or_introl eq_refl)) as [[m ->] | ->].
    - apply IH. intros o' Hi. apply H. right. exact Hi.
    - rewrite na_na. apply IH. intros o' Hi. apply H. right. exact Hi.
  Qed.
  Lemma value_ok f l m : value_acceptability fmul f l = Ok m -> exists o, In o l /\ f o = Ok m.
  Proof.
    unfold value_acceptability. destruct (best_option fmul f l None) as [[x|]|e] eqn:E; cbn;
      try discriminate.
    intros [= ->]. apply best_option_cases in E as [E|E]; [discriminate | exact E].
  Qed.
  Lemma value_total f l :
    (forall o, In o l -> (exists m, f o = Ok m) \/ f o = Raise NotAcceptable) ->
    (exists m, value_acceptability fmul f l = Ok m) \/
    (value_acceptability fmul f l = Raise NotAcceptable /\
     forall o, In o l -> f o = Raise NotAcceptable).
  Proof.
    intros H. unfold value_acceptability.
    destruct (best_option_total f l None H) as [[m|] E]; rewrite E; cbn; [eauto|].
    right. split; [reflexivity|]. apply best_option_cases in E. apply E.
  Qed.

  Lemma content_type_ok v o m : content_type_option v o = Ok m ->
    well_formed (v_text v) /\ well_formed (rg_value o).
  Proof.
    unfold content_type_option.
    destruct (two_parts_cases (rg_value o)) as [(t & s & -> & H)|(-> & _)]; [|discriminate].
    destruct (two_parts_cases (v_text v)) as [(t' & s' & -> & H')|(-> & _)]; [|discriminate].
    intros _. split; eexists; eexists; eassumption.
  Qed.
  Lemma content_type_matches v o m : content_type_option v o = Ok m ->
    media_matches (rg_value o) (v_text v) \/ star_subtype (rg_value o) (v_text v).
  Proof.
    intros E. destruct (content_type_ok _ _ _ E) as [A B].
    destruct (content_type_option_spec v o A B) as [[H _]|[_ H]]; [exact H | congruence].
  Qed.
  Lemma content_type_total v o : well_formed (v_text v) -> well_formed (rg_value o) ->
    (exists m, content_type_option v o = Ok m) \/ content_type_option v o = Raise NotAcceptable.
  Proof.
    intros A B.
    destruct (content_type_option_spec v o A B) as [[_ (t & s & ot & os & _ & _ & H)]|[_ H]]; eauto.
  Qed.

  (** ** One representation *)
  Lemma repr_ok r a b c x : repr_acceptability fmul r a b c = Ok x -> admitted a r.
  Proof.
    unfold repr_acceptability, admitted. destruct (r_content_type r) as [v|]; [|auto].
    destruct (value_acceptability fmul (content_type_option v) a) as [m|e] eqn:E; [|discriminate].
    intros _. apply value_ok in E as (o & Hi & E). exists o. split; [exact Hi|].
    exact (content_type_matches _ _ _ E).
  Qed.

  Definition sane_range (o : range) : Prop := well_formed (rg_value o).
  Definition sane_repr (r : repr) : Prop :=
    match r_content_type r with
    | Some v => well_formed (v_text v)
    | None => r_language r = None
    end.

  Lemma repr_cases r a b c : (forall o, In o a -> sane_range o) -> sane_repr r ->
    (admitted a r /\ exists x, repr_acceptability fmul r a b c = Ok x /\ t_charset x = r_charset r)
    \/ (~ admitted a r /\ repr_acceptability fmul r a b c = Raise NotAcceptable).
  Proof.
    intros Ha Hr. unfold repr_acceptability, admitted, sane_repr in *.
    destruct (r_content_type r) as [v|].
    - destruct (value_total (content_type_option v) a) as [[m E]|[E H]].
      { intros o Hi. apply content_type_total; auto. apply Ha; exact Hi. }
      + rewrite E. cbn. left. split.
        * apply value_ok in E as (o & Hi & E). exists o. split; [exact Hi|].
          exact (content_type_matches _ _ _ E).
        * destruct (r_language r); eexists; split; reflexivity.
      + rewrite E. right. split; [|reflexivity].
        intros (o & Hi & M). specialize (H o Hi).
        destruct (content_type_option_spec v o Hr (Ha o Hi))
          as [[_ (t & s & ot & os & _ & _ & K)]|[K _]]; [congruence | contradiction].
    - rewrite Hr. cbn. left. split; [exact I | eexists; split; reflexivity].
  Qed.

  (** ** Selection *)
  Lemma select_loop_sound l a b c best x r :
    select_loop fmul l a b c best = Ok (Some (x, r)) ->
    best = Some (x, r) \/ (In r l /\ repr_acceptability fmul r a b c = Ok x).
  Proof.
    revert best. induction l as [|r' l IH]; intros best; cbn [select_loop].
    - intros [= ->]. auto.
    - destruct (repr_acceptability fmul r' a b c) as [y|e] eqn:E.
      + destruct best as [[h hr]|].
        * destruct (top_ge fmul y h) as [g|e]; [|discriminate]. cbn.
          intros H. apply IH in H as [H|[Hi H]]; [|right; split; [right; exact Hi | exact H]].
          destruct g; [inv H; right; split; [left; reflexivity | exact E] | auto].
        * intros H. apply IH in H as [H|[Hi H]]; [|right; split; [right; exact Hi | exact H]].
          inv H. right; split; [left; reflexivity | exact E].
      + destruct (is_not_acceptable e); [|discriminate].
        intros H. apply IH in H as [H|[Hi H]]; [auto|right; split; [right; exact Hi | exact H]].
  Qed.
  Lemma select_sound l a b c r : select fmul l a b c = Ok r -> In r l /\ admitted a r.
  Proof.
    unfold select. destruct (select_loop fmul l a b c None) as [[[x r']|]|e] eqn:E; cbn;
      try discriminate.
    intros [= ->]. apply select_loop_sound in E as [E|[Hi E]]; [discriminate|].
    split; [exact Hi | exact (repr_ok _ _ _ _ _ E)].
  Qed.

  Lemma select_loop_none l a b c :
    (forall r, In r l -> repr_acceptability fmul r a b c = Raise NotAcceptable) ->
    forall best, select_loop fmul l a b c best = Ok best.
  Proof.
    induction l as [|r l IH]; intros H best; cbn [select_loop]; [reflexivity|].
    rewrite (H r (or_introl eq_refl)), na_na. apply IH. intros r' Hi. apply H. right. exact Hi.
  Qed.
  (* the loop itself never ends with NotAcceptable, and keeps what it has found *)
  Lemma top_gt_na x y e : top_gt fmul x y = Raise e -> e = TypeError.
  Proof.
    unfold top_gt. destruct (opt_gt _ _ _); [discriminate|]. destruct (opt_gt _ _ _); [discriminate|].
    destruct (t_charset x), (t_charset y); try discriminate; intros [= <-]; reflexivity.
  Qed.
  Lemma top_ge_na x y e : top_ge fmul x y = Raise e -> e = TypeError.
  Proof.
    unfold top_ge. destruct (top_gt fmul x y) as [g|e'] eqn:E; cbn.
    - destruct g; discriminate.
    - intros [= <-]. exact (top_gt_na _ _ _ E).
  Qed.
  Lemma select_loop_na l a b c best : select_loop fmul l a b c best <> Raise NotAcceptable.
  Proof.
    revert best. induction l as [|r l IH]; intros best; cbn [select_loop]; [discriminate|].
    destruct (repr_acceptability fmul r a b c) as [x|e].
    - destruct best as [[h hr]|]; [|apply IH].
      destruct (top_ge fmul x h) as [g|e] eqn:E; [apply IH|]. cbn.
      apply top_ge_na in E. subst e. discriminate.
    - destruct (is_not_acceptable e) eqn:N; [apply IH|].
      intros [= ->]. rewrite na_na in N. discriminate.
  Qed.
  Lemma select_loop_ended l a b c best : select_loop fmul l a b c best = Ok None ->
    best = None /\ forall r, In r l -> repr_acceptability fmul r a b c = Raise NotAcceptable.
  Proof.
    revert best. induction l as [|r l IH]; intros best; cbn [select_loop].
    - intros [= ->]. split; [reflexivity | intros r []].
    - destruct (repr_acceptability fmul r a b c) as [x|e] eqn:E.
      + destruct best as [[h hr]|].
        * destruct (top_ge fmul x h) as [g|e]; [|discriminate]. cbn.
          intros H. apply IH in H as [H _]. destruct g; discriminate.
        * intros H. apply IH in H as [H _]. discriminate.
      + destruct (is_not_acceptable e) eqn:N; [|discriminate].
        apply not_acceptable_eq in N. subst e.
        intros H. apply IH in H as [H H']. split; [exact H|].
        intros r' [<-|Hi]; auto.
  Qed.
  Lemma select_none l a b c :
    (forall o, In o a -> sane_range o) -> (forall r, In r l -> sane_repr r) ->
    (select fmul l a b c = Raise NotAcceptable <-> forall r, In r l -> ~ admitted a r).
  Proof.
    intros Ha Hl. unfold select. split.
    - destruct (select_loop fmul l a b c None) as [[[x r']|]|e] eqn:E; cbn; try discriminate.
      + intros _ r Hi. apply select_loop_ended in E as [_ E]. specialize (E r Hi).
        destruct (repr_cases r a b c Ha (Hl r Hi)) as [[_ (x & F & _)]|[H _]]; [congruence | exact H].
      + intros [= ->]. destruct (select_loop_na _ _ _ _ _ E).
    - intros H. rewrite select_loop_none; [reflexivity|]. intros r Hi.
      destruct (repr_cases r a b c Ha (Hl r Hi)) as [[F _]|[_ F]]; [|exact F].
      destruct (H r Hi F).
  Qed.

  Lemma top_ge_total x y : t_charset x = None -> t_charset y = None ->
    exists g, top_ge fmul x y = Ok g.
  Proof.
    intros A B. unfold top_ge, top_gt. rewrite A, B.
    destruct (opt_gt _ _ _); [cbn; eauto|]. destruct (opt_gt _ _ _); [cbn; eauto|].
    destruct (negb _); cbn; eauto.
  Qed.
  Lemma select_loop_total l a b c :
    (forall o, In o a -> sane_range o) ->
    (forall r, In r l -> sane_repr r /\ r_charset r = None) ->
    forall best, (forall x r, best = Some (x, r) -> t_charset x = None) ->
    exists z, select_loop fmul l a b c best = Ok z.
  Proof.
    intros Ha. induction l as [|r l IH]; intros Hl best Hb; cbn [select_loop]; [eauto|].
    destruct (Hl r (or_introl eq_refl)) as [Hr Hc].
    assert (Hl' : forall r', In r' l -> sane_repr r' /\ r_charset r' = None)
      by (intros r' Hi; apply Hl; right; exact Hi).
    destruct (repr_cases r a b c Ha Hr) as [[_ (x & -> & Hx)]|[_ ->]].
    - rewrite Hc in Hx. destruct best as [[h hr]|].
      + destruct (top_ge_total x h Hx (Hb _ _ eq_refl)) as [g ->]. cbn.
        apply IH; [exact Hl'|]. destruct g; [intros ? ? [= <- <-]; exact Hx | exact Hb].
      + apply IH; [exact Hl'|]. intros ? ? [= <- <-]; exact Hx.
    - rewrite na_na. apply IH; assumption.
  Qed.
  Lemma select_total l a b c :
    (forall o, In o a -> sane_range o) ->
    (forall r, In r l -> sane_repr r /\ r_charset r = None) ->
    (exists r, select fmul l a b c = Ok r) \/ select fmul l a b c = Raise NotAcceptable.
  Proof.
    intros Ha Hl. unfold select.
    destruct (select_loop_total l a b c Ha Hl None) as [z ->]; [discriminate|].
    cbn. destruct z as [[x r]|]; eauto.
  Qed.

  Lemma select_ignores l a b c b' c' : select fmul l a b c = select fmul l a b' c'.
  Proof.
    unfold select. f_equal. generalize (@None (acceptability * repr)).
    induction l as [|r l IH]; intros best; cbn [select_loop]; [reflexivity|].
    change (repr_acceptability fmul r a b' c') with (repr_acceptability fmul r a b c).
    destruct (repr_acceptability fmul r a b c) as [x|e].
    - destruct best as [[h hr]|]; [|apply IH].
      destruct (top_ge fmul x h); [|reflexivity]. cbn. apply IH.
    - destruct (is_not_acceptable e); [apply IH | reflexivity].
  Qed.
End loops.

(** ** Preference, where the header is in order *)
Definition key (n : nat) : Z * Z :=
  match n with O => (0, 0)%Z | S O => (1, 0)%Z | _ => (1, 1)%Z end.

Lemma rank_le r n : rank r n -> (n <= 2)%nat.
Proof. intros H. inv H; lia. Qed.

(* a range of one of the three forms that matches a concrete type, and the key it gives *)
Lemma rank_wf r n : rank r n -> well_formed r.
Proof. intros H. inv H; eexists; eexists; eassumption. Qed.
Lemma rank_fun r n n' : rank r n -> rank r n' -> n = n'.
Proof.
  intros H H'.
  inversion H as [A|t A T|t s A T S]; inversion H' as [A'|t' A' T'|t' s' A' T' S']; auto;
    destruct (media_text_fun _ _ _ _ _ A A') as [E1 E2]; congruence.
Qed.
Lemma rank_key v o n : concrete (v_text v) ->
  rank (rg_value o) n -> media_matches (rg_value o) (v_text v) ->
  content_type_option v o = Ok (mk_acc (key n) (rg_q o) (v_qs v)).
Proof.
  intros (t & s & Hv & Ht & Hs) Hr Hm.
  assert (Hw : well_formed (v_text v)) by (exists t, s; exact Hv).
  destruct (content_type_option_spec v o Hw (rank_wf _ _ Hr))
    as [[_ (t1 & s1 & ot & os & A & B & E)]|[F _]]; [|tauto].
  destruct (media_text_fun _ _ _ _ _ A Hv) as [-> ->]. rewrite E. clear E.
  do 2 f_equal.
  destruct Hm as (t2 & s2 & A2 & Hm).
  destruct (media_text_fun _ _ _ _ _ A2 Hv) as [-> ->]. clear A A2.
  destruct Hv as (_ & Hv1 & Hv2).
  assert (X : ot = star /\ os = star \/ ot = t /\ os = star \/ ot = t /\ os = s).
  { destruct B as (B & B1 & B2). rewrite B in Hm.
    destruct Hm as [Hm|[Hm|Hm]]; apply slashed_inj in Hm; auto using star_no_slash. }
  assert (Es : eqs star t = false) by (apply eqs_false; congruence).
  assert (Es' : eqs star s = false) by (apply eqs_false; congruence).
  destruct X as [(-> & ->)|[(-> & ->)|(-> & ->)]].
  - rewrite (rank_fun _ _ _ Hr (rank_any _ B)), Es, Es'. reflexivity.
  - rewrite (rank_fun _ _ _ Hr (rank_type _ _ B Ht)), eqs_refl, Es'. reflexivity.
  - rewrite (rank_fun _ _ _ Hr (rank_exact _ _ _ B Ht Hs)), !eqs_refl. reflexivity.
Qed.
(* such a range either matches so, or not at all *)
Lemma rank_option v o n : concrete (v_text v) -> rank (rg_value o) n ->
  (media_matches (rg_value o) (v_text v) /\
   content_type_option v o = Ok (mk_acc (key n) (rg_q o) (v_qs v)))
  \/ (~ media_matches (rg_value o) (v_text v) /\ content_type_option v o = Raise NotAcceptable).
Proof.
  intros Hv Hr.
  assert (Hw : well_formed (v_text v)) by (destruct Hv as (t & s & H & _); exists t, s; exact H).
  destruct (content_type_option_spec v o Hw (rank_wf _ _ Hr)) as [[[M|M] _]|[M E]].
  - left. split; [exact M | apply rank_key; assumption].
  - exfalso. destruct M as (t & s & Ht & E). destruct Hv as (t' & s' & Hv & Nt & Ns).
    destruct (media_text_fun _ _ _ _ _ Ht Hv) as [-> ->]. destruct Hv as (_ & H1 & H2).
    assert (B : media_text (rg_value o) star s') by (repeat split; auto using star_no_slash).
    inversion Hr as [A|t A T|t s A T S]; destruct (media_text_fun _ _ _ _ _ A B); congruence.
  - right. split; [tauto | exact E].
Qed.

Section preference.
  Variable fmul : fl -> fl -> fl.
  (* the pairs of specificity and quality that occur *)
  Variable P : nat -> Q -> Prop.
  Hypothesis chain : forall n q n' q', P n q -> P n' q' -> (n < n')%nat -> (q <= q')%Q.
  Hypothesis small : forall n q, P n q -> (n <= 2)%nat.

  Definition graded (m : acc) (n : nat) (q : Q) : Prop :=
    a_match m = key n /\ P n q /\ quality fmul m = Fin q.

  Lemma match_gt_key n n' : (n <= 2)%nat -> (n' <= 2)%nat ->
    match_gt (key n) (key n') = (n' <? n)%nat.
  Proof.
    intros A B. destruct n as [|[|[|]]]; try lia; destruct n' as [|[|[|]]]; try lia; reflexivity.
  Qed.
  Lemma match_eq_key n n' : (n <= 2)%nat -> (n' <= 2)%nat ->
    match_eq (key n) (key n') = (n' =? n)%nat.
  Proof.
    intros A B. destruct n as [|[|[|]]]; try lia; destruct n' as [|[|[|]]]; try lia; reflexivity.
  Qed.
  Lemma gt_graded m n q m' n' q' : graded m n q -> graded m' n' q' ->
    (acc_gt fmul m m' = true <-> (n' < n)%nat \/ (q' < q)%Q).
  Proof.
    intros (A & B & C) (A' & B' & C'). unfold acc_gt. rewrite A, A', C, C'.
    rewrite match_gt_key by eauto using small. cbn [flt].
    rewrite orb_true_iff, negb_true_iff, qle_false, Nat.ltb_lt. reflexivity.
  Qed.
  Lemma gt_graded_not m n q m' n' q' : graded m n q -> graded m' n' q' ->
    (acc_gt fmul m m' = false <-> (n <= n')%nat /\ (q <= q')%Q).
  Proof.
    intros A B. rewrite <- not_true_iff_false, (gt_graded _ _ _ _ _ _ A B). split.
    - intros H. split; [lia | apply Qnot_lt_le; tauto].
    - intros [H K] [F|F]; [lia | lra].
  Qed.
  Lemma eq_graded m n q m' n' q' : graded m n q -> graded m' n' q' ->
    (acc_eq fmul m m' = true <-> n = n' /\ (q == q')%Q).
  Proof.
    intros (A & B & C) (A' & B' & C'). unfold acc_eq. rewrite A, A', C, C'.
    rewrite match_eq_key by eauto using small. cbn [feq].
    rewrite andb_true_iff, Nat.eqb_eq, Qeq_bool_iff. intuition.
  Qed.
  Definition good (m : acc) : Prop := exists n q, graded m n q.
  Definition below (x b : acc) : Prop := acc_gt fmul x b = false.
  Lemma below_refl x : good x -> below x x.
  Proof. intros (n & q & G). apply (gt_graded_not _ _ _ _ _ _ G G). split; [lia | lra]. Qed.
  Lemma below_trans x y z : good x -> good y -> good z -> below x y -> below y z -> below x z.
  Proof.
    intros (n & q & G) (n' & q' & G') (n2 & q2 & G2) A B.
    apply (gt_graded_not _ _ _ _ _ _ G G') in A as [A1 A2].
    apply (gt_graded_not _ _ _ _ _ _ G' G2) in B as [B1 B2].
    apply (gt_graded_not _ _ _ _ _ _ G G2). split; [lia | lra].
  Qed.
  (* in a chain, greater in one respect is not less in the other *)
  Lemma gt_below m b : good m -> good b -> acc_gt fmul m b = true -> below b m.
  Proof.
    intros (n & q & G) (n' & q' & G') K.
    apply (gt_graded _ _ _ _ _ _ G G') in K. apply (gt_graded_not _ _ _ _ _ _ G' G).
    destruct G as (_ & PM & _), G' as (_ & PB & _).
    destruct K as [K|K].
    - pose proof (chain _ _ _ _ PB PM K). split; [lia | lra].
    - assert (n' <= n)%nat.
      { apply Nat.nlt_ge. intros F. pose proof (chain _ _ _ _ PM PB F). lra. }
      split; [lia | lra].
  Qed.
  Definition same (x y : acc) : Prop := below x y /\ below y x.
  Lemma same_eq x y : good x -> good y -> (same x y <-> acc_eq fmul x y = true).
  Proof.
    intros (n & q & G) (n' & q' & G'). unfold same, below.
    rewrite (eq_graded _ _ _ _ _ _ G G'), (gt_graded_not _ _ _ _ _ _ G G'),
      (gt_graded_not _ _ _ _ _ _ G' G). split.
    - intros [[A B] [C D]]. split; [lia | lra].
    - intros [A B]. repeat split; try lia; lra.
  Qed.
  Lemma ge_below x h : good x -> good h ->
    (acc_gt fmul x h || acc_eq fmul x h = true <-> below h x).
  Proof.
    intros X H. rewrite orb_true_iff, <- (same_eq x h X H). split.
    - intros [K|[_ K]]; [apply gt_below; assumption | exact K].
    - intros K. destruct (acc_gt fmul x h) eqn:E; [auto | right; split; assumption].
  Qed.

  Lemma best_chain f l best b :
    (forall o, In o l -> f o = Raise NotAcceptable \/ exists m, f o = Ok m /\ good m) ->
    (forall m, best = Some m -> good m) ->
    best_option fmul f l best = Ok (Some b) ->
    good b /\ (forall m, best = Some m -> below m b) /\
    (forall o m, In o l -> f o = Ok m -> below m b).
  Proof.
    revert best. induction l as [|o l IH]; intros best Hf Hb; cbn [best_option].
    - intros [= ->]. pose proof (Hb b eq_refl) as G. split; [exact G|]. split.
      + intros m [= <-]. apply below_refl. exact G.
      + intros o m [].
    - assert (Hf' : forall o', In o' l ->
                f o' = Raise NotAcceptable \/ exists m, f o' = Ok m /\ good m)
        by (intros o' Hi; apply Hf; right; exact Hi).
      destruct (Hf o (or_introl eq_refl)) as [E|(m & E & G)]; rewrite E.
      + rewrite na_na. intros H. destruct (IH best Hf' Hb H) as (A & B & C).
        split; [exact A|]. split; [exact B|]. intros o' m [<-|Hi] E'; [congruence | eauto].
      + intros H. destruct best as [b0|].
        * pose proof (Hb b0 eq_refl) as G0. destruct (acc_gt fmul m b0) eqn:K.
          -- apply IH in H as (A & B & C); [|exact Hf'|intros x [= <-]; exact G].
             pose proof (B m eq_refl) as Bm. split; [exact A|]. split.
             ++ intros x [= <-]. apply (below_trans b0 m b); auto. apply gt_below; assumption.
             ++ intros o' x [<-|Hi] E'; [|eauto]. congruence.
          -- apply IH in H as (A & B & C); [|exact Hf'|exact Hb].
             split; [exact A|]. split; [exact B|].
             intros o' x [<-|Hi] E'; [|eauto].
             assert (x = m) by congruence. subst x.
             apply (below_trans m b0 b); auto.
        * apply IH in H as (A & B & C); [|exact Hf'|intros x [= <-]; exact G].
          split; [exact A|]. split; [discriminate|].
          intros o' x [<-|Hi] E'; [|eauto]. assert (x = m) by congruence. subst x. auto.
  Qed.
  Lemma value_chain f l b :
    (forall o, In o l -> f o = Raise NotAcceptable \/ exists m, f o = Ok m /\ good m) ->
    value_acceptability fmul f l = Ok b ->
    good b /\ (exists o, In o l /\ f o = Ok b) /\
    (forall o m, In o l -> f o = Ok m -> below m b).
  Proof.
    intros Hf E. pose proof (value_ok _ _ _ _ E) as K. unfold value_acceptability in E.
    destruct (best_option fmul f l None) as [[x|]|e] eqn:F; cbn in E; try discriminate.
    inv E. apply best_chain in F as (A & _ & C); [auto | exact Hf | discriminate].
  Qed.

  (** The representations: all acceptabilities have the form of [shape] *)
  Variable lang : bool.
  Variable qs : Q.
  Definition shape (m : acc) : acceptability :=
    mk_acceptability (Some m) (if lang then Some m else None) None (Fin qs).

  Lemma top_ge_shape x h : good x -> good h ->
    top_ge fmul (shape x) (shape h) = Ok (acc_gt fmul x h || acc_eq fmul x h).
  Proof.
    intros X H. unfold top_ge, top_gt, top_eq, shape. cbn [t_content_type t_language t_charset t_qs opt_gt opt_eq].
    assert (R : Qeq_bool qs qs = true) by (apply Qeq_bool_iff; reflexivity).
    assert (R' : fle (Fin qs) (Fin qs) = true) by (unfold fle; cbn [flt feq]; rewrite R; apply orb_true_r).
    rewrite R'. cbn [feq negb]. rewrite R.
    destruct (acc_gt fmul x h) eqn:E; [reflexivity|].
    destruct lang; cbn [opt_gt opt_eq]; [rewrite E|]; cbn [bind orb];
      destruct (acc_eq fmul x h); reflexivity.
  Qed.

  Section run.
    Variables (a b c : list range).
    Definition outcome (r : repr) : Prop :=
      repr_acceptability fmul r a b c = Raise NotAcceptable \/
      exists m, repr_acceptability fmul r a b c = Ok (shape m) /\ good m.

    Lemma select_chain l best x r :
      (forall r, In r l -> outcome r) ->
      (forall y r', best = Some (y, r') -> exists m, y = shape m /\ good m) ->
      select_loop fmul l a b c best = Ok (Some (x, r)) ->
      exists m, x = shape m /\ good m /\
        (forall y r', best = Some (y, r') -> forall m', y = shape m' -> below m' m) /\
        (forall r' m', In r' l -> repr_acceptability fmul r' a b c = Ok (shape m') -> below m' m).
    Proof.
      assert (Inj : forall m m', shape m = shape m' -> m = m') by (unfold shape; congruence).
      revert best. induction l as [|r1 l IH]; intros best Hl Hb; cbn [select_loop].
      - intros [= ->]. destruct (Hb x r eq_refl) as (m & -> & G). exists m.
        split; [reflexivity|]. split; [exact G|]. split.
        + intros y r' [= <- <-] m' E. apply Inj in E as <-. apply below_refl. exact G.
        + intros r' m' [].
      - assert (Hl' : forall r, In r l -> outcome r) by (intros r' Hi; apply Hl; right; exact Hi).
        destruct (Hl r1 (or_introl eq_refl)) as [E|(m1 & E & G1)]; rewrite E.
        + rewrite na_na. intros H. apply IH in H as (m & A & B & C & D); [|exact Hl'|exact Hb].
          exists m. repeat split; auto. intros r' m' [<-|Hi] E'; [congruence | eauto].
        + destruct best as [[h hr]|].
          * destruct (Hb h hr eq_refl) as (mh & -> & Gh).
            rewrite top_ge_shape by assumption. cbn [bind].
            destruct (acc_gt fmul m1 mh || acc_eq fmul m1 mh) eqn:K; intros H.
            -- apply ge_below in K; try assumption.
               apply IH in H as (m & A & B & C & D);
                 [|exact Hl'|intros y r' [= <- <-]; exists m1; auto].
               pose proof (C _ _ eq_refl m1 eq_refl) as C1.
               exists m. split; [exact A|]. split; [exact B|]. split.
               ++ intros y r' [= <- <-] m' F. apply Inj in F as <-.
                  apply (below_trans mh m1 m); assumption.
               ++ intros r' m' [<-|Hi] F; [|eauto].
                  rewrite E in F. assert (m1 = m') as <- by (unfold shape in F; congruence). exact C1.
            -- apply IH in H as (m & A & B & C & D); [|exact Hl'|exact Hb].
               exists m. split; [exact A|]. split; [exact B|]. split; [exact C|].
               intros r' m' [<-|Hi] F; [|eauto].
               rewrite E in F. assert (m1 = m') as <- by (unfold shape in F; congruence).
               apply orb_false_iff in K as [K _].
               apply (below_trans m1 mh m); auto. exact (C _ _ eq_refl mh eq_refl).
          * intros H. apply IH in H as (m & A & B & C & D);
              [|exact Hl'|intros y r' [= <- <-]; exists m1; auto].
            exists m. split; [exact A|]. split; [exact B|]. split; [discriminate|].
            intros r' m' [<-|Hi] F; [|eauto].
            rewrite E in F. assert (m1 = m') as <- by (unfold shape in F; congruence). exact (C _ _ eq_refl m1 eq_refl).
    Qed.
  End run.

  (* two runs whose acceptabilities agree select the same *)
  Lemma select_same a a' b c l best best' :
    (forall r, In r l ->
       (repr_acceptability fmul r a b c = Raise NotAcceptable /\
        repr_acceptability fmul r a' b c = Raise NotAcceptable) \/
       exists m m', repr_acceptability fmul r a b c = Ok (shape m) /\
                    repr_acceptability fmul r a' b c = Ok (shape m') /\
                    good m /\ good m' /\ same m m') ->
    (best = None /\ best' = None \/
     exists m m' r, best = Some (shape m, r) /\ best' = Some (shape m', r) /\
                    good m /\ good m' /\ same m m') ->
    match select_loop fmul l a b c best, select_loop fmul l a' b c best' with
    | Ok None, Ok None => True
    | Ok (Some (_, r)), Ok (Some (_, r')) => r = r'
    | _, _ => False
    end.
  Proof.
    revert best best'. induction l as [|r l IH]; intros best best' Hl Hb; cbn [select_loop].
    - destruct Hb as [[-> ->]|(m & m' & r & -> & -> & _)]; [exact I | reflexivity].
    - assert (Hl' := fun r' (Hi : In r' l) => Hl r' (or_intror Hi)).
      destruct (Hl r (or_introl eq_refl)) as [[-> ->]|(m & m' & -> & -> & G & G' & S)].
      + rewrite na_na. apply IH; assumption.
      + destruct Hb as [[-> ->]|(h & h' & hr & -> & -> & H & H' & T)].
        * apply IH; [exact Hl'|]. right. exists m, m', r. auto.
        * rewrite !top_ge_shape by assumption. cbn [bind].
          assert (K : (acc_gt fmul m h || acc_eq fmul m h) = (acc_gt fmul m' h' || acc_eq fmul m' h')).
          { apply eq_true_iff_eq. rewrite !ge_below by assumption.
            destruct S as [S1 S2], T as [T1 T2]. split; intros B.
            - apply (below_trans h' h m'); auto. apply (below_trans h m m'); auto.
            - apply (below_trans h h' m); auto. apply (below_trans h' m' m); auto. }
          rewrite K. apply IH; [exact Hl'|]. right.
          destruct (acc_gt fmul m' h' || acc_eq fmul m' h'); [exists m, m', r | exists h, h', hr];
            (split; [reflexivity|]; split; [reflexivity|]; auto).
  Qed.
End preference.

(** ** The claim about preference *)
Section client.
  Variable fmul : fl -> fl -> fl.
  Variables (l : list repr) (accept b c : list range) (qs : Q).
  Hypothesis Hl : plain_offer l qs.
  Hypothesis Ha : forall o, In o accept -> proper_range o.
  Hypothesis Ho : in_order l accept.

  (* the pairs that occur: of a range that admits something offered *)
  Definition occurs (n : nat) (q : Q) : Prop :=
    exists o v, In o accept /\ offers l v /\ media_matches (rg_value o) v /\
                rank (rg_value o) n /\ rg_q o = Fin q.
  Lemma fle_fin x y : fle (Fin x) (Fin y) = true <-> (x <= y)%Q.
  Proof.
    unfold fle. cbn [flt feq]. rewrite orb_true_iff, negb_true_iff, qle_false, Qeq_bool_iff.
    split; [intros [H|H]; lra|]. intros H. destruct (Qlt_le_dec x y); [auto | right; lra].
  Qed.
  Lemma occurs_chain n q n' q' : occurs n q -> occurs n' q' -> (n < n')%nat -> (q <= q')%Q.
  Proof.
    intros (o & v & A1 & A2 & A3 & A4 & A5) (o' & v' & B1 & B2 & B3 & B4 & B5) H.
    pose proof (Ho o o' v v' n n' A1 B1 A2 B2 A3 B3 A4 B4 H) as K.
    rewrite A5, B5 in K. apply fle_fin. exact K.
  Qed.
  Lemma occurs_small n q : occurs n q -> (n <= 2)%nat.
  Proof. intros (o & v & _ & _ & _ & H & _). exact (rank_le _ _ H). Qed.

  Lemma option_outcome r v (accept' : list range) o : In r l -> r_content_type r = Some v ->
    In o accept ->
    (~ media_matches (rg_value o) (v_text v) /\ content_type_option v o = Raise NotAcceptable) \/
    exists m, content_type_option v o = Ok m /\ good fmul occurs m /\
      media_matches (rg_value o) (v_text v) /\
      exists n q, rank (rg_value o) n /\ rg_q o = Fin q /\ graded fmul occurs m n q.
  Proof.
    intros Hi Hc Hin. destruct Hl as [H1 _]. destruct (H1 r Hi) as ((v' & Ev & Cv & Qv) & _).
    assert (v' = v) by congruence. subst v'.
    destruct (Ha o Hin) as [[n Hn] (q & Eq & Hq)].
    destruct (rank_option v o n Cv Hn) as [[M E]|[M E]]; [|left; auto].
    right. exists (mk_acc (key n) (rg_q o) (v_qs v)). rewrite E.
    assert (G : graded fmul occurs (mk_acc (key n) (rg_q o) (v_qs v)) n q).
    { split; [reflexivity|]. split.
      - exists o, (v_text v). split; [exact Hin|]. split; [exists r, v; auto | auto].
      - unfold quality. cbn [a_qs a_q]. rewrite Qv. exact Eq. }
    split; [reflexivity|]. split; [exists n, q; exact G|]. split; [exact M|].
    exists n, q. auto.
  Qed.

  Definition has_language : bool :=
    match l with r :: _ => match r_language r with Some _ => true | None => false end | [] => false end.
  Lemma has_language_spec r : In r l ->
    match r_language r with Some _ => true | None => false end = has_language.
  Proof.
    destruct Hl as [_ H]. unfold has_language. destruct l as [|r0 l']; [intros []|].
    intros Hi. destruct H as [H|H].
    - rewrite (H r Hi), (H r0 (or_introl eq_refl)). reflexivity.
    - pose proof (H r Hi). pose proof (H r0 (or_introl eq_refl)).
      destruct (r_language r), (r_language r0); congruence.
  Qed.

  Lemma repr_outcome accept' : (forall o, In o accept' -> In o accept) ->
    forall r, In r l -> exists v, r_content_type r = Some v /\
    ((repr_acceptability fmul r accept' b c = Raise NotAcceptable /\
      forall o, In o accept' -> content_type_option v o = Raise NotAcceptable) \/
     exists m, repr_acceptability fmul r accept' b c = Ok (shape has_language qs m) /\
       good fmul occurs m /\ (exists o, In o accept' /\ content_type_option v o = Ok m) /\
       (forall o m', In o accept' -> content_type_option v o = Ok m' -> below fmul m' m)).
  Proof.
    intros Hs r Hi. pose proof (proj1 Hl r Hi) as ((v & Ev & Cv & Qv) & Hch & Hq).
    exists v. split; [exact Ev|].
    assert (Hf : forall o, In o accept' -> content_type_option v o = Raise NotAcceptable \/
              exists m, content_type_option v o = Ok m /\ good fmul occurs m).
    { intros o Hio. destruct (option_outcome r v accept' o Hi Ev (Hs o Hio)) as [[_ E]|(m & E & G & _)]; eauto. }
    unfold repr_acceptability. rewrite Ev, Hch, Hq.
    destruct (value_total fmul (content_type_option v) accept') as [[m E]|[E N]].
    - intros o Hio. destruct (Hf o Hio) as [F|(m & F & _)]; eauto.
    - right. exists m. rewrite E. cbn [bind].
      destruct (value_chain fmul occurs occurs_chain occurs_small _ _ _ Hf E) as (G & X & Y).
      split; [|auto]. unfold shape. rewrite <- (has_language_spec r Hi).
      destruct (r_language r); cbn [bind]; reflexivity.
    - left. rewrite E. split; [reflexivity | exact N].
  Qed.

  Lemma preference r : select fmul l accept b c = Ok r ->
    exists v o, r_content_type r = Some v /\ decides accept (v_text v) o /\
      forall r' v' o', In r' l -> r_content_type r' = Some v' ->
        In o' accept -> media_matches (rg_value o') (v_text v') ->
        fle (rg_q o') (rg_q o) = true.
  Proof.
    unfold select. destruct (select_loop fmul l accept b c None) as [[[x r0]|]|e] eqn:E; cbn [bind];
      try discriminate. intros [= ->].
    pose proof (select_loop_sound _ _ _ _ _ _ _ _ E) as [F|[Hi Er]]; [discriminate|].
    destruct (select_chain fmul occurs occurs_chain occurs_small has_language qs accept b c l None x r)
      as (m & -> & G & _ & D); [|discriminate|exact E|].
    { intros r' Hi'. destruct (repr_outcome accept (fun _ H => H) r' Hi') as (v & _ & [[H _]|(m & H & G & _)]);
        [left; exact H | right; exists m; auto]. }
    destruct (repr_outcome accept (fun _ H => H) r Hi) as (v & Ev & [[H _]|(m' & H & G' & (o & Hio & Eo) & B)]);
      [congruence|].
    assert (m' = m) by (rewrite Er in H; unfold shape in H; congruence). subst m'.
    exists v, o. split; [exact Ev|].
    destruct (option_outcome r v accept o Hi Ev Hio) as [[_ F]|(m1 & F & _ & M & n & q & Hn & Hq & Gm)];
      [congruence|].
    assert (m1 = m) by congruence. subst m1. split.
    - split; [exact Hio|]. split; [exact M|]. intros o' Hio' M' n1 n' Hn1 Hn'.
      assert (n1 = n) by exact (rank_fun _ _ _ Hn1 Hn). subst n1.
      destruct (option_outcome r v accept o' Hi Ev Hio') as [[F' _]|(m' & F' & _ & _ & n2 & q' & Hn2 & Hq' & Gm')];
        [contradiction|].
      assert (n2 = n') by exact (rank_fun _ _ _ Hn2 Hn'). subst n2.
      pose proof (B o' m' Hio' F') as K.
      apply (gt_graded_not fmul occurs occurs_chain occurs_small _ _ _ _ _ _ Gm' Gm) in K as [K1 K2].
      assert (C : (n' < n)%nat \/ n' = n) by lia. destruct C as [C|C]; [left; exact C | right].
      split; [exact C|]. rewrite Hq', Hq. apply fle_fin. exact K2.
    - intros r' v' o' Hi' Ev' Hio' M'.
      destruct (option_outcome r' v' accept o' Hi' Ev' Hio') as [[F' _]|(m' & F' & _ & _ & n' & q' & Hn' & Hq' & Gm')];
        [contradiction|].
      destruct (repr_outcome accept (fun _ H => H) r' Hi') as (v2 & Ev2 & X).
      assert (v2 = v') by congruence. subst v2.
      destruct X as [[_ X]|(m2 & X & G2 & _ & B2)].
      { rewrite (X o' Hio') in F'. discriminate. }
      pose proof (B2 o' m' Hio' F') as K1. pose proof (D r' m2 Hi' X) as K2.
      pose proof (below_trans fmul occurs occurs_chain occurs_small m' m2 m
        (ex_intro _ n' (ex_intro _ q' Gm')) G2 G K1 K2) as K.
      apply (gt_graded_not fmul occurs occurs_chain occurs_small _ _ _ _ _ _ Gm' Gm) in K as [_ K].
      rewrite Hq', Hq. apply fle_fin. exact K.
  Qed.

  Lemma order_independent accept' : Permutation accept accept' ->
    select fmul l accept b c = select fmul l accept' b c.
  Proof.
    intros Hp. unfold select.
    pose proof (select_same fmul occurs occurs_chain occurs_small has_language qs
                  accept accept' b c l None None) as S.
    assert (Hs : forall o, In o accept' -> In o accept)
      by (intros o; apply Permutation_in; apply Permutation_sym; exact Hp).
    assert (Hs' : forall o, In o accept -> In o accept')
      by (intros o; apply Permutation_in; exact Hp).
    assert (Hr : forall r, In r l ->
       (repr_acceptability fmul r accept b c = Raise NotAcceptable /\
        repr_acceptability fmul r accept' b c = Raise NotAcceptable) \/
       exists m m', repr_acceptability fmul r accept b c = Ok (shape has_language qs m) /\
                    repr_acceptability fmul r accept' b c = Ok (shape has_language qs m') /\
                    good fmul occurs m /\ good fmul occurs m' /\ same fmul m m').
    { intros r Hi.
      destruct (repr_outcome accept (fun _ H => H) r Hi) as (v & Ev & X).
      destruct (repr_outcome accept' Hs r Hi) as (v' & Ev' & X').
      assert (v' = v) by congruence. subst v'.
      destruct X as [[E N]|(m & E & G & (o & Hio & Eo) & B)],
               X' as [[E' N']|(m' & E' & G' & (o' & Hio' & Eo') & B')].
      - left. auto.
      - exfalso. rewrite (N o' (Hs o' Hio')) in Eo'. discriminate.
      - exfalso. rewrite (N' o (Hs' o Hio)) in Eo. discriminate.
      - right. exists m, m'. split; [exact E|]. split; [exact E'|]. split; [exact G|].
        split; [exact G'|]. split; [exact (B' o m (Hs' o Hio) Eo) | exact (B o' m' (Hs o' Hio') Eo')]. }
    specialize (S Hr (or_introl (conj eq_refl eq_refl))).
    destruct (select_loop fmul l accept b c None) as [[[x r]|]|e],
             (select_loop fmul l accept' b c None) as [[[x' r']|]|e']; cbn [bind];
      try contradiction; [subst; reflexivity | reflexivity].
  Qed.
End client.

(** ** Validation of values *)
Lemma re_match_iff r s : (exists x, re_match r s = Some x) <-> exists s', matches r (St None s []) s'.
Proof.
  unfold re_match, match_at. split.
  - intros [x H]. apply run_sound in H as (s' & M & _). eauto.
  - intros [s' M]. pose proof (run_complete r _ _ (@Some st) M) as H.
    destruct (run r (St None s []) Some); [eauto|]. destruct H; [discriminate | reflexivity].
Qed.
Lemma seq_inv a b s s' : matches (RSeq a b) s s' -> exists s1, matches a s s1 /\ matches b s1 s'.
Proof. intros M. inv M. eauto. Qed.
Lemma alt_inv a b s s' : matches (RAlt a b) s s' -> matches a s s' \/ matches b s s'.
Proof. intros M. inv M; auto. Qed.
Lemma set_inv p s s' : matches (RSet p) s s' -> exists c, s_rest s = c :: s_rest s' /\ p c = true.
Proof. intros M. inv M. exists c. auto. Qed.
Lemma chr_inv x s s' : matches (RChr x) s s' -> s_rest s = x :: s_rest s'.
Proof. intros M. apply set_inv in M as (c & E & H). apply N.eqb_eq in H. subst c. exact E. Qed.
Lemma star_set_sound g p s s' : matches (RStar g (RSet p)) s s' ->
  exists u, s_rest s = u ++ s_rest s' /\ Forall (fun c => p c = true) u.
Proof.
  intros M. remember (RStar g (RSet p)) as r eqn:E. induction M; inv E.
  - exists []. auto.
  - apply set_inv in M1 as (c & E & Hc). destruct (IHM2 eq_refl) as (u & Hu & Fu).
    exists (c :: u). rewrite E, Hu. auto.
Qed.
Lemma star_set_complete g p u : forall s r, s_rest s = u ++ r -> Forall (fun c => p c = true) u ->
  exists s', matches (RStar g (RSet p)) s s' /\ s_rest s' = r.
Proof.
  induction u as [|c u IH]; intros s r E F.
  - exists s. split; [constructor | exact E].
  - inv F. destruct (IH (step c (u ++ r) s) r eq_refl H2) as (s' & M & Er).
    exists s'. split; [|exact Er]. eapply MStarS; [apply MSet; [exact E | assumption] | | exact M].
    rewrite E. change (length (u ++ r) < S (length (u ++ r)))%nat. apply Nat.lt_succ_diag_r.
Qed.
Lemma plus_sound p s s' : matches (RPlus true (RSet p)) s s' ->
  exists u, s_rest s = u ++ s_rest s' /\ u <> [] /\ Forall (fun c => p c = true) u.
Proof.
  intros M. apply seq_inv in M as (s1 & M1 & M2). apply set_inv in M1 as (c & Ec & Hc).
  apply star_set_sound in M2 as (u & E & F).
  exists (c :: u). rewrite Ec, E. repeat split; [discriminate | auto].
Qed.
Lemma plus_complete p u s r : s_rest s = u ++ r -> u <> [] -> Forall (fun c => p c = true) u ->
  exists s', matches (RPlus true (RSet p)) s s' /\ s_rest s' = r.
Proof.
  intros E N F. destruct u as [|c u]; [contradiction|]. inv F.
  destruct (star_set_complete true p u (step c (u ++ r) s) r eq_refl H2) as (s' & M & Er).
  exists s'. split; [|exact Er]. eapply MSeq; [apply MSet; [exact E | assumption] | exact M].
Qed.
Lemma hyphens_sound r a b : matches r a b ->
  r = RStar true (RSeq (RChr 45) (RPlus true (RSet is_ascii_alnum))) ->
  exists ws, s_rest a = flat_map (fun x => 45 :: x) ws ++ s_rest b /\ Forall word_of ws.
Proof.
  intros M. induction M; intros E; inv E.
  - exists []. auto.
  - apply seq_inv in M1 as (t & Mc & Mp). apply chr_inv in Mc.
    apply plus_sound in Mp as (w & Ew & Nw & Fw).
    destruct (IHM2 eq_refl) as (ws & Ews & Fws).
    exists (w :: ws). cbn [flat_map].
    rewrite Mc, Ew, Ews, <- !app_assoc. cbn [app]. split; [rewrite <- ?app_assoc; reflexivity|].
    constructor; [split; assumption | exact Fws].
Qed.
Lemma token_sound s s' : matches token_re s s' -> exists u, s_rest s = u ++ s_rest s' /\ token u.
Proof.
  intros M. apply seq_inv in M as (s1 & M1 & M2). apply plus_sound in M1 as (w & Ew & Nw & Fw).
  apply hyphens_sound in M2 as (ws & Ews & Fws); [|reflexivity].
  exists (w ++ flat_map (fun x => 45 :: x) ws). rewrite Ew, Ews, app_assoc. split; [reflexivity|].
  exists w, ws. repeat split; auto.
Qed.
Lemma hyphens_complete ws : forall s r, Forall word_of ws ->
  s_rest s = flat_map (fun x => 45 :: x) ws ++ r ->
  exists s', matches (RStar true (RSeq (RChr 45) (RPlus true (RSet is_ascii_alnum)))) s s' /\ s_rest s' = r.
Proof.
  induction ws as [|w ws IH]; intros s r F E.
  - exists s. split; [constructor | exact E].
  - inv F. destruct H1 as [Nw Fw]. cbn [flat_map] in E. rewrite <- app_assoc in E. cbn [app] in E.
    destruct (plus_complete is_ascii_alnum w (step 45 (w ++ flat_map (fun x => 45 :: x) ws ++ r) s)
                _ eq_refl Nw Fw) as (s1 & M1 & E1).
    destruct (IH s1 r H2 E1) as (s2 & M2 & E2).
    exists s2. split; [|exact E2]. eapply MStarS; [|  | exact M2].
    + eapply MSeq; [apply MSet; [rewrite E; reflexivity | reflexivity] | exact M1].
    + rewrite E, E1. cbn [length]. rewrite !app_length. lia.
Qed.
Lemma token_complete u s r : token u -> s_rest s = u ++ r ->
  exists s', matches token_re s s' /\ s_rest s' = r.
Proof.
  intros (w & ws & [Nw Fw] & Fws & ->) E. rewrite <- app_assoc in E.
  destruct (plus_complete is_ascii_alnum w s _ E Nw Fw) as (s1 & M1 & E1).
  destruct (hyphens_complete ws s1 r Fws E1) as (s2 & M2 & E2).
  exists s2. split; [eapply MSeq; eassumption | exact E2].
Qed.
Lemma token_head u : token u -> exists c t, u = c :: t /\ is_ascii_alnum c = true.
Proof.
  intros (w & ws & [Nw Fw] & _ & ->). destruct w as [|c w]; [contradiction|].
  inv Fw. exists c. eexists. split; [reflexivity | assumption].
Qed.
Lemma token_char c : is_ascii_alnum c = true -> token [c].
Proof.
  intros H. exists [c], []. repeat split; [discriminate | auto | constructor].
Qed.

Lemma valid_media v : valid_value KContentType v = true <-> media_like v.
Proof.
  unfold valid_value.
  assert (X : (exists x, re_match content_type_value_re v = Some x) <-> media_like v).
  { rewrite re_match_iff. split.
    - intros [s' M]. apply seq_inv in M as (s1 & M1 & M). apply seq_inv in M as (s2 & M2 & M3).
      apply chr_inv in M2.
      assert (T : exists t, v = t ++ s_rest s1 /\ (token t \/ t = star)).
      { apply alt_inv in M1 as [M1|M1].
        - apply token_sound in M1 as (u & E & T). exists u. auto.
        - apply chr_inv in M1. exists star. auto. }
      destruct T as (t & -> & T). rewrite M2.
      assert (C : exists c r, s_rest s2 = c :: r /\ (is_ascii_alnum c = true \/ c = 42)).
      { apply alt_inv in M3 as [M3|M3]; [|apply chr_inv in M3; eauto].
        apply seq_inv in M3 as (s3 & M3 & M4).
        assert (K : forall x y, matches token_re x y ->
                  exists c r, s_rest x = c :: r /\ is_ascii_alnum c = true).
        { intros x y M. apply token_sound in M as (u & E & T').
          apply token_head in T' as (c & r & -> & Hc). rewrite E. exists c. eexists. split; [reflexivity | exact Hc]. }
        apply alt_inv in M3 as [M3|M3].
        - apply seq_inv in M3 as (s4 & M3 & _). apply K in M3 as (c & r & E & H). eauto.
        - inv M3. apply seq_inv in M4 as (s4 & M4 & _). apply K in M4 as (c & r & E & H). eauto. }
      destruct C as (c & r & E & Hc). exists t, c, r. rewrite E. auto.
    - intros (t & c & rest & -> & T & C).
      assert (T1 : exists s1, matches (RAlt token_re (RChr 42)) (St None (t ++ [47] ++ c :: rest) []) s1
                              /\ s_rest s1 = 47 :: c :: rest).
      { destruct T as [T| ->].
        - destruct (token_complete t (St None (t ++ [47] ++ c :: rest) []) _ T eq_refl) as (s1 & M & E).
          exists s1. split; [apply MAltL; exact M | exact E].
        - eexists. split; [apply MAltR, MSet; reflexivity | reflexivity]. }
      destruct T1 as (s1 & M1 & E1).
      assert (M2 : matches (RChr 47) s1 (step 47 (c :: rest) s1)) by (apply MSet; [exact E1 | reflexivity]).
      assert (T3 : exists s3, matches (RAlt (RSeq (ROpt (RSeq token_re (RChr 46)))
              (RSeq token_re (ROpt (RSeq (RChr 43) token_re)))) (RChr 42)) (step 47 (c :: rest) s1) s3).
      { destruct C as [C| ->].
        - destruct (token_complete [c] (step 47 (c :: rest) s1) rest (token_char c C) eq_refl) as (s3 & M & E).
          exists s3. apply MAltL. eapply MSeq; [apply MAltR; constructor|].
          eapply MSeq; [exact M|]. apply MAltR. constructor.
        - eexists. apply MAltR, MSet; reflexivity. }
      destruct T3 as (s3 & M3). exists s3. eapply MSeq; [exact M1|]. eapply MSeq; eassumption. }
  destruct (re_match content_type_value_re v) as [x|]; split; intros H; try reflexivity; try discriminate.
  - apply X. eauto.
  - apply X in H as [x H]. discriminate.
Qed.
Lemma valid_plain k v : k <> KContentType -> (valid_value k v = true <-> plain_like v).
Proof.
  intros K. unfold valid_value. replace (match k with KContentType => content_type_value_re | _ => value_re end)
    with value_re by (destruct k; congruence).
  assert (X : (exists x, re_match value_re v = Some x) <-> plain_like v).
  { rewrite re_match_iff. split.
    - intros [s' M]. apply alt_inv in M as [M|M].
      + apply token_sound in M as (u & E & T). cbn [s_rest] in E.
        apply token_head in T as (c & r & -> & Hc). left. rewrite E. exists c. eexists. split; [reflexivity | exact Hc].
      + apply seq_inv in M as (s1 & M & M'). apply chr_inv in M. cbn [s_rest] in M. rewrite M.
        inv M'. right. destruct (s_rest s') as [|d [|? ?]]; cbn in H; [auto | | discriminate].
        apply N.eqb_eq in H. subst d. auto.
    - intros [(c & rest & -> & Hc)|[->| ->]].
      + destruct (token_complete [c] (St None (c :: rest) []) rest (token_char c Hc) eq_refl) as (s' & M & _).
        exists s'. apply MAltL. exact M.
      + eexists. apply MAltR. eapply MSeq; [apply MSet; reflexivity | apply MEnd; reflexivity].
      + eexists. apply MAltR. eapply MSeq; [apply MSet; reflexivity | apply MEnd; reflexivity]. }
  destruct (re_match value_re v) as [x|]; split; intros H; try reflexivity; try discriminate.
  - apply X. eauto.
  - apply X in H as [x H]. discriminate.
Qed.

(** ** Reading a header *)
Section reading.
  Variable float_of : str -> option fl.

  Lemma parse_quality k s rs r : parse_accept float_of k s = Ok rs -> In r rs ->
    exists q x, float_of q = Some x /\ rg_q r = clamp x.
  Proof.
    unfold parse_accept. generalize (split_on 44 s) as l. intros l. revert rs.
    induction l as [|t l IH]; intros rs; cbn [parse_ranges]; [intros [= <-] []|].
    destruct (split_accept_range t) as [[[v q] ps]|e]; cbn [bind fst snd]; [|discriminate].
    destruct (new_range float_of k v q ps) as [r0|e] eqn:E; cbn [bind]; [|discriminate].
    destruct (parse_ranges float_of k l) as [rs'|e]; cbn [bind]; [|discriminate].
    intros [= <-] [<-|Hi]; [|eauto].
    unfold new_range in E. destruct (valid_value k v); [|discriminate].
    destruct (float_of q) as [x|] eqn:F; [|discriminate].
    destruct (valid_params k ps); [|discriminate]. inv E. exists q, x. auto.
  Qed.
  Lemma clamp_nan x : clamp x = NaN -> x = NaN.
  Proof.
    intros H. destruct x as [| | |q]; [reflexivity|discriminate|discriminate|].
    pose proof (closest_within _ _ (clamp_closest (Fin q) ltac:(discriminate))) as (q' & E & _).
    congruence.
  Qed.
  Lemma parse_within k s rs r : parse_accept float_of k s = Ok rs -> In r rs ->
    rg_q r = NaN \/ within01 (rg_q r).
  Proof.
    intros H Hi. destruct (parse_quality _ _ _ _ H Hi) as (q & x & _ & ->).
    destruct x as [| | |y]; [left; reflexivity| | |];
      right; eapply closest_within, clamp_closest; discriminate.
  Qed.

  Lemma space_not c : is_space c = true -> c <> 44 /\ c <> 59 /\ c <> 61.
  Proof. intros H. repeat split; intros ->; discriminate. Qed.
  Lemma bare_strip s t : bare s -> written t s -> strip t = s.
  Proof.
    intros B W. apply ProofRange.written_strip; [exact W|].
    eapply Forall_impl; [|exact B]. intros c (H & _). exact H.
  Qed.
  Lemma written_free x s t : x = 44 \/ x = 59 \/ x = 61 -> ~ In x s -> written t s -> ~ In x t.
  Proof.
    intros Hx H (l & r & -> & Hl & Hr) F. rewrite Forall_forall in Hl, Hr.
    apply in_app_or in F as [F|F]; [apply Hl, space_not in F; intuition congruence|].
    apply in_app_or in F as [F|F]; [contradiction|]. apply Hr, space_not in F; intuition congruence.
  Qed.
  Lemma bare_free x s : x = 44 \/ x = 59 -> bare s -> ~ In x s.
  Proof.
    intros Hx B F. unfold bare in B. rewrite Forall_forall in B. apply B in F. intuition congruence.
  Qed.

  Lemma params_read pts : forall ps d,
    Forall2 (fun pt kv => exists kt wt, pt = kt ++ [61] ++ wt /\
               written kt (fst kv) /\ written wt (snd kv)) pts ps ->
    Forall (fun kv => bare (fst kv) /\ ~ In 61 (fst kv) /\ bare (snd kv)) ps ->
    NoDup (map fst (d ++ ps)) ->
    accept_params pts d = Ok (d ++ ps).
  Proof.
    induction pts as [|pt pts IH]; intros ps d F B N; inv F.
    - cbn. rewrite app_nil_r. reflexivity.
    - destruct y as [k v]. destruct H1 as (kt & wt & -> & Wk & Wv). cbn [fst snd] in *.
      inv B. destruct H1 as (Bk & Nk & Bv). cbn [fst snd] in *.
      cbn [accept_params app].
      rewrite split1_app by (apply (written_free 61 k kt); auto).
      rewrite (bare_strip _ _ Bk Wk), (bare_strip _ _ Bv Wv).
      rewrite dset_notin.
      2:{ rewrite map_app in N. cbn [map fst] in N. apply NoDup_remove_2 in N.
          apply dget_none. intros F. apply N. apply in_or_app. left. exact F. }
      rewrite (IH l' (d ++ [(k, v)]) H3 H2); rewrite <- app_assoc; [reflexivity | exact N].
  Qed.

  Lemma item_read t it : item_written t it -> item_ok it ->
    exists q, q_text it q /\
      split_accept_range t = Ok (i_value it, q, filter (fun kv => negb (eqs (lit "q") (fst kv))) (i_params it))
      /\ ~ In 44 t.
  Proof.
    intros (vt & pts & -> & Wv & F) (Bv & Bp & N).
    assert (Fr : forall x, x = 44 \/ x = 59 -> Forall (fun p => ~ In x p) (vt :: pts)).
    { intros x Hx. constructor.
      - apply (written_free x (i_value it)); [tauto | apply bare_free; assumption | exact Wv].
      - clear N. revert F Bp. generalize (i_params it) as ps. induction pts as [|p pts IH]; intros ps F Bp; inv F; [constructor|].
        inv Bp. constructor; [|eapply IH; eassumption].
        destruct y as [k v]. destruct H1 as (kt & wt & -> & Wk & Ww). destruct H2 as (Bk & Nk & Bw). cbn [fst snd] in *.
        intros G. apply in_app_or in G as [G|[G|G]].
        + revert G. apply (written_free x k); [tauto | apply bare_free; assumption | exact Wk].
        + lia.
        + revert G. apply (written_free x v); [tauto | apply bare_free; assumption | exact Ww]. }
    unfold split_accept_range.
    rewrite ProofRange.join_split_items by (try discriminate; apply Fr; auto).
    rewrite (params_read pts (i_params it) [] F Bp N). cbn [bind app].
    rewrite (bare_strip _ _ Bv Wv).
    eexists. split; [|split; [reflexivity|]].
    - unfold q_text. destruct (dget (i_params it) (lit "q")) as [q|] eqn:E.
      + left. apply dget_In. exact E.
      + right. split; [apply dget_none; exact E | reflexivity].
    - intros G. specialize (Fr 44 (or_introl eq_refl)).
      clear -G Fr. induction (vt :: pts) as [|a [|b l] IH]; cbn [join] in G; [contradiction| |].
      + inv Fr. contradiction.
      + inv Fr. apply in_app_or in G as [G|G]; [contradiction|].
        apply in_app_or in G as [G|G]; [|apply IH; assumption].
        destruct G as [G|[]]; discriminate.
  Qed.

  Lemma header_read h its : header_written h its -> Forall item_ok its ->
    Forall (fun it => media_like (i_value it)) its ->
    (forall it q, In it its -> q_text it q -> float_of q <> None) ->
    exists rs, parse_accept float_of KContentType h = Ok rs /\
      Forall2 (fun it r => rg_value r = i_value it /\
                 rg_params r = filter (fun kv => negb (eqs (lit "q") (fst kv))) (i_params it) /\
                 exists q x, q_text it q /\ float_of q = Some x /\ rg_q r = clamp x) its rs.
  Proof.
    intros (ts & Ne & -> & F) Ok' Med Fl. unfold parse_accept.
    assert (Ft : Forall (fun t => ~ In 44 t) ts).
    { clear -float_of F Ok'. induction F; [constructor|]. inv Ok'. constructor; [|auto].
      destruct (item_read x y H H2) as (q & _ & _ & H'). exact H'. }
    rewrite ProofRange.join_split_items; [|intros ->; inv F; contradiction | exact Ft].
    clear Ft Ne. revert Ok' Med Fl. induction F as [|t it ts its Hw F IH]; intros Ok' Med Fl.
    - exists []. auto.
    - inv Ok'. inv Med. destruct (item_read t it Hw H1) as (q & Hq & E & _).
      destruct IH as (rs & Ers & Frs); auto.
      { intros it' q' Hi. apply Fl. right. exact Hi. }
      cbn [parse_ranges]. rewrite E. cbn [bind fst snd]. unfold new_range.
      rewrite (proj2 (valid_media _) H3).
      pose proof (Fl it q (or_introl eq_refl) Hq) as Nx.
      destruct (float_of q) as [x|] eqn:Ex; [|contradiction].
      cbn [valid_params bind]. rewrite Ers. cbn [bind].
      eexists. split; [reflexivity|]. constructor; [|exact Frs].
      cbn [rg_value rg_params rg_q]. split; [reflexivity|]. split; [reflexivity|].
      exists q, x. auto.
  Qed.
  Lemma header_read_closest h its : header_written h its -> Forall item_ok its ->
    Forall (fun it => media_like (i_value it)) its ->
    (forall it q, In it its -> q_text it q -> exists x, float_of q = Some x /\ x <> NaN) ->
    exists rs, parse_accept float_of KContentType h = Ok rs /\
      Forall2 (fun it r => rg_value r = i_value it /\
                 rg_params r = filter (fun kv => negb (eqs (lit "q") (fst kv))) (i_params it) /\
                 exists q x, q_text it q /\ float_of q = Some x /\ closest x (rg_q r)) its rs.
  Proof.
    intros A B C D. destruct (header_read h its A B C) as (rs & E & F).
    { intros it q Hi Hq. destruct (D it q Hi Hq) as (x & -> & _). discriminate. }
    exists rs. split; [exact E|]. clear E A B C. induction F as [|it r its' rs' H F IH]; [constructor|].
    constructor; [|apply IH; intros it' q Hi; apply D; right; exact Hi].
    destruct H as (H1 & H2 & q & x & Hq & Hx & Hr). split; [exact H1|]. split; [exact H2|].
    exists q, x. split; [exact Hq|]. split; [exact Hx|]. rewrite Hr.
    destruct (D it q (or_introl eq_refl) Hq) as (x' & Ex & Nx).
    apply clamp_closest. congruence.
  Qed.
End reading.
