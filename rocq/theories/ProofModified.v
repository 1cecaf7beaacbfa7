(** * Lemmas about is_resource_modified with datetimes and texts *)
From Coq Require Import Arith List NArith ZArith Bool Lia ZifyBool ZifyN ZifyNat.
From Verif Require Import PyStr PyStrFacts ModelEtag SpecEtag ProofEtag ModelDate SpecDate ProofDate ModelMirror SpecMirror ProofMirror ModelModified.
Import ListNotations.
Open Scope N_scope.

(** What is known of the last modification *)
Definition as_micros (l : option last_mod) : option Z :=
  match l with
  | None => None
  | Some (LText s) => date_micros s
  | Some (LMoment m) => Some (seconds (m_date m) * 1000000 + m_micros m)%Z
  end.
Definition naive (l : option last_mod) : Prop := forall m, l = Some (LMoment m) -> m_offset m = None /\ (0 <= m_micros m < 1000000)%Z.

Lemma parse_none : parse_date None = Ok None. Proof. reflexivity. Qed.
Lemma whole_micros s u : (0 <= u < 1000000)%Z -> whole_second (s * 1000000 + u) = (s * 1000000)%Z.
Proof. intros H. unfold whole_second. rewrite Z.add_comm, Z.mod_add by lia. rewrite Z.mod_small by lia. lia. Qed.
Lemma bridge md5 fuel env etag data l : naive l ->
  resource_modified md5 fuel env etag data l = is_resource_modified date_micros md5 fuel env etag data (as_micros l).
Proof.
  intros Nv. unfold resource_modified, is_resource_modified.
  assert (E : (do modified <- match l with
                         | Some (LText s) => do d <- parse_date (Some s); Ok (option_map (fun d => Moment d 0 None) d)
                         | Some (LMoment m) => Ok (Some m)
                         | None => Ok None
                         end;
          do since <- parse_date (ce_ims env);
          match since, option_map whole modified with
          | Some s, Some m => moment_le m (Moment s 0 None)
          | _, _ => Ok false
          end) = Ok (match match ce_ims env with None => None | Some h => date_micros h end, as_micros l with
          | Some s, Some m => (whole_second m <=? s)%Z
          | _, _ => false
          end)).
  { assert (S : exists r, parse_date (ce_ims env) = Ok r /\
        match ce_ims env with None => None | Some h => date_micros h end = option_map (fun d => seconds d * 1000000)%Z r).
    { destruct (ce_ims env) as [h|].
      - destruct (parse_date_total (Some h)) as (r & Er & _). exists r. split; [exact Er|]. unfold date_micros. rewrite Er. destruct r; reflexivity.
      - exists None. split; reflexivity. }
    destruct S as (r & -> & ->).
    destruct l as [[s|m]|]; cbn [as_micros bind].
    - unfold date_micros. destruct (parse_date_total (Some s)) as (d & -> & _). cbn [bind].
      destruct r as [r|], d as [d|]; cbn [option_map bind]; try reflexivity.
      unfold moment_le, whole. cbn [m_date m_micros m_offset]. f_equal.
      rewrite <- (Z.add_0_r (seconds d * 1000000)), whole_micros by lia. rewrite !Z.add_0_r. reflexivity.
    - destruct (Nv m eq_refl) as [Ho Hu]. destruct r as [r|]; cbn [option_map bind]; [|reflexivity].
      unfold moment_le, whole. cbn [m_date m_micros m_offset]. rewrite Ho. f_equal.
      rewrite whole_micros by exact Hu. rewrite !Z.add_0_r. reflexivity.
    - destruct r; reflexivity. }
  rewrite E. destruct etag, data; reflexivity.
Qed.
Lemma aware_raises md5 fuel env etag m off h since : get_or_head (ce_method env) ->
  m_offset m = Some off -> ce_ims env = Some h -> parse_date (Some h) = Ok (Some since) ->
  resource_modified md5 fuel env etag None (Some (LMoment m)) = Some (Raise TypeError).
Proof.
  intros G O I P. unfold resource_modified. rewrite (proj2 (method_get _) G). cbn [negb]. rewrite I, P. cbn [bind option_map].
  unfold moment_le, whole. cbn [m_offset m_date m_micros]. rewrite O. destruct etag; reflexivity.
Qed.
Lemma aware_silent md5 fuel env etag data m :
  parse_date (ce_ims env) = Ok None ->
  resource_modified md5 fuel env etag data (Some (LMoment m)) = resource_modified md5 fuel env etag data None.
Proof. intros P. unfold resource_modified. rewrite P. cbn [bind option_map]. reflexivity. Qed.
Lemma ordered md5 fuel env etag d u h since m s : get_or_head (ce_method env) ->
  (ce_inm env = None \/ ce_inm env = Some [] \/ etag = None) ->
  ce_ims env = Some h -> dated h since -> real_date since -> (100 <= dt_year since)%Z -> instant since s ->
  real_date d -> instant d m -> (0 <= u < 1000000)%Z ->
  exists b, resource_modified md5 fuel env etag None (Some (LMoment (Moment d u None))) = Some (Ok b) /\ (b = false <-> (m <= s)%Z).
Proof.
  intros G Nn I D R Y Is Rd Im U. rewrite bridge.
  2: { intros m0 H. injection H as <-. cbn. auto. }
  destruct (decision_date date_micros md5 fuel env etag (as_micros (Some (LMoment (Moment d u None)))) G Nn) as (b & E & B).
  exists b. split; [exact E|]. rewrite B. pose proof (date_micros_dated h since s R Y D Is) as Dm.
  apply (real_instant d m Rd) in Im. cbn [as_micros m_date m_micros] in *. rewrite Im in *. split.
  - intros (h' & x & y & H1 & H2 & H3 & H4). rewrite I in H1. injection H1 as <-. rewrite Dm in H2. injection H2 as <-. injection H3 as <-.
    rewrite Z.div_add_l, Z.div_small in H4 by lia. lia.
  - intros H. exists h, ((s + 86400) * 1000000)%Z, ((m + 86400) * 1000000 + u)%Z. repeat split; auto.
    rewrite Z.div_add_l, Z.div_small by lia. lia.
Qed.
Lemma raises_exact md5 fuel env etag l :
  (exists e, resource_modified md5 fuel env etag None l = Some (Raise e)) <->
  get_or_head (ce_method env) /\ exists m off h since, l = Some (LMoment m) /\ m_offset m = Some off /\
    ce_ims env = Some h /\ parse_date (Some h) = Ok (Some since).
Proof.
  split.
  - intros (e & H). unfold resource_modified in H.
    destruct (eqs (ce_method env) (lit "GET") || eqs (ce_method env) (lit "HEAD")) eqn:G; [|destruct etag; discriminate H].
    apply method_get in G. split; [exact G|]. cbn [negb] in H.
    destruct (parse_date_total (ce_ims env)) as (r & Er & _). rewrite Er in H.
    assert (T : forall u, match match etag with Some t => Some t | None => option_map md5 None end with
            | Some (c :: t) =>
                match ce_inm env with
                | None => Some (Ok (negb u))
                | Some h =>
                    match parse_etags fuel h with
                    | None => None
                    | Some e =>
                        if et_bool e then Some (Ok (negb (et_contains_raw e (c :: t))))
                        else Some (Ok (negb u))
                    end
                end
            | _ => Some (Ok (negb u))
            end <> Some (Raise e)).
    { intros u. destruct etag as [[|c t]|]; cbn [option_map]; try discriminate. destruct (ce_inm env) as [q|]; [|discriminate].
      destruct (parse_etags fuel q) as [x|]; [|discriminate]. destruct (et_bool x); discriminate. }
    destruct l as [[s|m]|]; cbn [bind] in H.
    + destruct (parse_date_total (Some s)) as (d & Ed & _). rewrite Ed in H. cbn [bind] in H.
      exfalso. destruct r as [r|], d as [d|]; cbn [option_map moment_le whole m_offset] in H; destruct etag; exact (T _ H).
    + destruct r as [r|].
      2: { exfalso. cbn [option_map] in H. destruct etag; exact (T _ H). }
      cbn [option_map] in H. unfold moment_le, whole in H. cbn [m_offset] in H. destruct (m_offset m) as [off|] eqn:O.
      * destruct (ce_ims env) as [h|] eqn:I; [|discriminate Er]. exists m, off, h, r. auto.
      * exfalso. destruct etag; exact (T _ H).
    + exfalso. destruct r; cbn [option_map] in H; destruct etag; exact (T _ H).
  - intros (G & m & off & h & since & -> & O & I & P). exists TypeError. eapply aware_raises; eassumption.
Qed.
