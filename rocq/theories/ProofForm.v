(** Proofs about the form and files of a test request (C115). *)
From Coq Require Import Arith List NArith ZArith Bool Lia ZifyBool ZifyN ZifyNat.
From Verif Require Import PyStr PyStrFacts Utf8 Utf8Facts ModelUrls SpecUrls ProofUrls ProofIri ModelHeaders SpecHeaders ProofHeaders ProofUtils ModelMultiDict ModelCombined
  ModelStream SpecStream ModelWsgi ModelRequest SpecRequest ProofRequest ModelTest SpecTest ProofTest ProofBuilder ProofEnviron SpecForm.
From Verif Require ProofMultiDict ProofCallback ProofResponse ProofCombined SpecCombined.
Import ListNotations.
Open Scope N_scope.
Ltac inv H := inversion H; subst; clear H.
Notation sdec := (list_eq_dec N.eq_dec).

(** ** Multi dicts made by adding *)
Section adds.
  Context {A : Type}.
  Implicit Types (l : list (str * A)) (d : mdict A).
  Lemma values_cons k v l k' : values_of ((k, v) :: l) k' = if sdec k k' then v :: values_of l k' else values_of l k'.
  Proof. unfold values_of. cbn [filter fst]. destruct (sdec k k'); reflexivity. Qed.
  Lemma firsts_seen l : forall seen kv, In kv (firsts seen l) -> ~ In (fst kv) seen /\ In kv l.
  Proof.
    induction l as [|[k v] l IH]; intros seen kv; cbn [firsts]; [intros []|].
    destruct (in_dec sdec k seen) as [I|I].
    - intros H. apply IH in H as [H1 H2]. split; auto. right. auto.
    - intros [<-|H]; [split; [auto|left; auto]|]. apply IH in H as [H1 H2]. cbn [In] in H1. split; [tauto|right; auto].
  Qed.
  Lemma firsts_ext l : forall s1 s2, (forall k, In k s1 <-> In k s2) -> firsts s1 l = firsts s2 l.
  Proof.
    induction l as [|[k v] l IH]; intros s1 s2 E; [reflexivity|]. cbn [firsts].
    destruct (in_dec sdec k s1) as [I|I], (in_dec sdec k s2) as [J|J]; try (apply E in I; contradiction); try (apply E in J; contradiction).
    - apply IH; auto.
    - f_equal. apply IH. intros x. cbn [In]. rewrite E. tauto.
  Qed.
  Lemma adds_shape l : forall d, NoDup (map fst d) ->
    m_adds d l = map (fun kl => (fst kl, snd kl ++ values_of l (fst kl))) d
                 ++ map (fun kv => (fst kv, values_of l (fst kv))) (firsts (map fst d) l).
  Proof.
    induction l as [|[k v] l IH]; intros d Hd.
    - unfold values_of. cbn. rewrite app_nil_r. rewrite <- (map_id d) at 1. apply map_ext. intros [a b]. cbn. rewrite app_nil_r. reflexivity.
    - change (m_adds d ((k, v) :: l)) with (m_adds (m_add d k v) l). rewrite IH by (apply ProofMultiDict.m_add_nodup; auto).
      cbn [firsts]. unfold m_add. destruct (dget d k) as [vs|] eqn:G.
      + assert (K : In k (map fst d)) by (apply dget_In in G; apply in_map_iff; exists (k, vs); auto).
        rewrite ProofMultiDict.dset_keys'. destruct (in_dec sdec k (map fst d)) as [_|]; [|contradiction].
        f_equal.
        * clear IH. revert G Hd. induction d as [|[k0 l0] d IH]; [discriminate|]. cbn [dget dset]. intros G Hd.
          destruct (eqs k k0) eqn:E.
          { apply eqs_eq in E. subst k0. inv G. cbn [map fst snd]. f_equal.
            - rewrite values_cons. destruct (sdec k k); [|congruence]. rewrite <- app_assoc. reflexivity.
            - inv Hd. apply map_ext_in. intros [k' l'] I. cbn [fst snd]. rewrite values_cons. destruct (sdec k k') as [->|]; [|reflexivity].
              exfalso. apply H1. apply in_map_iff. exists (k', l'). auto. }
          { cbn [map fst snd]. rewrite values_cons. destruct (sdec k k0) as [->|]; [rewrite eqs_refl in E; discriminate|].
            f_equal. inv Hd. cbn [map] in K. destruct K as [K|K]; [cbn [fst] in K; congruence|]. auto. }
        * apply map_ext_in. intros [k' v'] I. cbn [fst]. apply firsts_seen in I as [I _]. rewrite values_cons.
          destruct (sdec k k') as [->|]; [contradiction|reflexivity].
      + apply dget_none in G. assert (NI : ~ In k (map fst d)) by exact G.
        rewrite ProofMultiDict.dset_keys'. destruct (in_dec sdec k (map fst d)) as [|_]; [contradiction|].
        assert (D : dset d k [v] = d ++ [(k, [v])]).
        { clear - NI. induction d as [|[k0 l0] d IH]; [reflexivity|]. cbn [dset]. destruct (eqs k k0) eqn:E.
          - apply eqs_eq in E. subst. exfalso. apply NI. left. reflexivity.
          - cbn [app]. f_equal. apply IH. intros X. apply NI. right. exact X. }
        rewrite D, map_app. cbn [map fst snd]. rewrite <- app_assoc. cbn [app]. f_equal; [|f_equal].
        * apply map_ext_in. intros [k' l'] I. cbn [fst snd]. rewrite values_cons. destruct (sdec k k') as [->|]; [|reflexivity].
          exfalso. apply NI. apply in_map_iff. exists (k', l'). auto.
        * rewrite values_cons. destruct (sdec k k); [reflexivity|congruence].
        * rewrite (firsts_ext l (map fst d ++ [k]) (k :: map fst d)) by (intros x; rewrite in_app_iff; cbn; tauto).
          apply map_ext_in. intros [k' v'] I. cbn [fst]. apply firsts_seen in I as [I _]. rewrite values_cons.
          destruct (sdec k k') as [->|]; [|reflexivity]. exfalso. apply I. left. reflexivity.
  Qed.
  Lemma adds_nil l : m_adds [] l = map (fun kv => (fst kv, values_of l (fst kv))) (firsts [] l).
  Proof. rewrite adds_shape by constructor. reflexivity. Qed.
  Lemma values_first l : forall seen kv, In kv (firsts seen l) -> exists r, values_of l (fst kv) = snd kv :: r.
  Proof.
    induction l as [|[k v] l IH]; intros seen kv; cbn [firsts]; [intros []|]. rewrite values_cons.
    destruct (in_dec sdec k seen) as [I|I].
    - intros H. pose proof (firsts_seen _ _ _ H) as [N _]. destruct (sdec k (fst kv)) as [->|]; [contradiction|]. eauto.
    - intros [<-|H]; cbn [fst snd].
      + destruct (sdec k k); [eauto|congruence].
      + pose proof (firsts_seen _ _ _ H) as [N _]. destruct (sdec k (fst kv)) as [->|]; [exfalso; apply N; left; reflexivity|]. eauto.
  Qed.
  Lemma adds_items l : m_items (m_adds [] l) = Ok (firsts [] l).
  Proof.
    rewrite adds_nil. unfold m_items. pose proof (values_first l []) as F. generalize dependent (firsts [] l). intros fs F.
    induction fs as [|[k v] fs IH]; [reflexivity|]. cbn [map traverse fst snd].
    destruct (F (k, v) (or_introl eq_refl)) as [r E]. cbn [fst snd] in E. rewrite E. cbn [first bind].
    rewrite IH by (intros kv H; apply F; right; auto). reflexivity.
  Qed.
  Lemma firsts_nil l : l <> [] -> firsts [] l <> [].
  Proof. destruct l as [|[k v] l]; [congruence|]. intros _. cbn. discriminate. Qed.
  Lemma firsts_nodup l : forall seen, NoDup (map fst (firsts seen l)).
  Proof.
    induction l as [|[k v] l IH]; intros seen; [constructor|]. cbn [firsts]. destruct (in_dec sdec k seen); [auto|].
    cbn [map fst]. constructor; [|auto]. intros H. apply in_map_iff in H as (kv & E & H). apply firsts_seen in H as [H _].
    apply H. left. auto.
  Qed.
  Lemma grouped_in l kv : In kv (grouped l) -> In kv l.
  Proof.
    unfold grouped. rewrite in_flat_map. intros (x & _ & H). apply in_map_iff in H as (v & <- & H).
    unfold values_of in H. apply in_map_iff in H as ([k v'] & <- & H). apply filter_In in H as [H E]. cbn [fst snd] in *.
    destruct (sdec k (fst x)) as [<-|]; [exact H|discriminate].
  Qed.
End adds.

Section form.
  Variable guess : str -> option str.
  Variables (idna_part : str -> res str) (ip_ok nfkc_ok : str -> bool).
  Notation create := (create_environ guess idna_part ip_ok nfkc_ok).
  Notation newb := (new_builder guess idna_part ip_ok nfkc_ok).

  (** ** The builder *)
  Definition to_fval (v : dvalue) : fval := match v with DText s => FText s | DBytes b => FBytes b | _ => FText [] end.
  Definition to_fields (l : list (str * dvalue)) : list (str * fval) := map (fun kv => (fst kv, to_fval (snd kv))) l.
  Lemma texts_added l : Forall (fun kv => is_field (snd kv)) l -> forall b, b_input b = None ->
    exists b', add_fields guess b l = Ok b' /\ b_input b' = None /\ b_files b' = b_files b /\ b_headers b' = b_headers b /\
      (l <> [] -> b_form b' = Some (m_adds (or_empty (b_form b)) (to_fields l))) /\ (l = [] -> b' = b).
  Proof.
    induction 1 as [|[k v] l Hv Hl IH]; intros b Hb; [exists b; cbn; repeat split; auto; congruence|].
    cbn [snd] in Hv. set (b1 := set_form b (Some (m_add (or_empty (b_form b)) k (to_fval v)))).
    assert (E : add_field guess b k v = Ok b1).
    { unfold b1. destruct v; try contradiction; cbn [add_field]; unfold get_form; rewrite Hb; destruct (b_form b); reflexivity. }
    destruct (IH b1 eq_refl) as (b' & A & B & C & D & F & G). exists b'. cbn [add_fields]. rewrite E. cbn [bind].
    split; [exact A|]. split; [exact B|]. split; [rewrite C; reflexivity|]. split; [rewrite D; reflexivity|]. split; [intros _|discriminate].
    destruct l as [|kv l]; [rewrite (G eq_refl); reflexivity|]. rewrite F by discriminate. reflexivity.
  Qed.
  Lemma upload_added d k v f : uploads guess v f ->
    match v with
    | DUpload u => add_file guess d k u None None
    | DTuple u n t => add_file guess d k u n t
    | _ => Raise TypeError
    end = match v with
          | DUpload (UFile _ _) | DTuple (UFile _ _) _ _ => if validate_value (match f_ctype f with Some t => t | None => [] end) then Ok (m_add d k f) else Raise ValueError
          | _ => Ok (m_add d k f)
          end.
  Proof.
    intros H. destruct H; cbn [add_file f_ctype]; auto; unfold storage_name; auto.
    - destruct n as [|c n]; [congruence|]. rewrite H0. reflexivity.
    - destruct n as [|c n]; [reflexivity|]. destruct H as [H|H]; [discriminate|]. rewrite H. reflexivity.
  Qed.
  Lemma files_added l fl : all_uploads guess l fl -> forall b b', b_input b = None -> add_fields guess b l = Ok b' ->
    b_input b' = None /\ b_form b' = b_form b /\ b_headers b' = b_headers b /\
    (l <> [] -> b_files b' = Some (m_adds (or_empty (b_files b)) fl)) /\ (l = [] -> b' = b).
  Proof.
    induction 1 as [|[k v] [k' f] l fl [Hk Hv] Hl IH]; intros b b' Hb H.
    { cbn in H. inv H. repeat split; auto; congruence. }
    cbn [fst snd] in *. subst k'. cbn [add_fields] in H. destruct (add_field guess b k v) as [b1|] eqn:E; cbn [bind] in H; [|discriminate].
    assert (E' : b1 = set_files b (Some (m_add (or_empty (b_files b)) k f))).
    { pose proof (upload_added (or_empty (b_files b)) k v f Hv) as U. destruct v as [| |u|u n t]; try (inversion Hv; fail); cbn [add_field] in E;
        unfold get_files in E; rewrite Hb in E; destruct (b_files b) as [d|] eqn:Ef; cbn [or_empty bind] in U, E |- *; rewrite U in E;
        destruct u; try destruct (validate_value _); cbn [bind] in E; inv E; reflexivity. }
    subst b1. destruct (IH (set_files b (Some (m_add (or_empty (b_files b)) k f))) b' eq_refl H) as (B & C & D & F & G).
    split; [exact B|]. split; [rewrite C; reflexivity|]. split; [rewrite D; reflexivity|]. split; [intros _|discriminate].
    destruct l as [|kv l]; [inv Hl; rewrite (G eq_refl); reflexivity|]. rewrite F by discriminate. reflexivity.
  Qed.
  Lemma file_type_given v f : uploads guess v f -> match v with
      | DUpload (UFile _ _) | DTuple (UFile _ _) _ _ => exists t, f_ctype f = Some t /\ file_type guess f = t | _ => True end.
  Proof. intros H. destruct H; auto; eexists; split; reflexivity. Qed.
  Lemma files_addable l fl : all_uploads guess l fl -> Forall (fun kf => one_header_line (file_type guess (snd kf))) fl ->
    forall b, b_input b = None -> exists b', add_fields guess b l = Ok b'.
  Proof.
    induction 1 as [|[k v] [k' f] l fl [Hk Hv] Hl IH]; intros S b Hb; [cbn; eauto|].
    cbn [fst snd] in *. subst k'. inv S. cbn [snd] in H1. cbn [add_fields].
    assert (E : add_field guess b k v = Ok (set_files b (Some (m_add (or_empty (b_files b)) k f)))).
    { pose proof (upload_added (or_empty (b_files b)) k v f Hv) as U. pose proof (file_type_given v f Hv) as T.
      destruct v as [| |u|u n t]; try (inversion Hv; fail); cbn [add_field]; unfold get_files; rewrite Hb;
        destruct (b_files b) as [d|] eqn:Ef; cbn [or_empty bind] in U |- *; rewrite U; destruct u; try reflexivity;
        destruct T as (ty & -> & T); rewrite T in H1;
        (assert (V : validate_value ty = true) by (apply validate_spec; destruct H1; split; auto));
        rewrite V; reflexivity. }
    rewrite E. cbn [bind]. apply IH; auto.
  Qed.

  Lemma fields_builder a b l : newb a = Ok b -> carries_fields a l ->
    exists b1, add_fields guess b1 l = Ok b /\ b_input b1 = None /\ b_form b1 = None /\ b_files b1 = None /\
      (untyped a -> h_get (b_headers b1) (lit "Content-Type") = None) /\
      (forall t, a_content_type a = Some t -> h_get (b_headers b1) (lit "Content-Type") = Some t).
  Proof.
    intros H (Hi & Hd & Hl). apply new_builder_inv in H as (uri & scheme & host & script & b0 & b1 & _ & _ & E2 & E3 & E4 & E5).
    rewrite Hi, Hd in E5. cbn [add_data] in E5. destruct l as [|kv l]; [congruence|]. exists b1. split; [exact E5|].
    assert (P : b_input b1 = None /\ b_form b1 = None /\ b_files b1 = None).
    { destruct (a_content_type a) as [t|].
      - destruct (set_content_type b0 (Some t)) as [b'|] eqn:Et; cbn [bind] in E4; [|discriminate].
        apply same_set_type in Et as (_ & T1 & T2 & T3). apply same_set_length in E4 as (_ & L1 & L2 & L3).
        rewrite L1, L2, L3, T1, T2, T3, E3. cbn. auto.
      - cbn [bind] in E4. apply same_set_length in E4 as (_ & L1 & L2 & L3). rewrite L1, L2, L3, E3. cbn. auto. }
    destruct P as (P1 & P2 & P3). split; [exact P1|]. split; [exact P2|]. split; [exact P3|].
    assert (L : forall b b', set_content_length b (a_content_length a) = Ok b' -> h_get (b_headers b') (lit "Content-Type") = h_get (b_headers b) (lit "Content-Type")).
    { intros x y. unfold set_content_length. destruct (a_content_length a) as [n|].
      - destruct (h_set _ _ _ _) as [h|] eqn:S; cbn [bind]; [|discriminate]. intros Q. inv Q. cbn [b_headers set_headers].
        apply h_set_get in S as [_ S]. rewrite !ProofResponse.h_get_getlist, S; auto. intros Q; vm_compute in Q; discriminate.
      - unfold h_pop_name. destruct (h_getitem (b_headers x) (lit "Content-Length")) as [v|e]; cbn [bind]; intros Q; inv Q; cbn [b_headers set_headers]; [|reflexivity].
        rewrite !ProofResponse.h_get_getlist. rewrite ProofCallback.getlist_remove. reflexivity. }
    split.
    - intros [U1 U2]. rewrite U1 in E4. cbn [bind] in E4. rewrite (L _ _ E4).
      assert (h_getitem (b_headers b0) (lit "Content-Type") = Raise KeyError) as K; [|unfold h_get; rewrite K; auto].
      apply getitem_missing. apply Forall_forall. intros [k v] X. cbn [fst]. eapply extend_names in X; eauto.
      cbn [map In] in X. destruct X as [[]|X]. apply in_map_iff in X as ([k' v2] & E & X2). cbn [fst] in E. subst k'. eauto.
    - intros t T. rewrite T in E4. destruct (set_content_type b0 (Some t)) as [b'|] eqn:Et; cbn [bind] in E4; [|discriminate].
      rewrite (L _ _ E4). unfold set_content_type in Et. destruct (h_set _ _ _ _) as [h|] eqn:S; cbn [bind] in Et; [|discriminate]. inv Et.
      cbn [b_headers set_headers]. apply h_set_get in S as [S _]. rewrite ProofResponse.h_get_getlist, S; [reflexivity|]. reflexivity.
  Qed.

  (** ** The environ *)
  Lemma environ_body boundary a e u : create boundary a = Ok (e, u) -> a_overrides a = [] ->
    exists b input len ctype, newb a = Ok b /\ request_body guess boundary b = Ok (input, len, ctype) /\ u = fresh input [] /\
      dget e (lit "CONTENT_TYPE") = Some (match ctype with Some t => t | None => [] end) /\ dget e (lit "CONTENT_LENGTH") = Some (length_text len).
  Proof.
    unfold create_environ. intros H Hov. destruct (newb a) as [b|] eqn:Eb; cbn [bind] in H; [|discriminate].
    destruct (new_builder_same _ _ _ _ _ _ Eb) as (_ & _ & _ & _ & _ & _ & _ & _ & _ & _ & _ & _ & _ & _ & B9).
    apply get_environ_inv in H as (input & len & ctype & q & qs & ws & wp & port & G1 & G2 & G3 & G4 & G5 & G6 & -> & ->).
    rewrite B9, Hov. match goal with |- context [d_update ?x []] => change (d_update x []) with x end.
    exists b, input, len, ctype. split; [reflexivity|]. split; [exact G1|]. split; [reflexivity|].
    split; apply (env_var guess idna_part ip_ok nfkc_ok); try reflexivity; unfold base_vars; cbn [In].
    - do 8 right. left. reflexivity.
    - do 9 right. left. reflexivity.
  Qed.
  Lemma readable e body : dget e (lit "CONTENT_LENGTH") = Some (zdec (Z.of_nat (length body))) ->
    forall cache, exists st, get_data e false cache false (new_request false (fresh body [])) = (Ok body, st).
  Proof.
    intros L cache.
    assert (G : get_content_length e = Some (Z.of_nat (length body))).
    { unfold get_content_length. rewrite L, py_int_zdec. cbn [option_map]. f_equal. lia. }
    destruct (plain_read e _ body cache G) as (d' & st & P & ->); [lia|]. exists st. unfold fresh in P |- *. rewrite P.
    f_equal. f_equal. rewrite Nat2Z.id. apply firstn_all.
  Qed.
  Lemma length_text_nat n : length_text (Some (Z.of_nat n)) = zdec (Z.of_nat n).
  Proof. destruct n; reflexivity. Qed.

  (** ** Texts *)
  Lemma value_quoted v w : is_field v -> match v with DBytes b => bytes_text b | _ => True end ->
    match to_fval v with FText s => urlquote_plus [] s | FBytes b => Ok (swap_c 32 43 (quote_bytes (lit " ") b)) end = Ok w ->
    exists b, value_bytes v b /\ ascii_text w /\ ~ In 38 w /\ percent_decodes (plus_as_space w) b.
  Proof.
    intros F Hb H. destruct v as [s|b| |]; try contradiction; cbn [to_fval] in H.
    - destruct (quoted_plus_form _ _ H) as [(A & b & D & E) _]. exists b. split; [constructor; exact E|]. split; [exact A|]. split; [|exact D].
      intros X. apply (quoted_plus_chars _ _ _ H) in X. lia.
    - injection H as <-. exists b. split; [constructor|].
      assert (C : forall c, In c (swap_c 32 43 (quote_bytes (lit " ") b)) -> c < 128 /\ c <> 38).
      { intros c Hc. apply in_map_iff in Hc as (x & <- & Hx). apply quote_bytes_chars in Hx; auto.
        rewrite quote_safe_spec in Hx. unfold unreserved in Hx. change (lit " ") with [32] in Hx. cbn [In] in Hx. destruct (N.eqb_spec x 32); lia. }
      split; [intros c Hc; apply C; auto|]. split; [intros X; apply C in X; lia|].
      change (swap_c 32 43 (quote_bytes (lit " ") b)) with (space_as_plus (quote_bytes [32] b)).
      rewrite plus_space; [apply quote_roundtrip; auto; cbn; lia|].
      intros Hx. apply quote_bytes_chars in Hx; auto. rewrite quote_safe_spec in Hx. unfold unreserved in Hx. cbn [In] in Hx. lia.
  Qed.
  Lemma firsts_map {A B} (f : A -> B) (l : list (str * A)) : forall seen,
    firsts seen (map (fun kv => (fst kv, f (snd kv))) l) = map (fun kv => (fst kv, f (snd kv))) (firsts seen l).
  Proof.
    induction l as [|[k v] l IH]; intros seen; [reflexivity|]. cbn [map firsts fst snd]. destruct (in_dec sdec k seen); [auto|].
    cbn [map fst snd]. f_equal. auto.
  Qed.
  Definition bytes_ok (kv : str * dvalue) : Prop := match snd kv with DBytes b => bytes_text b | _ => True end.
  Lemma form_means l body : Forall (fun kv => is_field (snd kv)) l -> Forall bytes_ok l ->
    form_urlencode (m_adds [] (to_fields l)) = Ok body ->
    exists raws, body = join [38] raws /\ Forall2 field_means raws (firsts [] l).
  Proof.
    intros F B. unfold form_urlencode. rewrite adds_items. cbn [bind]. unfold to_fields. rewrite firsts_map.
    assert (FB : Forall (fun kv => is_field (snd kv) /\ bytes_ok kv) (firsts [] l)).
    { apply Forall_forall. intros kv I. apply firsts_seen in I as [_ I]. rewrite Forall_forall in F, B. auto. }
    clear F B. revert FB. generalize (firsts [] l). clear l. intros l FB.
    destruct (traverse _ _) as [raws|] eqn:T; cbn [bind]; [|discriminate]. intros H. inv H. exists raws. split; [reflexivity|].
    revert raws T. induction FB as [|[k v] l [F B] _ IH]; intros raws T; cbn [map traverse fst snd] in T.
    - inv T. constructor.
    - destruct (urlquote_plus [] k) as [qk|] eqn:K; cbn [bind] in T; [|discriminate].
      destruct (match to_fval v with FText s => urlquote_plus [] s | FBytes b => Ok (swap_c 32 43 (quote_bytes (lit " ") b)) end) as [qv|] eqn:V; cbn [bind] in T; [|discriminate].
      destruct (traverse _ (map _ l)) as [rs|]; cbn [bind] in T; [|discriminate]. inv T.
      destruct (quoted_plus_form _ _ K) as [K1 _]. destruct (value_quoted _ _ F B V) as (b & V1 & V2 & V3 & V4).
      constructor; auto. econstructor; eauto; intros X; apply (quoted_plus_chars _ _ _ K) in X; lia.
  Qed.
  Lemma form_total l : Forall writable l -> exists body, form_urlencode (m_adds [] (to_fields l)) = Ok body.
  Proof.
    intros W. unfold form_urlencode. rewrite adds_items. cbn [bind]. unfold to_fields. rewrite firsts_map.
    assert (FB : Forall writable (firsts [] l)).
    { apply Forall_forall. intros kv I. apply firsts_seen in I as [_ I]. rewrite Forall_forall in W. auto. }
    revert FB. generalize (firsts [] l). clear l W. intros l FB.
    assert (Q : forall s, unicode_text s -> exists q, urlquote_plus [] s = Ok q).
    { intros s H. apply scalar_text in H. unfold urlquote_plus, utf8_encode. rewrite H. cbn [bind]. eauto. }
    match goal with |- context [traverse ?f ?x] => assert (T : exists r, traverse f x = Ok r) end.
    { induction FB as [|[k v] l [F B] _ IH]; cbn [map traverse fst snd]; [eauto|]. cbn [fst snd] in F, B.
      destruct (Q k F) as [qk ->]. cbn [bind].
      assert (V : exists w, match to_fval v with FText s => urlquote_plus [] s | FBytes b => Ok (swap_c 32 43 (quote_bytes (lit " ") b)) end = Ok w).
      { destruct v; cbn [to_fval]; eauto; apply Q; apply scalar_text; reflexivity. }
      destruct V as [w ->]. cbn [bind]. destruct IH as [r ->]. cbn [bind]. eauto. }
    destruct T as [r ->]. cbn [bind]. eauto.
  Qed.
  Lemma fields_content_type a b l : newb a = Ok b -> carries_fields a l -> untyped a -> Forall (fun kv => is_field (snd kv)) l ->
    b_input b = None /\ b_form b = Some (m_adds [] (to_fields l)) /\ b_files b = None /\ get_content_type b = Some (lit "application/x-www-form-urlencoded").
  Proof.
    intros H C U F. pose proof C as (_ & _ & Hl). destruct (fields_builder a b l H C) as (b1 & A & I & Fo & Fi & T & _).
    destruct (texts_added l F b1 I) as (b' & A' & I' & Fi' & Hh & Fo' & _). rewrite A in A'. inv A'. specialize (Fo' Hl). rewrite Fo in Fo'. cbn [or_empty] in Fo'.
    split; [exact I'|]. split; [exact Fo'|]. split; [rewrite Fi'; exact Fi|].
    unfold get_content_type. rewrite Hh, (T U), I', Fi', Fi, Fo'. rewrite adds_nil. unfold to_fields. rewrite firsts_map.
    destruct (firsts [] l) as [|x r] eqn:E; [exfalso; eapply firsts_nil; eauto|]. reflexivity.
  Qed.
  Lemma fields_spec boundary a e u l : create boundary a = Ok (e, u) -> a_overrides a = [] -> carries_fields a l -> untyped a ->
    Forall (fun kv => is_field (snd kv)) l -> Forall bytes_ok l ->
    exists raws, let body := join [38] raws in
      Forall2 field_means raws (firsts [] l) /\ u = fresh body [] /\
      dget e (lit "CONTENT_TYPE") = Some (lit "application/x-www-form-urlencoded") /\
      dget e (lit "CONTENT_LENGTH") = Some (zdec (Z.of_nat (length body))) /\
      forall cache, exists st, get_data e false cache false (new_request false u) = (Ok body, st).
  Proof.
    intros H Hov C U F B. destruct (environ_body _ _ _ _ H Hov) as (b & input & len & ctype & Nb & R & Hu & Ct & Cl).
    destruct (fields_content_type a b l Nb C U F) as (I & Fo & Fi & T).
    unfold request_body in R. rewrite I, T in R. cbn [eqs] in R.
    change (eqs (lit "application/x-www-form-urlencoded") (lit "multipart/form-data")) with false in R.
    rewrite eqs_refl in R. rewrite Fo in R. cbn [or_empty] in R. destruct (form_urlencode _) as [body|] eqn:E; cbn [bind] in R; [|discriminate].
    injection R as <- <- <-. destruct (form_means l body F B E) as (raws & -> & M). exists raws. cbv zeta.
    rewrite length_text_nat in Cl. split; [exact M|]. split; [exact Hu|]. split; [exact Ct|]. split; [exact Cl|].
    subst u. apply readable. exact Cl.
  Qed.

  (** ** Files *)
  Lemma extend_fresh {V} (d : mdict V) : forall rv, NoDup (map fst (rv ++ d)) -> fold_left (@extend_key V) d rv = rv ++ d.
  Proof.
    induction d as [|[k l] d IH]; intros rv N; cbn [fold_left]; [rewrite app_nil_r; reflexivity|].
    assert (NI : ~ In k (map fst rv)).
    { rewrite map_app in N. cbn [map fst] in N. apply NoDup_remove_2 in N. intros X. apply N. apply in_or_app. left. exact X. }
    assert (X : extend_key rv (k, l) = rv ++ [(k, l)]).
    { unfold extend_key. cbn [fst snd]. destruct (dget rv k) as [x|] eqn:G; [exfalso; apply NI; apply dget_In in G; apply in_map_iff; exists (k, x); auto|].
      clear - NI. induction rv as [|[k0 l0] rv IH]; [reflexivity|]. cbn [dset]. destruct (eqs k k0) eqn:E.
      - apply eqs_eq in E. subst. exfalso. apply NI. left. reflexivity.
      - cbn [app]. f_equal. apply IH. intros Y. apply NI. right. exact Y. }
    rewrite X, IH; [rewrite <- app_assoc; reflexivity|]. rewrite <- app_assoc. exact N.
  Qed.
  Lemma files_builder a b l fl : newb a = Ok b -> carries_fields a l -> untyped a -> all_uploads guess l fl ->
    b_input b = None /\ b_form b = None /\ b_files b = Some (m_adds [] fl) /\ get_content_type b = Some (lit "multipart/form-data").
  Proof.
    intros H C U F. pose proof C as (_ & _ & Hl). destruct (fields_builder a b l H C) as (b1 & A & I & Fo & Fi & T & _).
    destruct (files_added l fl F b1 b I A) as (I' & Fo' & Hh & Fi' & _). specialize (Fi' Hl). rewrite Fi in Fi'. cbn [or_empty] in Fi'.
    split; [exact I'|]. split; [rewrite Fo'; exact Fo|]. split; [exact Fi'|].
    unfold get_content_type. rewrite Hh, (T U), I', Fi'. rewrite adds_nil.
    assert (Fn : fl <> []) by (intros ->; inversion F; congruence).
    destruct (firsts [] fl) as [|x r] eqn:E; [exfalso; exact (firsts_nil fl Fn E)|]. reflexivity.
  Qed.
  Lemma files_lists b fl : b_form b = None -> b_files b = Some (m_adds [] fl) ->
    form_lists b = map (fun kl => (fst kl, map VFile (snd kl))) (m_adds [] fl).
  Proof.
    intros Fo Fi. unfold form_lists. rewrite Fo, Fi. cbn [or_empty map]. unfold c_lists, m_lists. cbn [fold_left].
    rewrite extend_fresh; [reflexivity|]. cbn [app]. rewrite map_map. cbn [fst]. rewrite adds_nil, map_map. cbn [fst]. apply firsts_nodup.
  Qed.
  Lemma grouped_lists {A} (fl : list (str * A)) : flat_map (fun kl => map (fun f => (fst kl, f)) (snd kl)) (m_adds [] fl) = grouped fl.
  Proof. rewrite adds_nil. unfold grouped. generalize (firsts [] fl). intros l. induction l as [|x l IH]; [reflexivity|]. cbn. rewrite IH. reflexivity. Qed.
  Lemma files_spec boundary a e u l fl : create boundary a = Ok (e, u) -> a_overrides a = [] -> carries_fields a l -> untyped a ->
    all_uploads guess l fl -> forallb (fun c => c <? 128) boundary = true -> ~ In 13 boundary ->
    Forall (fun kf => sendable guess boundary (fst kf) (snd kf)) fl ->
    exists body parts, reads boundary body parts /\ Forall2 (part_of guess) (grouped fl) parts /\ u = fresh body [] /\
      dget e (lit "CONTENT_TYPE") = Some (lit "multipart/form-data; boundary=""" ++ boundary ++ lit """") /\
      dget e (lit "CONTENT_LENGTH") = Some (zdec (Z.of_nat (length body))) /\
      forall cache, exists st, get_data e false cache false (new_request false u) = (Ok body, st).
  Proof.
    intros H Hov C U F B1 B2 S. destruct (environ_body _ _ _ _ H Hov) as (b & input & len & ctype & Nb & R & Hu & Ct & Cl).
    destruct (files_builder a b l fl Nb C U F) as (I & Fo & Fi & T).
    unfold request_body in R. rewrite I, T in R. rewrite eqs_refl in R. rewrite (files_lists b fl Fo Fi) in R.
    destruct (encode_files guess true (1024 * 500) boundary (m_adds [] fl) B1 B2) as (body & parts & E & Rd & P).
    { rewrite grouped_lists. apply Forall_forall. intros kf X. apply grouped_in in X. rewrite Forall_forall in S. auto. }
    rewrite E in R. cbn [bind fst snd] in R. injection R as <- <- <-. exists body, parts. rewrite grouped_lists in P.
    rewrite nat_N_Z, length_text_nat in Cl.
    split; [exact Rd|]. split; [exact P|]. split; [exact Hu|]. split; [exact Ct|]. split; [exact Cl|]. subst u. apply readable. exact Cl.
  Qed.

  (** ** Nothing is refused *)
  Lemma form_create_total boundary a path query scheme name host script l fl :
    asks_for a path query -> base_for (a_base_url a) scheme name host script -> unicode_text query -> fit_headers a ->
    carries_fields a l -> untyped a ->
    (Forall (fun kv => is_field (snd kv)) l /\ Forall writable l) \/
    (all_uploads guess l fl /\ forallb (fun c => c <? 128) boundary = true /\ ~ In 13 boundary /\ Forall (fun kf => sendable guess boundary (fst kf) (snd kf)) fl) ->
    exists e u, create boundary a = Ok (e, u).
  Proof.
    intros Ha Hb Hq [Hh Ht] C U W. pose proof C as (Ci & Cd & Cl).
    destruct (base_spec guess idna_part ip_ok nfkc_ok _ _ _ _ _ Hb) as (Hho & Hf & _ & raw & w & E3 & E4 & E5).
    destruct (query_asked _ _ _ Ha) as [Hp Hqq]. destruct (iri_path guess idna_part ip_ok nfkc_ok _ _ Hp) as (uri & wp & F1 & F2 & F3).
    assert (exists b, newb a = Ok b) as [b Eb].
    { unfold new_builder. destruct (split_args a) as [p q]. cbn [fst snd] in *. rewrite F1. cbn [bind].
      destruct (match a_base_url a with None => _ | Some _ => _ end) as [base|] eqn:B; cbn [bind] in E3; [|discriminate]. cbn [bind]. rewrite E3. cbn [bind].
      destruct (query_of q) as [q' args]. destruct (extend_total _ Hh []) as [h Eh]. unfold h_init_pairs. rewrite Eh. cbn [bind].
      destruct U as [U1 U2]. rewrite U1. cbn [bind].
      match goal with |- context [set_content_length ?x _] => set (b0 := x) end.
      destruct (length_total b0 (a_content_length a)) as [b2 L]. rewrite L. cbn [bind]. rewrite Ci, Cd. cbn [add_data].
      destruct l as [|kv l]; [congruence|].
      assert (I : b_input b2 = None) by (apply same_set_length in L as (_ & -> & _); exact Ci).
      destruct W as [[W1 _]|(W1 & _ & _ & W2)].
      - destruct (texts_added _ W1 b2 I) as (b' & -> & _). eauto.
      - eapply files_addable; eauto. eapply Forall_impl; [|exact W2]. intros x [_ _ [_ S] _]. exact S. }
    unfold create_environ. rewrite Eb. cbn [bind].
    destruct (new_builder_same _ _ _ _ _ _ Eb) as (uri' & scheme' & host' & raw' & E1 & E2 & B1 & B2 & B3 & B4 & B5 & B6 & B7 & B8 & B9).
    rewrite E3 in E2. injection E2 as X1 X2 X3. rewrite <- X2 in B3. rewrite <- X3 in B4. rewrite F1 in E1. injection E1 as X4. rewrite <- X4 in B1.
    assert (exists input len ctype, request_body guess boundary b = Ok (input, len, ctype)) as (input & len & ctype & R).
    { unfold request_body. destruct W as [[W1 W2]|(W1 & W2 & W3 & W4)].
      - destruct (fields_content_type a b l Eb C U W1) as (-> & -> & _ & ->).
        change (eqs (lit "application/x-www-form-urlencoded") (lit "multipart/form-data")) with false. rewrite eqs_refl. cbn [or_empty].
        destruct (form_total l W2) as [body ->]. cbn [bind]. eauto.
      - destruct (files_builder a b l fl Eb C U W1) as (I & Fo & Fi & T). rewrite I, T, eqs_refl, (files_lists b fl Fo Fi).
        destruct (encode_files guess true (1024 * 500) boundary (m_adds [] fl) W2 W3) as (body & parts & E & Rd & P).
        { rewrite grouped_lists. apply Forall_forall. intros kf X. apply grouped_in in X. rewrite Forall_forall in W4. auto. }
        rewrite E. cbn [bind]. eauto. }
    assert (exists q qs, get_query b = Ok q /\ match q with QText s => wsgi_encoding_dance s | QBytes x => Ok x end = Ok qs) as (q & qs & Q1 & Q2).
    { unfold get_query. rewrite B5, B6. destruct (query_of (snd (split_args a))) as [[q'|] [l'|]]; cbn [fst snd]; try contradiction.
      - subst q'. apply scalar_text in Hq. exists (QText query). unfold wsgi_encoding_dance, utf8_encode. rewrite Hq. eauto.
      - destruct Hqq as [-> ->]. cbn. eexists. eexists. split; reflexivity. }
    destruct (port_total guess idna_part ip_ok nfkc_ok _ _ b Hho B3) as [port Ep].
    unfold get_environ. rewrite R. cbn [bind]. rewrite Q1. cbn [bind]. rewrite Q2. cbn [bind]. rewrite B4, E4, B1, F2. cbn [bind]. rewrite Ep. cbn [bind]. eauto.
  Qed.

  (** ** A content type of one's own *)
  Lemma typed_spec boundary a e u l t : create boundary a = Ok (e, u) -> a_overrides a = [] -> carries_fields a l ->
    a_content_type a = Some t -> t <> lit "multipart/form-data" -> t <> lit "application/x-www-form-urlencoded" ->
    u = fresh [] [] /\ dget e (lit "CONTENT_TYPE") = Some t.
  Proof.
    intros H Hov C U N1 N2. destruct (environ_body _ _ _ _ H Hov) as (b & input & len & ctype & Nb & R & Hu & Ct & Cl).
    destruct (fields_builder a b l Nb C) as (b1 & A & I & Fo & Fi & _ & T). specialize (T t U).
    assert (Hi : b_input b = None).
    { pose proof A as A'. clear - A I. revert b1 A I. induction l as [|[k v] l IH]; intros b1 A I; cbn [add_fields] in A; [inv A; exact I|].
      destruct (add_field guess b1 k v) as [b2|] eqn:E; cbn [bind] in A; [|discriminate]. apply (IH b2 A).
      destruct v; cbn [add_field] in E; unfold get_form, get_files in E; rewrite I in E;
        [destruct (b_form b1)|destruct (b_form b1)|destruct (b_files b1)|destruct (b_files b1)]; cbn [bind] in E;
        try (inv E; reflexivity); destruct (add_file _ _ _ _ _ _); cbn [bind] in E; inv E; reflexivity. }
    apply same_add_fields in A as [_ A].
    assert (Gt : get_content_type b = Some t) by (unfold get_content_type; rewrite A, T; reflexivity).
    unfold request_body in R. rewrite Hi, Gt in R.
    destruct (eqs t (lit "multipart/form-data")) eqn:E1; [apply eqs_eq in E1; contradiction|].
    destruct (eqs t (lit "application/x-www-form-urlencoded")) eqn:E2; [apply eqs_eq in E2; contradiction|].
    injection R as <- <- <-. auto.
  Qed.

  (** ** Texts and files together *)
  Definition field_of (v : dvalue) : bool := match v with DText _ | DBytes _ => true | _ => false end.
  Lemma field_text b k v b1 : b_input b = None -> field_of v = true -> add_field guess b k v = Ok b1 ->
    b1 = set_form b (Some (m_add (or_empty (b_form b)) k (to_fval v))).
  Proof.
    intros Hb F E. destruct v; try discriminate; cbn [add_field] in E; unfold get_form in E; rewrite Hb in E;
      destruct (b_form b); cbn [bind] in E; inv E; reflexivity.
  Qed.
  Lemma field_file b k v b1 : b_input b = None -> field_of v = false -> add_field guess b k v = Ok b1 ->
    exists f, b1 = set_files b (Some (m_add (or_empty (b_files b)) k f)).
  Proof.
    intros Hb F E. destruct v as [| |up|up n t]; try discriminate; cbn [add_field] in E; unfold get_files in E; rewrite Hb in E;
      destruct (b_files b) as [d|]; cbn [bind or_empty] in E |- *; unfold add_file in E; destruct up; try destruct (validate_value _); cbn [bind] in E; inv E; eexists; reflexivity.
  Qed.
  Lemma mixed_added l : forall b b', b_input b = None -> add_fields guess b l = Ok b' ->
    b_input b' = None /\ b_headers b' = b_headers b /\
    or_empty (b_form b') = m_adds (or_empty (b_form b)) (to_fields (filter (fun kv => field_of (snd kv)) l)) /\
    exists fl, or_empty (b_files b') = m_adds (or_empty (b_files b)) fl /\ ((exists kv, In kv l /\ is_upload (snd kv)) -> fl <> []).
  Proof.
    induction l as [|[k v] l IH]; intros b b' Hb H; cbn [add_fields] in H.
    { inv H. cbn. repeat split; auto. exists []. split; [reflexivity|]. intros (kv & [] & _). }
    destruct (add_field guess b k v) as [b1|] eqn:E; cbn [bind] in H; [|discriminate]. cbn [filter snd].
    destruct (field_of v) eqn:Fv.
    - apply field_text in E; auto. subst b1.
      destruct (IH (set_form b (Some (m_add (or_empty (b_form b)) k (to_fval v)))) b' eq_refl H) as (A & B & C & fl & D & F). cbn [b_headers set_form] in B.
      split; [exact A|]. split; [exact B|]. split; [rewrite C; reflexivity|].
      exists fl. split; [exact D|]. intros (kv & [<-|I] & U); [|apply F; exists kv; auto].
      exfalso. apply U. cbn [snd]. destruct v; try discriminate; exact Logic.I.
    - apply field_file in E; auto. destruct E as [f ->].
      destruct (IH (set_files b (Some (m_add (or_empty (b_files b)) k f))) b' eq_refl H) as (A & B & C & fl & D & F). cbn [b_headers set_files] in B.
      split; [exact A|]. split; [exact B|]. split; [exact C|].
      exists ((k, f) :: fl). split; [exact D|discriminate].
  Qed.
  Lemma adds_proper {A B} (f : A -> B) (l : list (str * A)) :
    SpecCombined.proper (map (fun kl => (fst kl, map f (snd kl))) (m_adds [] l)).
  Proof.
    rewrite adds_nil. split.
    - rewrite !map_map. cbn [fst]. apply firsts_nodup.
    - apply Forall_forall. intros kl I. rewrite map_map in I. apply in_map_iff in I as (kv & <- & I). cbn [fst snd].
      apply values_first in I as [r ->]. discriminate.
  Qed.
  Lemma mixed_fails boundary a l k s : carries_fields a l -> untyped a -> In (k, DText s) l -> (exists kv, In kv l /\ is_upload (snd kv)) ->
    exists e, create boundary a = Raise e.
  Proof.
    intros C U It Iu. unfold create_environ. destruct (newb a) as [b|x] eqn:Nb; cbn [bind]; [|eauto].
    destruct (fields_builder a b l Nb C) as (b1 & A & I & Fo & Fi & T & _).
    destruct (mixed_added l b1 b I A) as (I' & Hh & Fo' & fl & Fi' & Ne). specialize (Ne Iu). rewrite Fo in Fo'. rewrite Fi in Fi'. cbn [or_empty] in Fo', Fi'.
    assert (Gt : get_content_type b = Some (lit "multipart/form-data")).
    { unfold get_content_type. rewrite Hh, (T U), I'. destruct (b_files b) as [d|]; cbn [or_empty] in Fi'.
      - subst d. rewrite adds_nil. destruct (firsts [] fl) as [|x r] eqn:E; [exfalso; exact (firsts_nil fl Ne E)|]. reflexivity.
      - exfalso. rewrite adds_nil in Fi'. destruct (firsts [] fl) as [|x r] eqn:E; [exact (firsts_nil fl Ne E)|]. discriminate. }
    assert (V : exists vs, In (k, vs) (form_lists b) /\ In (VText s) vs).
    { unfold form_lists. rewrite Fo', Fi'.
      match goal with |- context [c_lists ?x] => set (ds := x) end.
      assert (P : Forall SpecCombined.proper ds) by (repeat constructor; apply adds_proper).
      assert (Hin : In (VText s) (SpecCombined.held ds k)).
      { unfold SpecCombined.held, ds. cbn [map concat]. apply in_or_app. left.
        set (fs := to_fields (filter (fun kv => field_of (snd kv)) l)).
        assert (X : In (k, FText s) fs).
        { unfold fs, to_fields. apply in_map_iff. exists (k, DText s). split; [reflexivity|]. apply filter_In. auto. }
        pose proof (adds_nil fs) as AN. unfold m_getlist.
        destruct (dget (map (fun kl : str * list fval => (fst kl, map fval_value (snd kl))) (m_adds [] fs)) k) as [vs|] eqn:G.
        - apply dget_In in G. rewrite AN, map_map in G. apply in_map_iff in G as (kv & Eq & _). cbn [fst snd] in Eq. inv Eq.
          change (VText s) with (fval_value (FText s)). apply in_map. unfold values_of. change (FText s) with (snd (fst kv, FText s)). apply in_map.
          apply filter_In. split; [exact X|]. cbn [fst]. destruct (sdec (fst kv) (fst kv)); congruence.
        - exfalso. apply dget_none in G. apply G. rewrite AN, !map_map. cbn [fst].
          clear - X. assert (W : forall seen, ~ In k seen -> In k (map fst (firsts seen fs))).
          { induction fs as [|[k0 v0] fs IH]; [destruct X|]. intros seen N. cbn [firsts]. destruct X as [E|X].
            - inv E. destruct (in_dec sdec k seen); [contradiction|]. left. reflexivity.
            - destruct (in_dec sdec k0 seen); [auto|]. cbn [map fst]. destruct (sdec k0 k) as [->|Nk]; [left; reflexivity|]. right. apply IH; auto.
              intros [Q|Q]; auto. }
          apply W. intros []. }
      destruct (ProofCombined.c_lists_spec ds P) as [_ L]. specialize (L k).
      destruct (SpecCombined.held ds k) as [|x r] eqn:Hd; [destruct Hin|]. apply dget_In in L. exists (x :: r). auto. }
    destruct V as (vs & V1 & V2). unfold get_environ, request_body. rewrite I', Gt, eqs_refl.
    destruct (encode_text_fails guess true (1024 * 500) boundary _ _ _ _ V1 V2) as [x ->]. cbn [bind]. eauto.
  Qed.
End form.
