(** * Lemmas about calls of a test client *)
From Coq Require Import Arith List NArith ZArith Bool Lia ZifyBool ZifyN ZifyNat.
From Verif Require Import PyStr PyStrFacts ModelHeaders ModelTest ModelClientCall SpecClientCall.
Import ListNotations.
Open Scope N_scope.
Ltac inv H := inversion H; subst; clear H.

Lemma eqs_swap a b : eqs a b = eqs b a.
Proof. destruct (eqs a b) eqn:E; symmetry; [apply eqs_eq in E; subst; apply eqs_refl|]. destruct (eqs b a) eqn:F; [|reflexivity]. apply eqs_eq in F. subst. rewrite eqs_refl in E. discriminate. Qed.
Lemma get_del_other {V} (kw : dict V) a b : eqs b a = false -> dget (ddel kw a) b = dget kw b.
Proof.
  intros H. induction kw as [|[k v] kw IH]; [reflexivity|]. cbn. destruct (eqs a k) eqn:Ea; cbn [negb].
  - apply eqs_eq in Ea. subst k. rewrite H. exact IH.
  - cbn [dget]. destruct (eqs b k); [reflexivity|exact IH].
Qed.
Lemma options_popped {V} (kw : dict V) :
  ddel (ddel (ddel kw (lit "as_tuple")) (lit "buffered")) (lit "follow_redirects") = others kw.
Proof.
  unfold ddel, others. induction kw as [|[k v] kw IH]; [reflexivity|]. cbn [filter fst].
  unfold is_option at 1, option_names. cbn [existsb fst].
  rewrite (eqs_swap k (lit "as_tuple")), (eqs_swap k (lit "buffered")), (eqs_swap k (lit "follow_redirects")).
  destruct (eqs (lit "as_tuple") k) eqn:E1; cbn [negb orb filter fst]; [exact IH|].
  destruct (eqs (lit "buffered") k) eqn:E2; cbn [negb orb filter fst]; [exact IH|].
  destruct (eqs (lit "follow_redirects") k) eqn:E3; cbn [negb orb filter fst]; [exact IH|]. f_equal. exact IH.
Qed.
Lemma get_option {V} (kw : dict V) k : existsb (eqs k) option_names = true -> dget (options kw) k = dget kw k.
Proof.
  intros H. induction kw as [|[k' v] kw IH]; [reflexivity|]. cbn [options filter]. unfold is_option at 1. cbn [fst].
  destruct (existsb (eqs k') option_names) eqn:E; cbn [dget].
  - destruct (eqs k k'); [reflexivity|exact IH].
  - destruct (eqs k k') eqn:F; [apply eqs_eq in F; subst; congruence|exact IH].
Qed.
Lemma others_options {V} (kw : dict V) : others (options kw) = [].
Proof.
  unfold others, options. induction kw as [|kv kw IH]; [reflexivity|]. cbn [filter]. destruct (is_option kv) eqn:E; [|exact IH].
  cbn [filter]. rewrite E. exact IH.
Qed.

Section client.
  Context {B E V R X T : Type}.
  Variable environ_of : B -> res E.
  Variable build : list (carg B E V) -> dict V -> res E.
  Variable run : T -> E -> option V -> T * res R.
  Variable truth : V -> bool.
  Variable true_value : V.
  Variable text : str -> V.
  Variable code_of : R -> res Z.
  Variable location_of : R -> res str.
  Variable redirect_to : R -> str -> E -> res (dict V).
  Notation c_open := (c_open (X := X) environ_of build run truth true_value code_of location_of redirect_to).
  Notation c_follow := (c_follow (X := X) environ_of build run truth true_value code_of location_of redirect_to).

  Lemma flag_options kw k : existsb (eqs k) option_names = true -> flag truth k (options kw) = flag truth k kw.
  Proof. intros H. unfold flag. rewrite get_option by exact H. reflexivity. Qed.
  Lemma flag_del kw a b : eqs b a = false -> flag truth b (ddel kw a) = flag truth b kw.
  Proof. intros H. unfold flag. rewrite get_del_other by exact H. reflexivity. Qed.
  Lemma opened_raw fuel t w args kw : c_open (S fuel) t w args kw =
    match first_environ environ_of build args (ddel (ddel (ddel kw (lit "as_tuple")) (lit "buffered")) (lit "follow_redirects")) with
    | Raise e => Some (t, w, Raise e)
    | Ok environ =>
        match run t environ (dget (ddel kw (lit "as_tuple")) (lit "buffered")) with
        | (t1, Raise e) => Some (t1, w, Raise e)
        | (t1, Ok r) =>
            match c_follow fuel t1 w environ r (dget (ddel kw (lit "as_tuple")) (lit "buffered")) (flag truth (lit "follow_redirects") (ddel (ddel kw (lit "as_tuple")) (lit "buffered"))) [] with
            | None => None
            | Some (t2, w2, Raise e) => Some (t2, w2, Raise e)
            | Some (t2, w2, Ok (environ2, r2)) =>
                match match w2 with Some f => do x <- f r2; Ok (Wrapped x) | None => Ok (Raw r2) end with
                | Raise e => Some (t2, w2, Raise e)
                | Ok a => Some (t2, w2, Ok (if flag truth (lit "as_tuple") kw then OTuple environ2 a else OAlone a))
                end
            end
        end
    end.
  Proof. reflexivity. Qed.
  Lemma opened fuel t w args kw : c_open (S fuel) t w args kw =
    match first_environ environ_of build args (others kw) with
    | Raise e => Some (t, w, Raise e)
    | Ok environ =>
        match run t environ (dget kw (lit "buffered")) with
        | (t1, Raise e) => Some (t1, w, Raise e)
        | (t1, Ok r) =>
            match c_follow fuel t1 w environ r (dget kw (lit "buffered")) (flag truth (lit "follow_redirects") kw) [] with
            | None => None
            | Some (t2, w2, Raise e) => Some (t2, w2, Raise e)
            | Some (t2, w2, Ok (environ2, r2)) =>
                match match w2 with Some f => do x <- f r2; Ok (Wrapped x) | None => Ok (Raw r2) end with
                | Raise e => Some (t2, w2, Raise e)
                | Ok a => Some (t2, w2, Ok (if flag truth (lit "as_tuple") kw then OTuple environ2 a else OAlone a))
                end
            end
        end
    end.
  Proof.
    rewrite opened_raw, options_popped. rewrite get_del_other by reflexivity. rewrite !flag_del by reflexivity. reflexivity.
  Qed.
  Lemma follow_eq fuel t w environ r buffered f chain : c_follow (S fuel) t w environ r buffered f chain =
    match code_of r with
    | Raise e => Some (t, w, Raise e)
    | Ok code =>
        if negb (is_redirect code) || negb f then Some (t, w, Ok (environ, r))
        else
          match location_of r with
          | Raise e => Some (t, w, Raise e)
          | Ok location =>
              if existsb (fun lc => eqs (fst lc) location && (snd lc =? code)%Z) chain
              then Some (t, w, Raise ClientRedirectError)
              else
                match redirect_to r location environ with
                | Raise e => Some (t, w, Raise e)
                | Ok where_to =>
                    match c_open fuel t None []
                            (where_to ++ [(lit "as_tuple", true_value)] ++
                             match buffered with Some v => [(lit "buffered", v)] | None => [] end) with
                    | None => None
                    | Some (t1, _, Raise e) => Some (t1, w, Raise e)
                    | Some (t1, _, Ok (OTuple environ1 (Raw r1))) =>
                        c_follow fuel t1 w environ1 r1 buffered f (chain ++ [(location, code)])
                    | Some (t1, _, Ok _) => Some (t1, w, Raise TypeError)
                    end
                end
          end
    end.
  Proof. reflexivity. Qed.
  Lemma kept fuel : (forall t w args kw t' w' r, c_open fuel t w args kw = Some (t', w', r) -> w' = w) /\
    (forall t w e r b f ch t' w' q, c_follow fuel t w e r b f ch = Some (t', w', q) -> w' = w).
  Proof.
    induction fuel as [|fuel [IO IF]]; [split; discriminate|]. split.
    - intros t w args kw t' w' r H. rewrite opened in H. destruct (first_environ _ _ _ _) as [e|x]; [|congruence].
      destruct (run t e _) as [t1 [r1|x]]; [|congruence].
      destruct (c_follow fuel t1 w e r1 _ _ _) as [[[t2 w2] [[e2 r2]|x]]|] eqn:F; [| |discriminate]; apply IF in F; subst w2; [|congruence].
      destruct w as [f|]; [destruct (f r2); cbn in H; congruence|congruence].
    - intros t w e r b f ch t' w' q H. rewrite follow_eq in H. destruct (code_of r) as [c|x]; [|congruence].
      destruct (negb (is_redirect c) || negb f); [congruence|]. destruct (location_of r) as [l|x]; [|congruence].
      destruct (existsb _ ch); [congruence|]. destruct (redirect_to r l e) as [k|x]; [|congruence].
      destruct (c_open fuel t None _ _) as [[[t1 w1] [[a|e1 [r1|y]]|x]]|]; try congruence. apply IF in H. exact H.
  Qed.
  Lemma follow_any fuel : forall t w e r b f ch,
    c_follow fuel t w e r b f ch = match c_follow fuel t None e r b f ch with Some (t', _, q) => Some (t', w, q) | None => None end.
  Proof.
    induction fuel as [|fuel IH]; intros; [reflexivity|]. rewrite !follow_eq. destruct (code_of r) as [c|x]; [|reflexivity].
    destruct (negb (is_redirect c) || negb f); [reflexivity|]. destruct (location_of r) as [l|x]; [|reflexivity].
    destruct (existsb _ ch); [reflexivity|]. destruct (redirect_to r l e) as [k|x]; [|reflexivity].
    destruct (c_open fuel t None _ _) as [[[t1 w1] [[a|e1 [r1|y]]|x]]|]; try reflexivity. apply IH.
  Qed.
  Lemma once fuel t f args kw :
    match c_open fuel t None args kw with
    | None => c_open fuel t (Some f) args kw = None
    | Some (t', _, Raise e) => c_open fuel t (Some f) args kw = Some (t', Some f, Raise e)
    | Some (t', _, Ok o) => exists r, (o = OAlone (Raw r) \/ exists e, o = OTuple e (Raw r)) /\
        match f r with
        | Raise e => c_open fuel t (Some f) args kw = Some (t', Some f, Raise e)
        | Ok x => exists o', c_open fuel t (Some f) args kw = Some (t', Some f, Ok o') /\ wrapped_as r x o o'
        end
    end.
  Proof.
    destruct fuel as [|fuel]; [reflexivity|]. rewrite !opened. destruct (first_environ _ _ _ _) as [e|x]; [|reflexivity].
    destruct (run t e _) as [t1 [r1|x]]; [|reflexivity]. rewrite (follow_any fuel t1 (Some f)).
    destruct (c_follow fuel t1 None e r1 _ _ _) as [[[t2 w2] [[e2 r2]|x]]|] eqn:F; [|reflexivity|reflexivity].
    apply (proj2 (kept fuel)) in F. subst w2. exists r2. destruct (flag _ _ _).
    - split; [eauto|]. destruct (f r2) as [x|x]; cbn; [|reflexivity]. eexists. split; [reflexivity|constructor].
    - split; [eauto|]. destruct (f r2) as [x|x]; cbn; [|reflexivity]. eexists. split; [reflexivity|constructor].
  Qed.
  Lemma first_asked args kw q : environ_asked environ_of build args kw q -> first_environ environ_of build args kw = q.
  Proof.
    intros H. inv H; try reflexivity. unfold first_environ. destruct kw as [|k kw]; [|reflexivity].
    destruct (H0 eq_refl) as [H1 H2]. destruct args as [|[b|e|v] [|]]; try reflexivity; exfalso; [apply (H1 b)|apply (H2 e)]; reflexivity.
  Qed.
  Lemma asked fuel t w args kw e : environ_asked environ_of build args (others kw) (Ok e) ->
    c_open fuel t w args kw = c_open fuel t w [AEnviron e] (options kw).
  Proof.
    intros H. destruct fuel as [|fuel]; [reflexivity|]. rewrite !opened, others_options, (first_asked _ _ _ H).
    cbn [first_environ]. rewrite get_option, !flag_options by reflexivity. reflexivity.
  Qed.
  Lemma not_asked fuel t w args kw x : environ_asked environ_of build args (others kw) (Raise x) ->
    c_open (S fuel) t w args kw = Some (t, w, Raise x).
  Proof. intros H. rewrite opened, (first_asked _ _ _ H). reflexivity. Qed.

  (** ** Redirects *)
  Hypothesis true_is_true : truth true_value = true.
  Hypothesis no_options : forall r l e kw, redirect_to r l e = Ok kw -> forall k v, In (k, v) kw -> ~ In k option_names.
  Lemma no_option_others (kw rest : dict V) : (forall k v, In (k, v) kw -> ~ In k option_names) ->
    others (kw ++ rest) = kw ++ others rest /\ forall k, In k option_names -> dget (kw ++ rest) k = dget rest k.
  Proof.
    induction kw as [|[k v] kw IH]; intros H; [auto|]. destruct IH as [I1 I2]; [intros; eapply H; right; eassumption|].
    assert (K : existsb (eqs k) option_names = false).
    { destruct (existsb (eqs k) option_names) eqn:F; [|reflexivity]. apply existsb_exists in F as (y & Hy & F). apply eqs_eq in F. subst y.
      exfalso. exact (H k v (or_introl eq_refl) Hy). }
    split.
    - unfold others in *. cbn [filter List.app]. unfold is_option at 1. cbn [fst]. rewrite K. cbn [negb]. f_equal. exact I1.
    - intros k' Hk. cbn [dget List.app]. destruct (eqs k' k) eqn:F; [|apply I2; exact Hk]. apply eqs_eq in F. subst k'. exfalso. exact (H k v (or_introl eq_refl) Hk).
  Qed.
  Lemma redirect_code_spec c : is_redirect c = true <-> redirect_code c.
  Proof.
    unfold is_redirect, redirect_code. rewrite existsb_exists. split.
    - intros (x & Hx & H). apply Z.eqb_eq in H. subst. exact Hx.
    - intros H. exists c. split; [exact H|apply Z.eqb_refl].
  Qed.
  Lemma chain_spec (l : str) (c : Z) chain : existsb (fun lc => eqs (fst lc) l && (snd lc =? c)%Z) chain = true <-> In (l, c) chain.
  Proof.
    rewrite existsb_exists. split.
    - intros ([l' c'] & H & F). cbn in F. apply andb_prop in F as [F1 F2]. apply eqs_eq in F1. apply Z.eqb_eq in F2. subst. exact H.
    - intros H. exists (l, c). split; [exact H|]. cbn. rewrite eqs_refl, Z.eqb_refl. reflexivity.
  Qed.
  Lemma not_followed fuel t w e r b ch : c_follow (S fuel) t w e r b false ch =
    match code_of r with Ok _ => Some (t, w, Ok (e, r)) | Raise x => Some (t, w, Raise x) end.
  Proof. rewrite follow_eq. destruct (code_of r); [|reflexivity]. rewrite orb_true_r. reflexivity. Qed.
  Lemma nested fuel t kw b t1 w1 o : (forall k v, In (k, v) kw -> ~ In k option_names) ->
    c_open fuel t None [] (kw ++ [(lit "as_tuple", true_value)] ++ match b with Some v => [(lit "buffered", v)] | None => [] end) = Some (t1, w1, Ok o) ->
    exists e1 r1, o = OTuple e1 (Raw r1) /\ build [] kw = Ok e1 /\ run t e1 b = (t1, Ok r1).
  Proof.
    intros N. destruct fuel as [|fuel]; [discriminate|]. rewrite opened.
    destruct (no_option_others kw ([(lit "as_tuple", true_value)] ++ match b with Some v => [(lit "buffered", v)] | None => [] end) N) as [O G].
    rewrite O. unfold flag. rewrite !G by (cbn; tauto).
    replace (others ([(lit "as_tuple", true_value)] ++ match b with Some v => [(lit "buffered", v)] | None => [] end)) with (@nil (str * V)) by (destruct b; reflexivity).
    rewrite app_nil_r.
    replace (dget ([(lit "as_tuple", true_value)] ++ match b with Some v => [(lit "buffered", v)] | None => [] end) (lit "buffered")) with b by (destruct b; reflexivity).
    replace (dget ([(lit "as_tuple", true_value)] ++ match b with Some v => [(lit "buffered", v)] | None => [] end) (lit "follow_redirects")) with (@None V) by (destruct b; reflexivity).
    replace (dget ([(lit "as_tuple", true_value)] ++ match b with Some v => [(lit "buffered", v)] | None => [] end) (lit "as_tuple")) with (Some true_value) by (destruct b; reflexivity).
    replace (first_environ environ_of build [] kw) with (build [] kw) by (unfold first_environ; destruct kw; reflexivity).
    destruct (build [] kw) as [e1|]; [|discriminate]. destruct (run t e1 b) as [t2 [r1|]] eqn:Rn; [|discriminate].
    destruct fuel as [|fuel]; [discriminate|]. rewrite not_followed. destruct (code_of r1); [|discriminate]. rewrite true_is_true.
    intros H. injection H as <- <- <-. exists e1, r1. auto.
  Qed.
  Lemma followed fuel : forall t w e r b ch t' w' e' r', c_follow fuel t w e r b true ch = Some (t', w', Ok (e', r')) ->
    leads build run code_of location_of redirect_to b ch t e r t' e' r'.
  Proof.
    induction fuel as [|fuel IH]; intros t w e r b ch t' w' e' r' H; [discriminate|]. rewrite follow_eq in H.
    destruct (code_of r) as [c|] eqn:C; [|discriminate]. rewrite orb_false_r in H. destruct (is_redirect c) eqn:Rc; cbn [negb] in H.
    - destruct (location_of r) as [l|] eqn:L; [|discriminate]. destruct (existsb _ ch) eqn:Ch; [discriminate|].
      destruct (redirect_to r l e) as [k|] eqn:D; [|discriminate].
      destruct (c_open fuel t None _ _) as [[[t1 w1] [o|x]]|] eqn:O; [|discriminate|discriminate].
      apply nested in O as (e1 & r1 & -> & Bd & Rn); [|exact (no_options _ _ _ _ D)]. apply IH in H.
      eapply le_hop; try eassumption; [apply redirect_code_spec; exact Rc|]. intros X0. apply chain_spec in X0. congruence.
    - injection H as <- <- <- <-. eapply le_stop; [exact C|]. intros X0. apply redirect_code_spec in X0. congruence.
  Qed.
  Lemma followed_open fuel t w e kw t' w' o : c_open fuel t w [AEnviron e] (options kw) = Some (t', w', Ok o) ->
    exists t1 r1 e' r', run t e (dget kw (lit "buffered")) = (t1, Ok r1) /\
      (flag truth (lit "follow_redirects") kw = true -> leads build run code_of location_of redirect_to (dget kw (lit "buffered")) [] t1 e r1 t' e' r') /\
      (flag truth (lit "follow_redirects") kw = false -> t' = t1 /\ e' = e /\ r' = r1) /\
      exists a, match w with None => a = Raw r' | Some f => exists x, f r' = Ok x /\ a = Wrapped x end /\
        o = if flag truth (lit "as_tuple") kw then OTuple e' a else OAlone a.
  Proof.
    destruct fuel as [|fuel]; [discriminate|]. rewrite opened, others_options. cbn [first_environ].
    rewrite get_option, !flag_options by reflexivity. destruct (run t e _) as [t1 [r1|]]; [|discriminate].
    destruct (c_follow fuel t1 w e r1 _ _ _) as [[[t2 w2] [[e2 r2]|x]]|] eqn:F; [|discriminate|discriminate].
    pose proof (proj2 (kept fuel) _ _ _ _ _ _ _ _ _ _ F) as ->. intros H. exists t1, r1, e2, r2. split; [reflexivity|].
    assert (Ht : t' = t2) by (destruct w as [f|]; [destruct (f r2)|]; cbn in H; congruence). subst t'.
    split; [|split].
    - intros Fl. rewrite Fl in F. eapply followed. exact F.
    - intros Fl. rewrite Fl in F. destruct fuel as [|fuel]; [discriminate|]. rewrite not_followed in F. destruct (code_of r1); [|discriminate]. injection F as <- <- <-. auto.
    - destruct w as [f|]; [destruct (f r2) as [x|] eqn:Fx|]; cbn in H; try discriminate.
      + exists (Wrapped x). split; [eauto|]. injection H as _ <-. reflexivity.
      + exists (Raw r2). split; [reflexivity|]. injection H as _ <-. reflexivity.
  Qed.
End client.
