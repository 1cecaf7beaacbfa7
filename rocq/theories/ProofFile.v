(** Proofs about FileStorage. *)
From Coq Require Import Arith List NArith ZArith Bool Lia ZifyBool ZifyN ZifyNat.
From Verif Require Import PyStr PyStrFacts Utf8 Utf8Facts ModelQuote SpecQuote ProofOptions ModelHeaders SpecHeaders ProofHeaders ModelFile SpecFile.
From Verif Require ProofResponse ProofRequest.
Import ListNotations.
Open Scope N_scope.
Ltac inv H := inversion H; subst; clear H.

Lemma skip_more {A} a : forall b (l : list A), skipn a (skipn b l) = skipn (b + a) l.
Proof.
  intros b. induction b as [|b IH]; intros l; [reflexivity|].
  destruct l; cbn [skipn Nat.add]; [destruct a; reflexivity|apply IH].
Qed.
Lemma rest_unread f : rest f = unread f.
Proof. reflexivity. Qed.
Lemma rest_after f chunk tail : unread f = chunk ++ tail -> unread (at_pos f (fl_pos f + length chunk)) = tail.
Proof.
  unfold unread. cbn [fl_pos fl_data at_pos]. intros E. rewrite <- skip_more, E.
  rewrite skipn_app, skipn_all, Nat.sub_diag. reflexivity.
Qed.

Section Save.
  Variable fails : str -> str -> option exn.
  Lemma copy_spec size : size <> 0%Z -> forall fuel src out, (length (unread src) < fuel)%nat -> fl_closed src = false ->
    exists src' done left_ e,
      copyfileobj fails fuel src out size = Some (src', out ++ done, e) /\ unread src = done ++ left_ /\
      match e with
      | None => left_ = [] /\ finished src src'
      | Some x => exists chunk, chunk <> [] /\ (exists r, left_ = chunk ++ r) /\ fails (out ++ done) chunk = Some x
      end.
  Proof.
    intros N0. induction fuel as [|k IH]; intros src out L C; [lia|]. cbn [copyfileobj]. unfold file_read. rewrite C.
    set (chunk := if (size <? 0)%Z then rest src else firstn (Z.to_nat size) (rest src)).
    assert (E : exists tail, unread src = chunk ++ tail /\ (chunk = [] -> unread src = [])).
    { unfold chunk. change (rest src) with (unread src). destruct (size <? 0)%Z eqn:B.
      - exists []. rewrite app_nil_r. auto.
      - exists (skipn (Z.to_nat size) (unread src)). rewrite firstn_skipn. split; [reflexivity|].
        destruct (Z.to_nat size) eqn:Q; [lia|]. destruct (unread src); [reflexivity|discriminate]. }
    destruct E as (tail & E & Z0). clearbody chunk. destruct chunk as [|c chunk].
    - exists (at_pos src (fl_pos src + length (@nil N))), [], [], None. split; [rewrite app_nil_r; reflexivity|].
      split; [apply Z0; reflexivity|]. split; [reflexivity|]. unfold finished.
      rewrite (rest_after src [] [] (Z0 eq_refl)). auto.
    - destruct (fails out (c :: chunk)) as [x|] eqn:F.
      + exists (at_pos src (fl_pos src + length (c :: chunk))), [], (unread src), (Some x). rewrite (app_nil_r out).
        split; [reflexivity|]. split; [reflexivity|]. exists (c :: chunk). split; [discriminate|].
        split; [exists tail; exact E|exact F].
      + set (src1 := at_pos src (fl_pos src + length (c :: chunk))).
        assert (U : unread src1 = tail) by (apply rest_after; exact E).
        destruct (IH src1 (out ++ c :: chunk)) as (src' & done & left_ & e & R & D & K).
        { rewrite U. rewrite E, app_length in L. cbn [length] in L. lia. }
        { exact C. }
        exists src', ((c :: chunk) ++ done), left_, e. rewrite app_assoc. split; [exact R|].
        split; [rewrite E, <- U, D, app_assoc; reflexivity|]. exact K.
  Qed.
  Lemma save_spec s d size fuel : size <> 0%Z -> (length (unread (sg_stream s)) < fuel)%nat -> fl_closed (sg_stream s) = false ->
    exists sv done left_,
      save fails fuel s d size = Some sv /\ unread (sg_stream s) = done ++ left_
      /\ sv_content sv = match d with DPath _ => done | DFile before => before ++ done end
      /\ sv_closed sv = match d with DPath _ => true | DFile _ => false end
      /\ match sv_error sv with
         | None => left_ = [] /\ finished (sg_stream s) (sv_stream sv)
         | Some x => exists chunk, chunk <> [] /\ (exists r, left_ = chunk ++ r) /\ fails (sv_content sv) chunk = Some x
         end.
  Proof.
    intros N L C. unfold save. destruct d as [old|before].
    - destruct (copy_spec size N fuel (sg_stream s) [] L C) as (f & done & left_ & e & R & D & K).
      rewrite R. exists (Saved ([] ++ done) true f e), done, left_. repeat split; assumption.
    - destruct (copy_spec size N fuel (sg_stream s) before L C) as (f & done & left_ & e & R & D & K).
      rewrite R. exists (Saved (before ++ done) false f e), done, left_. repeat split; assumption.
  Qed.
  Lemma save_closed s d size fuel : (0 < fuel)%nat -> fl_closed (sg_stream s) = true ->
    save fails fuel s d size = Some (Saved (match d with DPath _ => [] | DFile before => before end)
      (match d with DPath _ => true | DFile _ => false end) (sg_stream s) (Some ValueError)).
  Proof.
    intros F C. destruct fuel as [|k]; [lia|]. unfold save. destruct d; cbn [copyfileobj]; unfold file_read; rewrite C; reflexivity.
  Qed.
End Save.

(** lines *)
Lemma line_split s : exists tail, s = line_of s ++ tail /\
  (full_line (line_of s) \/ (tail = [] /\ ~ In 10 (line_of s))).
Proof.
  induction s as [|c s IH]; cbn [line_of]; [exists []; split; [reflexivity|right; auto]|].
  destruct (c =? 10) eqn:E.
  - apply N.eqb_eq in E. subst. exists s. split; [reflexivity|]. left. exists []. split; [reflexivity|auto].
  - destruct IH as (tail & S & K). exists tail. cbn [app]. rewrite <- S. split; [reflexivity|].
    destruct K as [(a & A & N)|(T & N)].
    + left. exists (c :: a). rewrite A. split; [reflexivity|]. intros [I|I]; [lia|auto].
    + right. split; [exact T|]. intros [I|I]; [lia|auto].
Qed.
Lemma iterate_text : forall fuel f, fl_bytes f = false -> fl_closed f = false -> (length (unread f) < fuel)%nat ->
  exists ls f', iterate fuel f = Some (ls, f', None) /\ lines (unread f) ls /\ finished f f'.
Proof.
  induction fuel as [|k IH]; intros f B C L; [lia|]. cbn [iterate]. unfold file_readline. rewrite C, B. cbn [negb andb].
  change (rest f) with (unread f). destruct (line_split (unread f)) as (tail & S & K).
  set (l := line_of (unread f)) in *. clearbody l. destruct l as [|c l].
  - exists [], (at_pos f (fl_pos f + length (@nil N))). split; [reflexivity|].
    assert (U : unread f = []).
    { destruct K as [(a & A & _)|[T _]]; [destruct a; discriminate A|]. rewrite S, T. reflexivity. }
    split; [rewrite U; split; [reflexivity|left; constructor]|]. unfold finished. rewrite (rest_after f [] []) by exact U. auto.
  - set (f1 := at_pos f (fl_pos f + length (c :: l))).
    assert (U : unread f1 = tail) by (apply rest_after; exact S).
    destruct (IH f1) as (ls & f' & R & (Q1 & Q2) & F).
    { exact B. } { exact C. } { rewrite U. rewrite S, app_length in L. cbn [length] in L. lia. }
    rewrite R. exists ((c :: l) :: ls), f'. split; [reflexivity|]. split.
    + split; [cbn [concat]; rewrite Q1, U; symmetry; exact S|].
      destruct K as [A|[T N]].
      * destruct Q2 as [Q2|(init & x & -> & Q2 & Q3)]; [left; constructor; assumption|].
        right. exists ((c :: l) :: init), x. split; [reflexivity|]. split; [constructor; assumption|exact Q3].
      * right. rewrite U, T in Q1. assert (LS : ls = []).
        { destruct Q2 as [Q2|(init & x & E & _ & NE & _)].
          - destruct ls as [|y ls]; [reflexivity|]. inv Q2. destruct H1 as (a & E & _). subst.
            cbn in Q1. destruct a; discriminate Q1.
          - subst. rewrite concat_app in Q1. apply app_eq_nil in Q1. destruct Q1 as [_ Q1].
            cbn in Q1. rewrite app_nil_r in Q1. congruence. }
        subst ls. exists [], (c :: l). split; [reflexivity|]. split; [constructor|]. split; [discriminate|exact N].
    + destruct F as (F1 & F2 & F3 & F4). unfold finished. rewrite F2, F3, F4. auto.
Qed.
Lemma iterate_bytes : forall fuel f, fl_bytes f = true -> fl_closed f = false -> iterate fuel f = None.
Proof.
  induction fuel as [|k IH]; intros f B C; [reflexivity|]. cbn [iterate]. unfold file_readline. rewrite C, B. cbn [negb andb].
  rewrite IH by assumption. reflexivity.
Qed.

(** the object *)
Lemma in_brackets_iff s : in_brackets s = true <-> bracketed s.
Proof.
  unfold in_brackets, bracketed. destruct s as [|c s]; [split; [discriminate|intros [a E]; discriminate E]|].
  rewrite andb_true_iff, !N.eqb_eq. split.
  - intros [-> L]. destruct s as [|x s] using rev_ind; [cbn in L; discriminate L|].
    exists s. rewrite app_comm_cons, last_last in L. subst. reflexivity.
  - intros [a E]. injection E as -> ->. split; [reflexivity|]. rewrite app_comm_cons, last_last. reflexivity.
Qed.
Lemma get_hd l k : h_get l k = hd_error (h_getlist l k).
Proof.
  unfold h_get, h_getlist. induction l as [|[n v] l IH]; [reflexivity|]. cbn [h_getitem filter fst].
  destruct (same n k); [reflexivity|exact IH].
Qed.
Lemma set_here l l' k k' v : h_set l k (HStr v) [] = Ok l' -> same_name k k' -> h_get l' k' = Some v.
Proof.
  intros H S. rewrite get_hd. rewrite (proj1 (set_get k v l l' (set_is_set_effect k v l l' H)) k' S). reflexivity.
Qed.
Lemma set_there l l' k k' v : h_set l k (HStr v) [] = Ok l' -> ~ same_name k k' -> h_get l' k' = h_get l k'.
Proof.
  intros H S. rewrite !get_hd. rewrite (proj2 (set_get k v l l' (set_is_set_effect k v l l' H)) k' S). reflexivity.
Qed.
Lemma set_takes l k v : one_line v -> exists l', h_set l k (HStr v) [] = Ok l'.
Proof.
  intros O. apply validate_spec in O. unfold h_set. cbv zeta. change (stored_value (HStr v) []) with v. rewrite O.
  destruct (set_loop l k v); eexists; reflexivity.
Qed.
Lemma set_refuses l k v : ~ one_line v -> h_set l k (HStr v) [] = Raise ValueError.
Proof.
  intros O. apply validate_false in O. unfold h_set. cbv zeta.
  change (stored_value (HStr v) []) with v. rewrite O. reflexivity.
Qed.
Lemma zdec_line n : one_line (zdec n).
Proof. apply ProofResponse.zdec_one_line. Qed.

Definition apart (a b : str) : Prop := ~ same_name a b.
Lemma type_length_apart : ~ same_name (lit "Content-Length") (lit "content-type").
Proof. unfold same_name. vm_compute. discriminate. Qed.
Lemma storage_made stream filename name ct cl hs s :
  new_storage stream filename name ct cl hs = Ok s ->
  let old := match hs with Some h => h | None => [] end in
  sg_name s = name /\ sg_parsed s = None
  /\ sg_stream s = match stream with Some (f, _) => f | None => File [] 0 true false end
  /\ sg_content_type s = match ct with Some t => Some t | None => h_get old (lit "content-type") end
  /\ (forall n, cl = Some n -> sg_content_length s = Ok n)
  /\ (forall k, (ct <> None -> ~ same_name (lit "Content-Type") k) -> (cl <> None -> ~ same_name (lit "Content-Length") k) ->
        h_get (sg_headers s) k = h_get old k).
Proof.
  unfold new_storage. cbv zeta. set (old := match hs with Some h => h | None => [] end).
  destruct (match filename with Some x => Ok (Some x) | None => _ end) as [fname|e]; [|discriminate].
  cbn [bind].
  destruct (match ct with Some t => _ | None => _ end) as [h1|e] eqn:E1; [|discriminate]. cbn [bind].
  destruct (match cl with Some t => _ | None => _ end) as [h2|e] eqn:E2; [|discriminate]. cbn [bind].
  intros H. inv H. cbn [sg_name sg_parsed sg_stream sg_headers]. do 3 (split; [reflexivity|]).
  assert (T1 : h_get h1 (lit "content-type") = match ct with Some t => Some t | None => h_get old (lit "content-type") end).
  { destruct ct as [t|]; [|inv E1; reflexivity]. eapply set_here; [exact E1|reflexivity]. }
  assert (K1 : forall k, (ct <> None -> ~ same_name (lit "Content-Type") k) -> h_get h1 k = h_get old k).
  { intros k N. destruct ct as [t|]; [|inv E1; reflexivity]. eapply set_there; [exact E1|apply N; discriminate]. }
  split; [|split].
  - unfold sg_content_type. cbn [sg_headers]. rewrite <- T1. destruct cl as [n|]; [|inv E2; reflexivity].
    eapply set_there; [exact E2|exact type_length_apart].
  - intros n ->. unfold sg_content_length. cbn [sg_headers].
    rewrite (set_here _ _ _ (lit "content-length") _ E2) by reflexivity.
    rewrite py_int_zdec. destruct (zdec n) eqn:Z0; [|reflexivity]. 
    pose proof (py_int_zdec n) as P. rewrite Z0 in P. discriminate P.
  - intros k N1 N2. destruct cl as [n|]; [|inv E2; apply K1; exact N1].
    rewrite (set_there _ _ _ k _ E2) by (apply N2; discriminate). apply K1. exact N1.
Qed.
Lemma storage_name stream filename name ct cl hs s :
  new_storage stream filename name ct cl hs = Ok s ->
  match filename, stream with
  | Some x, _ => sg_filename s = Some x
  | None, Some (_, NText t) => (bracketed t -> sg_filename s = None) /\ (~ bracketed t -> sg_filename s = Some t)
  | None, Some (_, NBytes b) => forall t, utf8_encode t = Ok b ->
      (bracketed t -> sg_filename s = None) /\ (~ bracketed t -> sg_filename s = Some t)
  | None, Some (_, NNumber _) => False
  | None, Some (_, NoName) | None, None => sg_filename s = None
  end.
Proof.
  unfold new_storage. cbv zeta.
  destruct (match filename with Some x => Ok (Some x) | None => _ end) as [fname|e] eqn:E; [|discriminate].
  cbn [bind].
  destruct (match ct with Some t => _ | None => _ end) as [h1|e] eqn:E1; [|discriminate]. cbn [bind].
  destruct (match cl with Some t => _ | None => _ end) as [h2|e] eqn:E2; [|discriminate]. cbn [bind].
  intros H. inv H. cbn [sg_filename]. clear E1 E2. destruct filename as [x|]; [inv E; reflexivity|].
  assert (G : forall t, (bracketed t -> (if in_brackets t then None else Some t) = None)
                     /\ (~ bracketed t -> (if in_brackets t then None else Some t) = Some t)).
  { intros t. pose proof (in_brackets_iff t) as I. destruct (in_brackets t); split; intros B; try reflexivity.
    - exfalso. apply B. apply I. reflexivity.
    - exfalso. apply I in B. discriminate B. }
  destruct stream as [[f [|t|b|z]]|]; cbn [name_of_stream] in E.
  - inv E. reflexivity.
  - inv E. apply G.
  - intros t U. destruct (utf8_decode Replace b) as [t'|e] eqn:D; [|discriminate E]. cbn [bind] in E. inv E.
    pose proof (utf8_roundtrip Replace t b U) as D'. rewrite D in D'. inv D'. apply G.
  - destruct (z =? 0)%Z; discriminate E.
  - inv E. reflexivity.
Qed.
Lemma storage_total stream filename name ct cl hs :
  (filename <> None \/ match stream with Some (_, NNumber _) => False | _ => True end) ->
  match ct with Some t => one_line t | None => True end ->
  exists s, new_storage stream filename name ct cl hs = Ok s.
Proof.
  intros F T. unfold new_storage. cbv zeta. set (old := match hs with Some h => h | None => [] end).
  assert (E : exists fname, match filename with Some x => Ok (Some x) | None =>
    name_of_stream (match stream with Some (_, n) => n | None => NoName end) end = Ok fname).
  { destruct filename as [x|]; [eexists; reflexivity|]. destruct F as [F|F]; [congruence|].
    destruct stream as [[f [|t|b|z]]|]; try (eexists; reflexivity); [|destruct F].
    cbn [name_of_stream]. destruct (ProofRequest.decode_replace_total b) as [t ->]. eexists. reflexivity. }
  destruct E as [fname ->]. cbn [bind].
  assert (E1 : exists h1, match ct with Some t => h_set old (lit "Content-Type") (HStr t) [] | None => Ok old end = Ok h1).
  { destruct ct as [t|]; [apply set_takes; exact T|eexists; reflexivity]. }
  destruct E1 as [h1 ->]. cbn [bind].
  assert (E2 : exists h2, match cl with Some n => h_set h1 (lit "Content-Length") (HStr (zdec n)) [] | None => Ok h1 end = Ok h2).
  { destruct cl as [n|]; [apply set_takes; apply zdec_line|eexists; reflexivity]. }
  destruct E2 as [h2 ->]. cbn [bind]. eexists. reflexivity.
Qed.
Lemma type_shown s h opts :
  option_name h -> Forall (fun kv => option_name (fst kv)) opts -> NoDup (map fst opts) ->
  Forall (fun kv => forall v, snd kv = Some v ->
            v <> [] /\ (fst kv = lit "filename" -> forall r, v <> 92 :: r)) opts ->
  sg_parsed s = None -> sg_content_type s = Some (dump_options_header (Some h) opts) ->
  (exists s', sg_mimetype s = Ok (lower h, s')) /\ (exists s', sg_mimetype_params s = Ok (opts, s')).
Proof.
  intros A B C D P T. unfold sg_mimetype, sg_mimetype_params, parse_type. rewrite P, T.
  rewrite (options_roundtrip_spec h opts A B C D). split; eexists; reflexivity.
Qed.
Lemma type_kept s p : sg_parsed s = Some p ->
  sg_mimetype s = Ok (lower (fst p), s) /\ sg_mimetype_params s = Ok (snd p, s).
Proof. intros P. unfold sg_mimetype, sg_mimetype_params, parse_type. rewrite P. split; reflexivity. Qed.
