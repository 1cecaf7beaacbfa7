(** Lemmas for the header quoting properties. *)
From Coq Require Import Arith List NArith ZArith Bool Lia ZifyBool ZifyN.
From Verif Require Import PyStr PyStrFacts Regex RegexFacts ModelQuote SpecQuote.
Import ListNotations.
Open Scope N_scope.

(** ** Escaping *)
Definition esc_c (c : N) : str :=
  if c =? 92 then [92; 92] else if c =? 34 then [92; 34] else [c].
Definition esc (v : str) : str := flat_map esc_c v.

Lemma replace1 c new s : replace [c] new s = flat_map (fun x => if x =? c then new else [x]) s.
Proof.
  induction s as [|x s IH]; auto. cbn [flat_map]. destruct (x =? c) eqn:E.
  - apply N.eqb_eq in E; subst. rewrite <- IH. change (c :: s) with ([c] ++ s).
    apply replace_hit. discriminate.
  - rewrite replace_miss, IH; auto. cbn [starts]. rewrite N.eqb_sym, E. auto.
Qed.

Lemma esc_replace v : replace [34] [92; 34] (replace [92] [92; 92] v) = esc v.
Proof.
  rewrite !replace1. unfold esc. induction v as [|c v IH]; auto.
  cbn [flat_map]. rewrite flat_map_app, IH. f_equal. unfold esc_c.
  destruct (c =? 92) eqn:E1; [reflexivity|]. cbn [flat_map]. rewrite app_nil_r.
  destruct (c =? 34); auto.
Qed.

(** The two replaces of [unquote_header_value] undo [esc]. After the first
    replace, each escaped backslash is one backslash and each escaped quote is
    still two characters. *)
Definition mid_c (c : N) : str := if c =? 34 then [92; 34] else [c].

Lemma unesc1 v : replace [92; 92] [92] (esc v) = flat_map mid_c v.
Proof.
  unfold esc. induction v as [|c v IH]; auto. cbn [flat_map]. unfold esc_c at 1.
  destruct (c =? 92) eqn:E1.
  - apply N.eqb_eq in E1; subst. rewrite replace_hit by discriminate. rewrite IH. auto.
  - destruct (c =? 34) eqn:E2.
    + apply N.eqb_eq in E2; subst. cbn [app]. rewrite replace_miss by auto.
      rewrite replace_miss by auto. rewrite IH. auto.
    + cbn [app]. rewrite replace_miss, IH.
      * unfold mid_c at 2. rewrite E2. auto.
      * cbn [starts]. rewrite N.eqb_sym, E1. auto.
Qed.

Lemma unesc2 v : replace [92; 34] [34] (flat_map mid_c v) = v.
Proof.
  induction v as [|c v IH]; auto. cbn [flat_map]. unfold mid_c at 1.
  destruct (c =? 34) eqn:E.
  - apply N.eqb_eq in E; subst. rewrite replace_hit by discriminate. rewrite IH. auto.
  - cbn [app]. rewrite replace_miss, IH; auto. cbn [starts].
    destruct (92 =? c) eqn:E2; auto. apply N.eqb_eq in E2; subst.
    destruct v as [|d v]; auto. cbn [flat_map]. unfold mid_c at 1.
    destruct (d =? 34) eqn:E3; cbn [app]; auto.
    rewrite (N.eqb_sym 34 d), E3. auto.
Qed.

Lemma unesc v : replace [92; 34] [34] (replace [92; 92] [92] (esc v)) = v.
Proof. rewrite unesc1. apply unesc2. Qed.

Lemma middle_quoted v : middle (34 :: v ++ [34]) = v.
Proof. unfold middle. cbn [tl]. apply removelast_last. Qed.

Lemma quoted_both_wrap v : quoted_both (34 :: v ++ [34]) = true.
Proof.
  unfold quoted_both. rewrite N.eqb_refl. rewrite app_comm_cons, last_last. auto.
Qed.

Lemma token_char_spec c : is_token_char c = true <-> rfc_tchar c.
Proof.
  unfold is_token_char, rfc_tchar, is_ascii_alnum, is_ascii_alpha, is_ascii_upper, is_ascii_lower,
    is_ascii_digit, between.
  change (lit "!#$%&'*+-.^_`|~") with token_extra.
  rewrite !orb_true_iff, mem_In, !andb_true_iff, !N.leb_le. tauto.
Qed.

(** A token character is none of the delimiters. *)
Lemma token_char_ne c : is_token_char c = true ->
  c <> 34 /\ c <> 92 /\ c <> 44 /\ c <> 59 /\ c <> 61 /\ c <> 10 /\ is_space c = false.
Proof.
  intros H.
  assert (Hl : c <= 255).
  { apply token_char_spec in H. destruct H as [H|[H|[H|H]]]; try lia.
    cbn in H. repeat destruct H as [<-|H]; try lia; try contradiction. }
  assert (F : forallb (fun n => let c := N.of_nat n in
     implb (is_token_char c)
       (negb (c =? 34) && negb (c =? 92) && negb (c =? 44) && negb (c =? 59) && negb (c =? 61)
        && negb (c =? 10) && negb (is_space c))) (seq 0 256) = true) by (vm_compute; reflexivity).
  rewrite forallb_forall in F. specialize (F (N.to_nat c)).
  assert (In (N.to_nat c) (seq 0 256)) by (apply in_seq; lia).
  specialize (F H0). cbv zeta in F. rewrite N2Nat.id, H in F. cbn [implb] in F.
  repeat rewrite andb_true_iff in F. rewrite !negb_true_iff, !N.eqb_neq in F. intuition.
Qed.

Lemma quote_cases allow v :
  (quote_header_value allow v = v /\ forallb is_token_char v = true /\ allow = true) \/
  quote_header_value allow v = 34 :: esc v ++ [34].
Proof.
  unfold quote_header_value, quote_header_value_x. rewrite esc_replace.
  replace (forallb (fun c => is_token_char c || mem c []) v) with (forallb is_token_char v).
  - destruct allow; cbn [andb]; auto. destruct (forallb is_token_char v) eqn:E; auto.
  - induction v; cbn [forallb]; auto. rewrite IHv. cbn [mem existsb]. rewrite orb_false_r. auto.
Qed.

Lemma quoted_both_token v : forallb is_token_char v = true -> quoted_both v = false.
Proof.
  destruct v; auto. cbn [forallb quoted_both]. rewrite andb_true_iff. intros [H _].
  apply token_char_ne in H. destruct (n =? 34) eqn:E; auto. lia.
Qed.

Lemma quote_unquote allow v : unquote_header_value false (quote_header_value allow v) = v.
Proof.
  destruct (quote_cases allow v) as [(-> & H & _)| ->]; unfold unquote_header_value.
  - rewrite quoted_both_token; auto.
  - rewrite quoted_both_wrap, middle_quoted. cbn [negb orb]. apply unesc.
Qed.

Lemma esc_qbody v : qbody (esc v).
Proof.
  unfold esc. induction v; cbn [flat_map]; [constructor|]. unfold esc_c.
  destruct (a =? 92) eqn:E1; [cbn [app]; apply qb_pair; auto|].
  destruct (a =? 34) eqn:E2; cbn [app]; [apply qb_pair; auto|].
  apply qb_plain; auto; apply N.eqb_neq; auto.
Qed.

Lemma quote_form allow v :
  let q := quote_header_value allow v in
  (q = v /\ Forall rfc_tchar v) \/ (exists b, q = 34 :: b ++ [34] /\ qbody b).
Proof.
  cbv zeta. destruct (quote_cases allow v) as [(-> & H & _)| ->].
  - left. split; auto. rewrite Forall_forall. rewrite forallb_forall in H.
    intros x Hx. apply token_char_spec. auto.
  - right. exists (esc v). auto using esc_qbody.
Qed.

(** ** The list scanner *)
Lemma scan_esc v : forall part s,
  http_list_scan false true part (esc v ++ s) = http_list_scan false true (rev v ++ part) s.
Proof.
  unfold esc. induction v as [|c v IH]; intros; auto.
  cbn [flat_map]. unfold esc_c. destruct (c =? 92) eqn:E1.
  - apply N.eqb_eq in E1; subst. cbn. rewrite IH. f_equal. rewrite <- app_assoc. auto.
  - destruct (c =? 34) eqn:E2.
    + apply N.eqb_eq in E2; subst. cbn. rewrite IH. f_equal. rewrite <- app_assoc. auto.
    + cbn [app http_list_scan]. rewrite E1, E2, IH. f_equal. cbn [rev]. rewrite <- app_assoc. auto.
Qed.

Lemma scan_quoted v part s :
  http_list_scan false false part (34 :: esc v ++ 34 :: s) =
  http_list_scan false false (rev (34 :: v ++ [34]) ++ part) s.
Proof.
  cbn [http_list_scan]. change (34 =? 44) with false. change (34 =? 34) with true. cbn iota.
  rewrite scan_esc. cbn [http_list_scan]. change (34 =? 92) with false. change (34 =? 34) with true.
  cbn iota. f_equal. cbn [rev]. rewrite rev_app_distr. cbn [rev app]. rewrite <- app_assoc. auto.
Qed.

Definition plain_c (c : N) : bool := negb (c =? 44) && negb (c =? 34).
Lemma scan_plain v : forall part s,
  forallb plain_c v = true ->
  http_list_scan false false part (v ++ s) = http_list_scan false false (rev v ++ part) s.
Proof.
  induction v as [|c v IH]; intros part s H; auto.
  cbn [forallb] in H. apply andb_true_iff in H as [Hc Hv].
  unfold plain_c in Hc. apply andb_true_iff in Hc as [H1 H2].
  cbn [app http_list_scan]. apply negb_true_iff in H1, H2. rewrite H1, H2, IH; auto.
  f_equal. cbn [rev]. rewrite <- app_assoc. auto.
Qed.

Lemma token_plain v : forallb is_token_char v = true -> forallb plain_c v = true.
Proof.
  apply forallb_impl. intros c H. apply token_char_ne in H. unfold plain_c.
  rewrite andb_true_iff, !negb_true_iff, !N.eqb_neq. tauto.
Qed.

(** What the scanner sees of a dumped value: the quotes stay, the escapes go. *)
Definition seen (allow : bool) (v : str) : str :=
  if allow && forallb is_token_char v then v else 34 :: v ++ [34].

Lemma quote_seen_cases allow v :
  (quote_header_value allow v = v /\ seen allow v = v /\ forallb is_token_char v = true) \/
  (quote_header_value allow v = 34 :: esc v ++ [34] /\ seen allow v = 34 :: v ++ [34]).
Proof.
  unfold seen. unfold quote_header_value, quote_header_value_x. rewrite esc_replace.
  replace (forallb (fun c => is_token_char c || mem c []) v) with (forallb is_token_char v).
  - destruct (allow && forallb is_token_char v) eqn:E; auto. apply andb_true_iff in E. tauto.
  - clear. induction v; cbn [forallb]; auto. rewrite IHv. cbn [mem existsb]. rewrite orb_false_r. auto.
Qed.

Lemma scan_value allow v part s :
  http_list_scan false false part (quote_header_value allow v ++ s) =
  http_list_scan false false (rev (seen allow v) ++ part) s.
Proof.
  destruct (quote_seen_cases allow v) as [(-> & -> & H)|(-> & ->)].
  - apply scan_plain. apply token_plain; auto.
  - cbn [app]. rewrite <- app_assoc. apply scan_quoted.
Qed.

(** Ends of an item that stop [strip]. *)
Definition strip_safe (s : str) : Prop :=
  s = [] \/ exists a b m, is_space a = false /\ is_space b = false /\
                          (s = [a] /\ a = b \/ s = a :: m ++ [b]).

Lemma strip_safe_strip s : strip_safe s -> strip s = s.
Proof.
  intros [->|(a & b & m & Ha & Hb & H)]; auto.
  apply strip_by_id.
  - intros c r E. destruct H as [[H _]|H]; rewrite E in H; inv H; auto.
  - intros c r E. destruct H as [[H ->]|H]; rewrite E in H.
    + destruct r; inv H; auto. destruct r; discriminate.
    + rewrite app_comm_cons in H. apply app_inj_tail in H as [_ ->]. auto.
Qed.

Lemma strip_space s : strip (32 :: s) = strip s.
Proof. reflexivity. Qed.

Lemma strip_safe_ends s :
  (forall c r, s = c :: r -> is_space c = false) -> (forall c r, s = r ++ [c] -> is_space c = false) ->
  strip_safe s.
Proof.
  intros H1 H2. destruct s as [|a s]; [left; auto|].
  right. destruct (exists_last (l := a :: s) ltac:(discriminate)) as (m & b & E).
  exists a, b. destruct m as [|a' m].
  - inv E. exists []. repeat split; eauto.
  - inv E. exists m. repeat split; eauto. apply (H2 b (a' :: m)). auto.
Qed.

Lemma token_strip_safe v : forallb is_token_char v = true -> strip_safe v.
Proof.
  intros H. rewrite forallb_forall in H. apply strip_safe_ends; intros c r ->.
  - apply token_char_ne. apply H. left; auto.
  - apply token_char_ne. apply H. apply in_or_app; right; left; auto.
Qed.

Lemma seen_strip_safe allow v : strip_safe (seen allow v).
Proof.
  destruct (quote_seen_cases allow v) as [(_ & -> & H)|(_ & ->)].
  - apply token_strip_safe; auto.
  - right. exists 34, 34, v. auto.
Qed.

Lemma parse_http_list_join (A : Type) (f g : A -> str) l :
  (forall x part s, In x l -> http_list_scan false false part (f x ++ s) =
                    http_list_scan false false (rev (g x) ++ part) s) ->
  (forall x, In x l -> strip_safe (g x)) ->
  (forall x, l = [x] -> g x <> []) ->
  parse_http_list (join [44; 32] (map f l)) = map g l.
Proof.
  intros Hf Hs Hn.
  set (l2 := map (fun x => (f x, g x)) l).
  (* restrict to the pairs that occur *)
  assert (Hall : forall p, In p l2 ->
     (forall part s, http_list_scan false false part (fst p ++ s) =
                     http_list_scan false false (rev (snd p) ++ part) s) /\ strip_safe (snd p)).
  { intros p Hp. apply in_map_iff in Hp as (x & <- & Hx). cbn [fst snd]. split; auto. }
  replace (map f l) with (map fst l2) by (unfold l2; rewrite map_map; auto).
  replace (map g l) with (map snd l2) by (unfold l2; rewrite map_map; auto).
  assert (Hn2 : forall p, l2 = [p] -> snd p <> []).
  { intros p Hp. unfold l2 in Hp. destruct l as [|x [|]]; inv Hp. apply (Hn x); auto. }
  clearbody l2. clear Hf Hs Hn l.
  unfold parse_http_list. destruct l2 as [|x l]; auto.
  assert (S : forall (l : list (str * str)) x part, (forall p, In p (x :: l) -> (forall part s, http_list_scan false false part (fst p ++ s) =
                     http_list_scan false false (rev (snd p) ++ part) s) /\ strip_safe (snd p)) ->
     http_list_scan false false part (join [44; 32] (map fst (x :: l))) =
     match l with
     | [] => match rev (snd x) ++ part with [] => [] | p => [rev p] end
     | _ => rev (rev (snd x) ++ part) :: map (fun y => 32 :: snd y) l
     end).
  { clear. induction l as [|y l IH]; intros x part Hf.
    - cbn [map join]. rewrite <- (app_nil_r (fst x)).
      rewrite (proj1 (Hf x (or_introl eq_refl))). cbn [http_list_scan]. destruct (rev (snd x) ++ part); auto.
    - change (join [44; 32] (map fst (x :: y :: l)))
        with (fst x ++ [44; 32] ++ join [44; 32] (map fst (y :: l))).
      rewrite (proj1 (Hf x (or_introl eq_refl))). cbn [app].
      change (http_list_scan false false (rev (snd x) ++ part) (44 :: 32 :: join [44; 32] (map fst (y :: l))))
        with (rev (rev (snd x) ++ part) :: http_list_scan false false [32] (join [44; 32] (map fst (y :: l)))).
      f_equal. rewrite IH by (intros p Hp; apply Hf; right; auto). destruct l as [|z l].
      + destruct (rev (snd y) ++ [32]) eqn:E; [destruct (rev (snd y)); discriminate|].
        rewrite <- E, rev_app_distr, rev_involutive. auto.
      + cbn [map]. rewrite rev_app_distr, rev_involutive. auto. }
  rewrite S by auto. rewrite app_nil_r. destruct l as [|y l].
  - destruct (rev (snd x)) eqn:E.
    + exfalso. apply (Hn2 x eq_refl). rewrite <- (rev_involutive (snd x)), E. auto.
    + rewrite <- E, rev_involutive. cbn [map]. rewrite strip_safe_strip; auto.
      apply (Hall x); left; auto.
  - rewrite rev_involutive. cbn [map]. rewrite strip_space, !strip_safe_strip.
    + f_equal. f_equal. rewrite map_map. apply map_ext_in. intros z Hz.
      rewrite strip_space, strip_safe_strip; auto. apply Hall. right; right; auto.
    + apply Hall. right; left; auto.
    + apply Hall. left; auto.
Qed.

(** What reading back does to a value: nothing, unless the value wears quotes. *)
Definition reread (v : str) : str := unquote_header_value false v.

Lemma quoted_both_spec v : quoted_both v = true <-> wears_quotes v.
Proof.
  unfold wears_quotes. destruct v as [|c v].
  - split; [discriminate|]. intros [H|[m H]]; discriminate.
  - cbn [quoted_both]. rewrite andb_true_iff, !N.eqb_eq. split.
    + intros [-> H]. destruct v as [|d v]; [left; auto|right].
      destruct (exists_last (l := d :: v) ltac:(discriminate)) as (m & b & E).
      rewrite E in *. rewrite app_comm_cons, last_last in H. subst. eauto.
    + intros [H|[m H]]; inv H; auto. split; auto. rewrite app_comm_cons, last_last. auto.
Qed.

Lemma reread_id v : ~ wears_quotes v -> reread v = v.
Proof.
  intros H. unfold reread, unquote_header_value. destruct (quoted_both v) eqn:E; auto.
  apply quoted_both_spec in E. contradiction.
Qed.

Lemma reread_token v : forallb is_token_char v = true -> reread v = v.
Proof. intros H. unfold reread, unquote_header_value. rewrite quoted_both_token; auto. Qed.

Lemma reread_seen allow v :
  (if quoted_both (seen allow v) then unquote_header_value false (middle (seen allow v)) else seen allow v)
  = reread v.
Proof.
  destruct (quote_seen_cases allow v) as [(_ & -> & H)|(_ & ->)].
  - rewrite quoted_both_token, reread_token; auto.
  - rewrite quoted_both_wrap, middle_quoted. auto.
Qed.

Lemma list_header_exact allow l :
  (l = [[]] -> allow = false) ->
  parse_list_header (dump_header_list allow l) = map reread l.
Proof.
  intros Hl. unfold parse_list_header, dump_header_list.
  rewrite (parse_http_list_join _ _ (seen allow)).
  - rewrite map_map. apply map_ext. apply reread_seen.
  - intros. apply scan_value.
  - intros. apply seen_strip_safe.
  - intros x ->. unfold seen. destruct allow; cbn [andb]; [|discriminate].
    destruct (forallb is_token_char x); [|discriminate]. intros ->. discriminate Hl. auto.
Qed.

Lemma list_header_roundtrip allow l :
  (l = [[]] -> allow = false) -> Forall (fun v => ~ wears_quotes v) l ->
  parse_list_header (dump_header_list allow l) = l.
Proof.
  intros Hl H. rewrite list_header_exact; auto. rewrite <- (map_id l) at 2.
  apply map_ext_in. rewrite Forall_forall in H. intros. apply reread_id; auto.
Qed.

(** ** Dict headers *)
Definition key_ok (k : str) : Prop := is_token k.

Lemma key_token k : key_ok k -> forallb is_token_char k = true /\ k <> [].
Proof.
  intros [H1 H2]. split; auto. rewrite forallb_forall. rewrite Forall_forall in H2.
  intros. apply token_char_spec. auto.
Qed.

Definition item_seen (allow : bool) (kv : str * option str) : str :=
  match snd kv with
  | None => fst kv
  | Some v => fst kv ++ 61 :: seen allow v
  end.

Lemma item_scan allow kv part s :
  forallb is_token_char (fst kv) = true ->
  http_list_scan false false part (dump_item allow kv ++ s) =
  http_list_scan false false (rev (item_seen allow kv) ++ part) s.
Proof.
  intros H. unfold dump_item, item_seen. destruct kv as [k [v|]]; cbn [fst snd] in *.
  - rewrite <- app_assoc, scan_plain by (apply token_plain; auto).
    cbn [app]. change (61 :: quote_header_value allow v ++ s) with ([61] ++ quote_header_value allow v ++ s).
    rewrite scan_plain by auto. rewrite scan_value. f_equal.
    rewrite rev_app_distr. cbn [rev]. rewrite <- !app_assoc. auto.
  - apply scan_plain, token_plain; auto.
Qed.

Lemma last_in {A} (l : list A) : forall r c, r ++ [c] = l -> In c l.
Proof. intros r c <-. apply in_or_app; right; left; auto. Qed.

Lemma item_strip_safe allow kv :
  forallb is_token_char (fst kv) = true -> fst kv <> [] -> strip_safe (item_seen allow kv).
Proof.
  intros H Hn. unfold item_seen. destruct kv as [k [v|]]; cbn [fst snd] in *.
  2: apply token_strip_safe; auto.
  apply strip_safe_ends; intros c r E.
  - destruct k as [|d k]; [congruence|]. inv E. cbn [forallb] in H.
    apply andb_true_iff in H as [H _]. apply token_char_ne; auto.
  - destruct (quote_seen_cases allow v) as [(_ & Es & Ht)|(_ & Es)]; rewrite Es in E.
    + destruct v as [|d v].
      * apply app_inj_tail in E as [_ <-]. auto.
      * destruct (exists_last (l := d :: v) ltac:(discriminate)) as (m & b & Eb).
        rewrite Eb in *. rewrite app_comm_cons, app_assoc in E.
        apply app_inj_tail in E as [_ <-]. rewrite forallb_app in Ht.
        apply andb_true_iff in Ht as [_ Ht]. cbn [forallb] in Ht. rewrite andb_true_r in Ht.
        apply token_char_ne; auto.
    + rewrite app_comm_cons, app_comm_cons, app_assoc in E. apply app_inj_tail in E as [_ <-]. auto.
Qed.

Lemma token_no61 k : forallb is_token_char k = true -> ~ In 61 k.
Proof.
  intros H Hi. rewrite forallb_forall in H. apply H in Hi. apply token_char_ne in Hi. tauto.
Qed.

Lemma parse_item_seen allow kv :
  forallb is_token_char (fst kv) = true ->
  parse_dict_item (item_seen allow kv) = (fst kv, option_map reread (snd kv)).
Proof.
  intros H. unfold parse_dict_item, item_seen. destruct kv as [k [v|]]; cbn [fst snd option_map] in *.
  - rewrite split1_app by (apply token_no61; auto). rewrite reread_seen. auto.
  - rewrite (proj2 (split1_none 61 k)); auto. apply token_no61; auto.
Qed.

Lemma fold_dset_nodup {V} (l acc : dict V) :
  NoDup (map fst (acc ++ l)) ->
  fold_left (fun d kv => dset d (fst kv) (snd kv)) l acc = acc ++ l.
Proof.
  revert acc; induction l as [|[k v] l IH]; intros acc H; cbn [fold_left fst snd].
  - rewrite app_nil_r; auto.
  - rewrite dset_notin.
    + rewrite IH; rewrite <- app_assoc; auto.
    + apply dget_none. rewrite map_app in H. cbn [map fst] in H. apply NoDup_remove_2 in H.
      intros Hi. apply H. apply in_or_app; auto.
Qed.

Lemma fold_parse_items {A} (f : A -> str * option str) l acc :
  fold_left (fun d x => let kv := f x in dset d (fst kv) (snd kv)) l acc =
  fold_left (fun d kv => dset d (fst kv) (snd kv)) (map f l) acc.
Proof. revert acc; induction l; intros; cbn [fold_left map]; auto. Qed.

Lemma dict_header_exact allow (d : dict (option str)) :
  NoDup (map fst d) -> Forall (fun kv => is_token (fst kv)) d ->
  parse_dict_header (dump_header_dict allow d) =
  map (fun kv => (fst kv, option_map reread (snd kv))) d.
Proof.
  intros Hd Hk. rewrite Forall_forall in Hk.
  assert (Ht : forall kv, In kv d -> forallb is_token_char (fst kv) = true /\ fst kv <> []).
  { intros kv H. apply key_token. apply Hk. auto. }
  unfold parse_dict_header, dump_header_dict.
  rewrite (parse_http_list_join _ _ (item_seen allow)).
  - rewrite fold_parse_items, map_map.
    rewrite (map_ext_in _ (fun kv => (fst kv, option_map reread (snd kv)))).
    + apply (fold_dset_nodup (map _ d) []). cbn [app]. rewrite map_map. cbn [fst]. auto.
    + intros kv H. apply parse_item_seen. apply Ht; auto.
  - intros. apply item_scan. apply Ht; auto.
  - intros. apply item_strip_safe; apply Ht; auto.
  - intros x ->. destruct (Ht x (or_introl eq_refl)) as [_ H].
    unfold item_seen. destruct (snd x); auto. destruct (fst x); discriminate || congruence.
Qed.

Lemma dict_header_roundtrip allow (d : dict (option str)) :
  NoDup (map fst d) -> Forall (fun kv => is_token (fst kv)) d ->
  Forall (fun kv => forall v, snd kv = Some v -> ~ wears_quotes v) d ->
  parse_dict_header (dump_header_dict allow d) = d.
Proof.
  intros Hd Hk Hv. rewrite dict_header_exact; auto.
  rewrite <- (map_id d) at 2. apply map_ext_in. rewrite Forall_forall in Hv.
  intros [k [v|]] H; cbn [fst snd option_map]; auto. rewrite reread_id; auto.
  apply (Hv _ H). auto.
Qed.

Lemma quote_unquote_x extra allow v :
  ~ In 34 extra ->
  unquote_header_value false (quote_header_value_x extra allow v) = v.
Proof.
  intros Hx. unfold quote_header_value_x. rewrite esc_replace.
  destruct (allow && forallb _ v) eqn:E; unfold unquote_header_value.
  - apply andb_true_iff in E as [_ E]. replace (quoted_both v) with false; auto.
    symmetry. destruct v; auto. cbn [forallb quoted_both] in *.
    apply andb_true_iff in E as [E _]. destruct (n =? 34) eqn:E34; auto.
    apply N.eqb_eq in E34. subst. apply orb_true_iff in E as [E|E]; [discriminate|].
    apply mem_In in E. contradiction.
  - rewrite quoted_both_wrap, middle_quoted. cbn [negb orb]. apply unesc.
Qed.
