(** Proofs about make_line_iter and make_chunk_iter. *)
From Coq Require Import Arith List NArith ZArith Bool Lia ZifyBool ZifyN ZifyNat.
From Verif Require Import PyStr PyStrFacts ModelStream SpecStream.
Import ListNotations.
Open Scope N_scope.

(** ** Lines of a text, as a function *)
Fixpoint lines (s : str) : list str :=
  match s with
  | [] => []
  | c :: s' =>
      if c =? 13 then
        match s' with
        | d :: s'' => if d =? 10 then [c; d] :: lines s'' else [c] :: lines s'
        | [] => [[c]]
        end
      else if c =? 10 then [c] :: lines s'
      else push c (lines s')
  end.

Lemma lines_lf0 u : lines (10 :: u) = [10] :: lines u.
Proof. reflexivity. Qed.
Lemma lines_crlf0 u : lines (13 :: 10 :: u) = [13; 10] :: lines u.
Proof. reflexivity. Qed.
Lemma lines_cr0 u : (forall r, u <> 10 :: r) -> lines (13 :: u) = [13] :: lines u.
Proof. intros H. destruct u as [|d u]; [reflexivity|]. cbn. destruct (N.eqb_spec d 10) as [->|]; auto. destruct (H u eq_refl). Qed.
Lemma lines_other c u : c <> 10 -> c <> 13 -> lines (c :: u) = push c (lines u).
Proof. intros A B. cbn. destruct (N.eqb_spec c 13); [congruence|]. destruct (N.eqb_spec c 10); [congruence|]. auto. Qed.

Lemma no_break_cons c b : no_break (c :: b) <-> c <> 10 /\ c <> 13 /\ no_break b.
Proof. unfold no_break. cbn. intuition congruence. Qed.
Lemma no_break_snoc c b : no_break b -> c <> 10 -> c <> 13 -> no_break (b ++ [c]).
Proof. unfold no_break. rewrite !in_app_iff. cbn. intuition congruence. Qed.
Lemma no_break_nil : no_break [].
Proof. split; intros []. Qed.

Definition glue (b : str) (L : list str) : list str := fold_right push L b.
Lemma lines_glue b u : no_break b -> lines (b ++ u) = glue b (lines u).
Proof.
  induction b as [|c b IH]; auto. rewrite no_break_cons. intros (A & B & C).
  cbn [app glue fold_right]. rewrite lines_other; auto. rewrite IH; auto.
Qed.
Lemma glue_cons b h t : glue b (h :: t) = (b ++ h) :: t.
Proof. induction b as [|c b IH]; auto. cbn [glue fold_right]. fold (glue b (h :: t)). rewrite IH. auto. Qed.
Lemma glue_nil b : b <> [] -> glue b [] = [b].
Proof.
  induction b as [|c b IH]; [easy|]. intros _. cbn [glue fold_right]. fold (glue b []).
  destruct b; auto. rewrite IH; [auto|discriminate].
Qed.

Lemma lines_sound s : lines_of s (lines s).
Proof.
  induction s as [s IH] using (induction_ltof1 _ (@length N)); unfold ltof in IH.
  destruct s as [|c s]; [constructor|].
  destruct (N.eq_dec c 10) as [->|N1].
  { rewrite lines_lf0. apply (lines_lf [] s); [apply no_break_nil|]. apply IH. cbn. lia. }
  destruct (N.eq_dec c 13) as [->|N2].
  { destruct s as [|d s].
    - apply (lines_cr [] []); [apply no_break_nil|discriminate|constructor].
    - destruct (N.eq_dec d 10) as [->|N3].
      + rewrite lines_crlf0. apply (lines_crlf [] s); [apply no_break_nil|]. apply IH. cbn. lia.
      + rewrite lines_cr0 by congruence. apply (lines_cr [] (d :: s)); [apply no_break_nil|congruence|].
        apply IH. cbn. lia. }
  rewrite lines_other; auto. specialize (IH s ltac:(cbn; lia)).
  inversion IH as [H1 H2|l Hl Hb H1 H2|b r ls Hb Hr H1 H2|b r ls Hb Hr H1 H2|b r ls Hb Hc Hr H1 H2].
  - apply lines_last; [discriminate|]. rewrite no_break_cons. repeat split; auto; apply no_break_nil.
  - subst l. cbn. apply lines_last; [discriminate|]. rewrite no_break_cons. auto.
  - cbn. apply (lines_lf (c :: b) r ls); auto. rewrite no_break_cons. auto.
  - cbn. apply (lines_crlf (c :: b) r ls); auto. rewrite no_break_cons. auto.
  - cbn. apply (lines_cr (c :: b) r ls); auto. rewrite no_break_cons. auto.
Qed.

Lemma lines_of_fun s L : lines_of s L -> L = lines s.
Proof.
  induction 1 as [|l Hl Hb|b r ls Hb Hr IH|b r ls Hb Hr IH|b r ls Hb Hc Hr IH].
  - auto.
  - rewrite <- (app_nil_r l) at 2. rewrite lines_glue; auto. cbn [lines]. rewrite glue_nil; auto.
  - rewrite lines_glue; auto. rewrite lines_lf0, glue_cons, IH. auto.
  - rewrite lines_glue; auto. rewrite lines_crlf0, glue_cons, IH. auto.
  - rewrite lines_glue; auto. rewrite lines_cr0, glue_cons, IH; auto.
Qed.

(** ** The implementation on strings instead of lists of strings *)
Fixpoint seg (b : str) (s : str) : list str * str :=
  match s with
  | [] => ([], b)
  | c :: s' =>
      if c =? 13 then
        match s' with
        | d :: s'' =>
            if d =? 10 then (let (o, b') := seg [] s'' in ((b ++ [c; d]) :: o, b'))
            else (let (o, b') := seg [] s' in ((b ++ [c]) :: o, b'))
        | [] => ([b ++ [c]], [])
        end
      else if c =? 10 then (let (o, b') := seg [] s' in ((b ++ [c]) :: o, b'))
      else seg (b ++ [c]) s'
  end.
Fixpoint bl (b : str) (chunks : list str) : list str :=
  match chunks with
  | [] => if nonempty b then [b] else []
  | c :: cs => let (o, b') := seg b c in o ++ bl b' cs
  end.
Definition segs (b s : str) (chunks : list str) : list str :=
  let (o, b') := seg b s in o ++ bl b' chunks.

Lemma segs_nil b cs : segs b [] cs = bl b cs.
Proof. reflexivity. Qed.
Lemma segs_lf b s cs : segs b (10 :: s) cs = (b ++ [10]) :: segs [] s cs.
Proof. unfold segs. cbn. destruct (seg [] s). auto. Qed.
Lemma segs_crlf b s cs : segs b (13 :: 10 :: s) cs = (b ++ [13; 10]) :: segs [] s cs.
Proof. unfold segs. cbn. destruct (seg [] s). auto. Qed.
Lemma segs_cr b s cs : (forall r, s <> 10 :: r) -> segs b (13 :: s) cs = (b ++ [13]) :: segs [] s cs.
Proof.
  intros H. unfold segs. destruct s as [|d s]; [reflexivity|].
  change (seg b (13 :: d :: s)) with
    (if d =? 10 then (let (o, b') := seg [] s in ((b ++ [13; d]) :: o, b'))
     else (let (o, b') := seg [] (d :: s) in ((b ++ [13]) :: o, b'))).
  destruct (N.eqb_spec d 10) as [->|]; [destruct (H s eq_refl)|].
  destruct (seg [] (d :: s)). auto.
Qed.
Lemma segs_other b c s cs : c <> 10 -> c <> 13 -> segs b (c :: s) cs = segs (b ++ [c]) s cs.
Proof. intros A B. unfold segs. cbn. destruct (N.eqb_spec c 13); [congruence|]. destruct (N.eqb_spec c 10); [congruence|]. auto. Qed.

Definition ends_cr (s : str) : bool := match rev s with c :: _ => c =? 13 | [] => false end.
Lemma ends_cr_snoc b c : ends_cr (b ++ [c]) = (c =? 13).
Proof. unfold ends_cr. rewrite rev_app_distr. auto. Qed.

Definition keep (p : str) : list str := if nonempty p then [p] else [].
(** What merge_lines yields when [prev] is pending, [b] begun and [t] still to come. *)
Definition todo (prev b t : str) : list str :=
  match ends_cr prev, b, t with
  | true, [], 10 :: t' => (prev ++ [10]) :: lines t'
  | _, _, _ => keep prev ++ lines (b ++ t)
  end.
Lemma todo_plain prev b t : ends_cr prev = false \/ b <> [] \/ (forall r, t <> 10 :: r) ->
  todo prev b t = keep prev ++ lines (b ++ t).
Proof.
  unfold todo. intros H. destruct (ends_cr prev); auto. destruct b; auto.
  destruct t as [|d t]; auto. destruct (N.eq_dec d 10) as [->|Hd].
  - exfalso. destruct H as [H|[H|H]]; try congruence. apply (H t eq_refl).
  - destruct d; auto. repeat (destruct p; auto). congruence.
Qed.
Lemma todo_cr prev t : ends_cr prev = true -> todo prev [] (10 :: t) = (prev ++ [10]) :: lines t.
Proof. unfold todo. intros ->. auto. Qed.

Lemma merge_cons prev item items : (item <> [10] \/ ends_cr prev = false) ->
  merge_lines prev (item :: items) = keep prev ++ merge_lines item items.
Proof.
  intros H. cbn [merge_lines]. fold (ends_cr prev). destruct (eqs item [10]) eqn:E.
  - apply eqs_eq in E. destruct H as [H|H]; [congruence|]. rewrite H. auto.
  - auto.
Qed.
Lemma merge_join prev items : ends_cr prev = true ->
  merge_lines prev ([10] :: items) = (prev ++ [10]) :: merge_lines [] items.
Proof.
  intros H. cbn [merge_lines]. fold (ends_cr prev). rewrite H.
  change (eqs [10] [10]) with true. cbn [andb]. destruct prev; auto.
Qed.
Lemma no_break_not_lf b : no_break b -> b <> [10].
Proof. intros [H _] ->. apply H. left. auto. Qed.

Lemma keep_snoc b x : keep (b ++ [x]) = [b ++ [x]].
Proof. destruct b; auto. Qed.
Lemma lines_nb b : no_break b -> b <> [] -> lines b = [b].
Proof. intros A B. rewrite <- (app_nil_r b) at 1. rewrite lines_glue; auto. apply glue_nil; auto. Qed.

Lemma merge_segs_with cs tl :
  (forall b prev, no_break b -> merge_lines prev (bl b cs) = todo prev b tl) ->
  forall s b prev, no_break b -> merge_lines prev (segs b s cs) = todo prev b (s ++ tl).
Proof.
  intros Hbase s. induction s as [s IH] using (induction_ltof1 _ (@length N)); unfold ltof in IH.
  intros b prev Hb. destruct s as [|c s]; [apply Hbase; auto|].
  destruct (N.eq_dec c 10) as [->|N1].
  { rewrite segs_lf. cbn [app]. destruct b as [|x b].
    - destruct (ends_cr prev) eqn:Ec.
      + rewrite todo_cr by auto. cbn [app]. rewrite merge_join by auto.
        rewrite IH; [|cbn; lia|apply no_break_nil]. rewrite todo_plain; auto.
      + cbn [app]. rewrite merge_cons by auto. rewrite IH; [|cbn; lia|apply no_break_nil].
        rewrite todo_plain; [|left; reflexivity]. rewrite todo_plain; auto.
    - rewrite merge_cons; [|left; destruct b; discriminate].
      rewrite IH; [|cbn; lia|apply no_break_nil]. rewrite todo_plain; [|left; rewrite ends_cr_snoc; auto].
      rewrite keep_snoc. rewrite todo_plain; [|right; left; discriminate].
      rewrite (lines_glue (x :: b)) by auto. rewrite lines_lf0, glue_cons. auto. }
  destruct (N.eq_dec c 13) as [->|N2].
  { assert (todo prev b (13 :: s ++ tl) = keep prev ++ lines (b ++ 13 :: s ++ tl)) as Ht.
    { apply todo_plain. right. right. discriminate. }
    cbn [app]. rewrite Ht. destruct s as [|d s].
    - rewrite segs_cr by discriminate. cbn [app] in *.
      rewrite merge_cons; [|left; destruct b as [|? [|? ?]]; discriminate].
      rewrite IH; [|cbn; lia|apply no_break_nil]. cbn [app].
      destruct tl as [|e tl'].
      + rewrite todo_plain; [|right; right; discriminate]. rewrite keep_snoc, (lines_glue b) by auto.
        cbn [lines app]. cbn. rewrite glue_cons. auto.
      + destruct (N.eq_dec e 10) as [->|N3].
        * rewrite todo_cr by (rewrite ends_cr_snoc; auto). rewrite <- app_assoc. cbn [app].
          rewrite (lines_glue b) by auto. rewrite lines_crlf0, glue_cons. auto.
        * rewrite todo_plain by (right; right; congruence). rewrite keep_snoc.
          rewrite (lines_glue b) by auto. rewrite lines_cr0 by congruence. rewrite glue_cons. auto.
    - destruct (N.eq_dec d 10) as [->|N3].
      + rewrite segs_crlf. rewrite merge_cons; [|left; destruct b as [|? [|? ?]]; discriminate].
        rewrite IH; [|cbn; lia|apply no_break_nil].
        rewrite todo_plain; [|left; change (b ++ [13; 10]) with (b ++ [13] ++ [10]); rewrite app_assoc, ends_cr_snoc; auto].
        rewrite (lines_glue b) by auto. cbn [app]. rewrite lines_crlf0, glue_cons.
        destruct b; auto.
      + rewrite segs_cr by congruence. rewrite merge_cons; [|left; destruct b as [|? [|? ?]]; discriminate].
        rewrite IH; [|cbn; lia|apply no_break_nil].
        rewrite todo_plain by (right; right; cbn; congruence). rewrite keep_snoc.
        rewrite (lines_glue b) by auto. rewrite lines_cr0 by (cbn; congruence). rewrite glue_cons. auto. }
  rewrite segs_other; auto. rewrite IH; [|cbn; lia|apply no_break_snoc; auto].
  rewrite todo_plain; [|right; left; destruct b; discriminate].
  rewrite todo_plain; [|right; right; cbn; congruence]. rewrite <- app_assoc. auto.
Qed.

Lemma merge_segs : forall chunks s b prev, no_break b ->
  merge_lines prev (segs b s chunks) = todo prev b (s ++ concat chunks).
Proof.
  induction chunks as [|ch chunks IHc]; apply merge_segs_with.
  - intros b prev Hb. cbn [bl concat]. destruct b as [|x b].
    + cbn. rewrite todo_plain; [|right; right; discriminate]. cbn. rewrite app_nil_r. auto.
    + cbn [nonempty]. rewrite merge_cons; [|left; apply no_break_not_lf; auto].
      rewrite todo_plain; [|right; left; discriminate].
      rewrite app_nil_r, lines_nb; [auto|auto|discriminate].
  - intros b prev Hb. change (bl b (ch :: chunks)) with (segs b ch chunks). rewrite IHc; auto.
Qed.

(** ** From the code's buffers of items to strings *)
Fixpoint eat_s (b : str) (items : list str) : list str * str :=
  match items with
  | [] => ([], b)
  | i :: is => if ends_line i then (let (o, b') := eat_s [] is in ((b ++ i) :: o, b')) else eat_s (b ++ i) is
  end.
Definition plain (nb : list str) : Prop := Forall (fun i => i <> [] /\ ends_line i = false) nb.

Lemma eat_lines_s items : forall nb, plain nb -> Forall (fun i => i <> []) items ->
  eat_s (concat nb) items = (fst (eat_lines nb items), concat (snd (eat_lines nb items))) /\
  plain (snd (eat_lines nb items)).
Proof.
  induction items as [|i is IH]; intros nb Hn Hi; cbn [eat_s eat_lines]; [auto|].
  inversion Hi as [|? ? H1 H2]; subst. destruct (ends_line i) eqn:E.
  - destruct (IH [] ltac:(constructor) H2) as [A B]. cbn [concat] in A. rewrite A.
    destruct (eat_lines [] is) as [o b]. cbn. rewrite concat_app. cbn. rewrite app_nil_r. auto.
  - specialize (IH (nb ++ [i])). rewrite concat_app in IH. cbn in IH. rewrite app_nil_r in IH.
    apply IH; auto. apply Forall_app. split; auto.
Qed.
Lemma eat_lines_buffer buf : forall nb items, plain buf -> eat_lines nb (buf ++ items) = eat_lines (nb ++ buf) items.
Proof.
  induction buf as [|i buf IH]; intros nb items H; cbn [app]; [rewrite app_nil_r; auto|].
  inversion H as [|? ? [H1 H1'] H2]; subst. cbn [eat_lines]. rewrite H1'. rewrite IH by auto.
  rewrite <- app_assoc. auto.
Qed.

Lemma splitlines_nonempty s : Forall (fun i => i <> []) (splitlines s).
Proof.
  induction s as [s IH] using (induction_ltof1 _ (@length N)); unfold ltof in IH.
  destruct s as [|c s]; [constructor|]. cbn [splitlines].
  destruct (c =? 13).
  - destruct s as [|d s]; [constructor; [discriminate|constructor]|].
    destruct (d =? 10); (constructor; [discriminate|]); apply IH; cbn; lia.
  - destruct (is_linebreak c); [constructor; [discriminate|]; apply IH; cbn; lia|].
    specialize (IH s ltac:(cbn; lia)). destruct (splitlines s); cbn.
    + constructor; [discriminate|auto].
    + inversion IH; subst. constructor; [discriminate|auto].
Qed.

Lemma ends_line_snoc b c : ends_line (b ++ [c]) = (c =? 10) || (c =? 13).
Proof. unfold ends_line. rewrite rev_app_distr. auto. Qed.
Lemma ends_line_cons c h : h <> [] -> ends_line (c :: h) = ends_line h.
Proof.
  intros H. destruct (exists_last H) as (b & x & ->).
  change (c :: b ++ [x]) with ((c :: b) ++ [x]). rewrite !ends_line_snoc. auto.
Qed.

Lemma eat_s_push c b L : c <> 10 -> c <> 13 -> Forall (fun i => i <> []) L ->
  eat_s b (push c L) = eat_s (b ++ [c]) L.
Proof.
  intros A B H. destruct L as [|h t]; cbn [push eat_s].
  - change [c] with ([] ++ [c]) at 1. rewrite ends_line_snoc.
    destruct (N.eqb_spec c 10); [congruence|]. destruct (N.eqb_spec c 13); [congruence|]. auto.
  - inversion H; subst. rewrite ends_line_cons by auto. rewrite <- app_assoc. auto.
Qed.

Lemma seg_cr b d s : seg b (13 :: d :: s) =
  (if d =? 10 then (let (o, b') := seg [] s in ((b ++ [13; d]) :: o, b'))
   else (let (o, b') := seg [] (d :: s) in ((b ++ [13]) :: o, b'))).
Proof. reflexivity. Qed.
Lemma splitlines_cr d s : splitlines (13 :: d :: s) =
  if d =? 10 then [13; d] :: splitlines s else [13] :: splitlines (d :: s).
Proof. reflexivity. Qed.
Lemma seg_other b c s : c <> 13 -> seg b (c :: s) =
  if c =? 10 then (let (o, b') := seg [] s in ((b ++ [c]) :: o, b')) else seg (b ++ [c]) s.
Proof. intros H. cbn [seg]. destruct (N.eqb_spec c 13); congruence. Qed.
Lemma splitlines_other c s : c <> 13 -> splitlines (c :: s) =
  if is_linebreak c then [c] :: splitlines s else push c (splitlines s).
Proof. intros H. cbn [splitlines]. destruct (N.eqb_spec c 13); congruence. Qed.

Lemma eat_s_seg s : forall b, eat_s b (splitlines s) = seg b s.
Proof.
  induction s as [s IH] using (induction_ltof1 _ (@length N)); unfold ltof in IH. intros b.
  destruct s as [|c s]; [auto|].
  destruct (N.eq_dec c 13) as [->|N1].
  - destruct s as [|d s]; [reflexivity|]. rewrite splitlines_cr, seg_cr.
    destruct (N.eqb_spec d 10) as [->|].
    + cbn [eat_s]. change (ends_line [13; 10]) with true. rewrite IH by (cbn; lia). reflexivity.
    + cbn [eat_s]. change (ends_line [13]) with true. cbn iota. rewrite IH by (cbn; lia). auto.
  - rewrite splitlines_other, seg_other by auto. destruct (is_linebreak c) eqn:E.
    + cbn [eat_s]. change (ends_line [c]) with ((c =? 10) || (c =? 13)).
      destruct (N.eqb_spec c 13); [congruence|]. rewrite orb_false_r.
      rewrite !IH by (cbn; lia). destruct (N.eqb_spec c 10); auto.
    + assert (c <> 10) by (intros ->; discriminate).
      rewrite eat_s_push; auto; [|apply splitlines_nonempty]. rewrite IH by (cbn; lia).
      destruct (N.eqb_spec c 10); congruence.
Qed.

Lemma basic_lines_bl chunks : forall buffer, plain buffer -> basic_lines buffer chunks = bl (concat buffer) chunks.
Proof.
  induction chunks as [|c cs IH]; intros buffer H; cbn [basic_lines bl].
  - destruct buffer as [|i l]; auto. inversion H as [|? ? [H1 _] _]; subst. cbn. destruct i; [easy|auto].
  - rewrite eat_lines_buffer by auto. cbn [app].
    destruct (eat_lines_s (splitlines c) buffer H (splitlines_nonempty c)) as [A B].
    rewrite eat_s_seg in A. rewrite A. destruct (eat_lines buffer (splitlines c)) as [o b]. cbn.
    f_equal. apply IH. auto.
Qed.

Lemma concat_chunks items : concat (make_chunks items) = concat items.
Proof. induction items as [|[|c i] items IH]; cbn; auto. unfold make_chunks in IH. rewrite IH. auto. Qed.

Lemma make_line_iter_lines items : make_line_iter items = lines (concat items).
Proof.
  unfold make_line_iter. rewrite basic_lines_bl by constructor. cbn [concat].
  rewrite <- segs_nil, merge_segs by apply no_break_nil. cbn [app].
  rewrite todo_plain by (left; reflexivity). cbn. apply f_equal, concat_chunks.
Qed.

Lemma line_iter_lines : forall items, lines_of (concat items) (make_line_iter items).
Proof. intros items. rewrite make_line_iter_lines. apply lines_sound. Qed.
Lemma lines_of_unique : forall text L1 L2, lines_of text L1 -> lines_of text L2 -> L1 = L2.
Proof. intros text L1 L2 H1 H2. rewrite (lines_of_fun _ _ H1), (lines_of_fun _ _ H2). auto. Qed.
Lemma line_iter_independent : forall items1 items2,
  concat items1 = concat items2 -> make_line_iter items1 = make_line_iter items2.
Proof. intros a b H. rewrite !make_line_iter_lines, H. auto. Qed.

(** ** make_chunk_iter *)
Lemma resplit_skip sep s : forall k, (k <= length s)%nat -> resplit sep k s = resplit sep 0 (skipn k s).
Proof.
  induction s as [|c s IH]; intros k H; cbn in H.
  - destruct k; [auto|lia].
  - destruct k as [|k]; [auto|]. cbn [resplit skipn]. apply IH. lia.
Qed.

Lemma resplit_cases sep s : sep <> [] ->
  (resplit sep 0 s = [s] /\ ~ occurs sep s) \/
  (exists p r, s = p ++ sep ++ r /\ resplit sep 0 s = p :: sep :: resplit sep 0 r /\
     (forall a b, s = a ++ sep ++ b -> (length p <= length a)%nat)).
Proof.
  intros Hs. induction s as [|c s IH].
  - left. split; auto. intros (a & b & E). destruct a; [|discriminate]. destruct sep; [easy|discriminate].
  - cbn [resplit]. destruct (starts sep (c :: s)) eqn:E.
    + right. apply starts_spec in E. destruct E as [r E]. exists [], r. split; [auto|]. split; [|intros; cbn; lia].
      f_equal. f_equal. destruct sep as [|x sep]; [easy|]. injection E as -> ->. cbn [length].
      rewrite resplit_skip by (rewrite app_length; lia). replace (S (length sep) - 1)%nat with (length sep) by lia.
      rewrite skipn_app, skipn_all, Nat.sub_diag. auto.
    + assert (forall b, c :: s <> sep ++ b) as Hn.
      { intros b Eb. enough (starts sep (c :: s) = true) by congruence. apply starts_spec. exists b. auto. }
      destruct IH as [[R O]|(p & r & -> & R & F)].
      * left. rewrite R. split; auto. intros (a & b & Eab). destruct a as [|y a]; [exact (Hn b Eab)|].
        injection Eab as -> ->. apply O. exists a, b. auto.
      * right. exists (c :: p), r. rewrite R. split; auto. split; auto.
        intros a b Eab. destruct a as [|y a]; [destruct (Hn b Eab)|]. injection Eab as -> Eab.
        specialize (F a b Eab). cbn. lia.
Qed.

Lemma no_occ_neq sep p : ~ occurs sep p -> eqs p sep = false.
Proof.
  intros H. destruct (eqs p sep) eqn:E; auto. apply eqs_eq in E. subst. exfalso. apply H.
  exists [], []. rewrite app_nil_r. auto.
Qed.
Lemma first_no_occ sep p r : sep <> [] ->
  (forall a b, p ++ sep ++ r = a ++ sep ++ b -> (length p <= length a)%nat) -> ~ occurs sep p.
Proof.
  intros Hs H (a & b & ->). specialize (H a (b ++ sep ++ r)).
  rewrite <- !app_assoc in H. specialize (H eq_refl). rewrite !app_length in H.
  destruct sep; [easy|]. cbn in H. lia.
Qed.

(** buffer items never equal the separator, so they only accumulate *)
Definition free (sep : str) (nb : list str) : Prop := Forall (fun i => ~ occurs sep i) nb.
Lemma eat_chunks_buffer sep buf : forall nb items, free sep buf ->
  eat_chunks sep nb (buf ++ items) = eat_chunks sep (nb ++ buf) items.
Proof.
  induction buf as [|i buf IH]; intros nb items H; cbn [app]; [rewrite app_nil_r; auto|].
  inversion H as [|? ? H1 H2]; subst. cbn [eat_chunks]. rewrite (no_occ_neq _ _ H1). rewrite IH by auto.
  rewrite <- app_assoc. auto.
Qed.

Lemma join_cons sep x l : l <> [] -> join sep (x :: l) = x ++ sep ++ join sep l.
Proof. destruct l; [easy|auto]. Qed.
Lemma app_not_nil {A} (o l : list A) : l <> [] -> o ++ l <> [].
Proof. destruct o; [auto|discriminate]. Qed.
Lemma join_join sep o L : L <> [] -> join sep (o ++ L) = join sep (o ++ [join sep L]).
Proof.
  intros H. induction o as [|y o IH]; [reflexivity|]. cbn [app].
  rewrite !join_cons by (apply app_not_nil; auto; discriminate). rewrite IH. auto.
Qed.
Lemma join_tail sep o a b : join sep (o ++ [a ++ b]) = join sep (o ++ [a]) ++ b.
Proof.
  induction o as [|y o IH]; [reflexivity|]. cbn [app].
  rewrite !join_cons by (apply app_not_nil; discriminate). rewrite IH, <- !app_assoc. auto.
Qed.

(** chunk by chunk: [resplit] of a chunk is consumed *)
Lemma eat_resplit sep c : sep <> [] -> forall nb, free sep nb ->
  exists o nb', eat_chunks sep nb (resplit sep 0 c) = (o, nb') /\ free sep nb' /\ nb' <> [] /\
    join sep (o ++ [concat nb']) = concat nb ++ c.
Proof.
  intros Hs. induction c as [c IH] using (induction_ltof1 _ (@length N)); unfold ltof in IH.
  intros nb Hn. destruct (resplit_cases sep c Hs) as [[R O]|(p & r & E & R & F)].
  - rewrite R. cbn [eat_chunks]. rewrite (no_occ_neq _ _ O). eexists [], _. split; [reflexivity|].
    split; [apply Forall_app; auto|]. split; [destruct nb; discriminate|].
    cbn. rewrite concat_app. cbn. rewrite app_nil_r. auto.
  - subst c. rewrite R. cbn [eat_chunks]. rewrite (no_occ_neq sep p) by (eapply first_no_occ; eauto).
    rewrite eqs_refl. destruct (IH r) with (nb := @nil str) as (o & nb' & -> & Hf & Hne & J); [|constructor|].
    { rewrite !app_length. destruct sep; [easy|]. cbn. lia. }
    eexists _, _. split; [reflexivity|]. split; auto. split; auto.
    rewrite concat_app. cbn [concat app]. rewrite app_nil_r.
    cbn [app]. rewrite join_cons by (apply app_not_nil; discriminate). rewrite J. cbn [app].
    rewrite <- app_assoc. auto.
Qed.

(** nothing is lost or invented *)
Lemma chunk_loop_lossless sep : sep <> [] -> forall chunks buffer, free sep buffer ->
  join sep (chunk_loop sep buffer chunks) = concat buffer ++ concat chunks.
Proof.
  intros Hs. induction chunks as [|c cs IH]; intros buffer Hb; cbn [chunk_loop concat].
  - rewrite app_nil_r. destruct buffer; auto.
  - rewrite eat_chunks_buffer by auto. cbn [app].
    destruct (eat_resplit sep c Hs buffer Hb) as (o & nb & -> & Hf & Hne & J).
    specialize (IH nb Hf). rewrite app_assoc, <- J.
    destruct (chunk_loop sep nb cs) as [|x l] eqn:E.
    + exfalso. clear -Hne E. revert nb Hne E. induction cs as [|c cs IH]; intros nb Hne; cbn [chunk_loop].
      * destruct nb; [easy|discriminate].
      * destruct (eat_chunks sep [] (nb ++ resplit sep 0 c)) as [o b] eqn:Eb. intros E. apply app_eq_nil in E. destruct E as [-> E].
        revert E. apply IH. intros ->.
        assert (forall items nb0, eat_chunks sep nb0 items = ([], []) -> items = [] /\ nb0 = []) as K.
        { induction items as [|i is IHi]; intros nb0; cbn [eat_chunks]; [intros [= ->]; auto|].
          destruct (eqs i sep); [destruct (eat_chunks sep [] is); discriminate|].
          intros K. destruct (IHi _ K) as [_ K2]. destruct nb0; discriminate. }
        destruct (K _ _ Eb) as [K1 _]. destruct nb; [easy|discriminate].
    + rewrite join_join by discriminate. rewrite IH, join_tail. auto.
Qed.

Lemma occ_left {A} (x y a s b : list A) : x ++ y = a ++ s ++ b -> (length a + length s <= length x)%nat ->
  exists b', x = a ++ s ++ b'.
Proof.
  intros E L. rewrite app_assoc in E. apply app_eq_app in E. destruct E as [l [[-> _]|[E1 _]]].
  - exists l. rewrite <- app_assoc. auto.
  - assert (length l = 0)%nat as Hl by (apply (f_equal (@length A)) in E1; rewrite !app_length in E1; lia).
    destruct l; [|discriminate]. rewrite app_nil_r in E1. exists []. rewrite app_nil_r. auto.
Qed.
Lemma occ_right {A} (x y a s b : list A) : x ++ y = a ++ s ++ b -> (length x <= length a)%nat ->
  exists a', a = x ++ a' /\ y = a' ++ s ++ b.
Proof.
  intros E L. apply app_eq_app in E. destruct E as [l [[-> E2]|[-> E2]]].
  - assert (l = []) as -> by (rewrite app_length in L; destruct l; [auto|cbn in L; lia]).
    rewrite app_nil_r. exists []. rewrite app_nil_r. split; auto.
  - exists l. auto.
Qed.

Lemma straddle_suffix sep x u r rest :
  no_straddle sep (x :: (u ++ r) :: rest) -> no_straddle sep ([] :: r :: rest).
Proof.
  intros H pre post a b E1 E2. destruct pre as [|y pre]; [right; cbn; lia|].
  destruct pre as [|z pre]; [injection E1 as <- _; right; cbn; lia|].
  injection E1 as <- <- E1. cbn [concat app] in E2.
  destruct (H (x :: (u ++ r) :: pre) post (x ++ u ++ a) b) as [K|K].
  - rewrite E1. auto.
  - cbn [concat]. rewrite <- !app_assoc, E2. auto.
  - left. cbn [concat app] in *. rewrite !app_length in *. lia.
  - right. cbn [concat app] in *. rewrite !app_length in *. lia.
Qed.
Lemma straddle_merge sep x c rest : no_straddle sep (x :: c :: rest) -> no_straddle sep ((x ++ c) :: rest).
Proof.
  intros H pre post a b E1 E2. destruct pre as [|y pre]; [right; cbn; lia|].
  injection E1 as <- E1. cbn [concat] in *. rewrite <- app_assoc in *.
  destruct (H (x :: c :: pre) post a b) as [K|K]; auto.
  rewrite E1. auto.
Qed.

Lemma eat_resplit_pieces sep rest c : sep <> [] -> forall nb, ~ occurs sep (concat nb) ->
  no_straddle sep (concat nb :: c :: rest) ->
  exists o nb', eat_chunks sep nb (resplit sep 0 c) = (o, nb') /\ nb' <> [] /\ ~ occurs sep (concat nb') /\
    no_straddle sep (concat nb' :: rest) /\
    (forall L, pieces_of sep (concat nb' ++ concat rest) L ->
               pieces_of sep (concat nb ++ c ++ concat rest) (o ++ L)).
Proof.
  intros Hs. induction c as [c IH] using (induction_ltof1 _ (@length N)); unfold ltof in IH.
  intros nb Hn Hst.
  assert (Hb : forall a b, concat nb ++ c ++ concat rest = a ++ sep ++ b -> (length (concat nb) <= length a)%nat).
  { intros a b E. destruct (Hst [concat nb] (c :: rest) a b eq_refl E) as [K|K]; cbn [concat] in K; rewrite app_nil_r in K; auto.
    exfalso. apply Hn. destruct (occ_left _ _ _ _ _ E K) as [b' Hb']. exists a, b'. auto. }
  destruct (resplit_cases sep c Hs) as [[R O]|(p & r & E & R & F)].
  - rewrite R. cbn [eat_chunks]. rewrite (no_occ_neq _ _ O). eexists [], _. split; [reflexivity|].
    rewrite concat_app. cbn [concat]. rewrite app_nil_r.
    split; [destruct nb; discriminate|]. split.
    + intros (a & b & E). apply O.
      assert (length (concat nb) <= length a)%nat as K.
      { apply (Hb a (b ++ concat rest)). rewrite app_assoc, E, <- !app_assoc. auto. }
      destruct (occ_right _ _ _ _ _ E K) as (a' & -> & E'). exists a', b. auto.
    + split; [apply straddle_merge; auto|]. intros L HL. cbn [app]. rewrite app_assoc. auto.
  - subst c. rewrite R. cbn [eat_chunks]. rewrite (no_occ_neq sep p) by (eapply first_no_occ; eauto).
    rewrite eqs_refl. destruct (IH r) with (nb := @nil str) as (o & nb' & -> & Hne & Ho & Hst' & J).
    { rewrite !app_length. destruct sep; [easy|]. cbn. lia. }
    { cbn. intros (a & b & E). destruct a; [|discriminate]. destruct sep; [easy|discriminate]. }
    { cbn [concat]. rewrite app_assoc in Hst. eapply straddle_suffix; eauto. }
    eexists _, _. split; [reflexivity|]. split; auto. split; auto. split; auto.
    intros L HL. rewrite concat_app. cbn [concat]. rewrite app_nil_r.
    replace (concat nb ++ (p ++ sep ++ r) ++ concat rest) with ((concat nb ++ p) ++ sep ++ (r ++ concat rest))
      by (rewrite <- !app_assoc; auto).
    cbn [app]. apply pieces_cons; [|apply (J L HL)].
    intros a b E.
    assert (concat nb ++ (p ++ sep ++ r) ++ concat rest = a ++ sep ++ b) as E' by (rewrite <- E, <- !app_assoc; auto).
    pose proof (Hb a b E') as K.
    destruct (Hst [concat nb; p ++ sep ++ r] rest a b eq_refl) as [K2|K2].
    { cbn [concat]. auto. }
    + destruct (occ_right _ _ _ _ _ E' K) as (a' & -> & E2).
      destruct (occ_left _ _ _ _ _ E2) as [b' E3].
      { cbn [concat] in K2. rewrite app_nil_r in K2. rewrite !app_length in *. lia. }
      specialize (F a' b' E3). rewrite !app_length. lia.
    + cbn [concat] in K2. rewrite app_nil_r in K2. rewrite !app_length in *. lia.
Qed.

Lemma occurs_item sep nb i : In i nb -> occurs sep i -> occurs sep (concat nb).
Proof.
  intros Hi (a & b & ->). apply in_split in Hi. destruct Hi as (l1 & l2 & ->).
  exists (concat l1 ++ a), (b ++ concat l2). rewrite concat_app. cbn. rewrite <- !app_assoc. auto.
Qed.

Lemma chunk_loop_pieces sep : sep <> [] -> forall chunks buffer, buffer <> [] \/ chunks <> [] ->
  ~ occurs sep (concat buffer) -> no_straddle sep (concat buffer :: chunks) ->
  pieces_of sep (concat buffer ++ concat chunks) (chunk_loop sep buffer chunks).
Proof.
  intros Hs. induction chunks as [|c cs IH]; intros buffer Hne Hb Hst; cbn [chunk_loop concat].
  - rewrite app_nil_r. destruct buffer; [intuition congruence|]. apply pieces_last. auto.
  - assert (free sep buffer) as Hf.
    { apply Forall_forall. intros i Hi Ho. apply Hb. eapply occurs_item; eauto. }
    rewrite eat_chunks_buffer by auto. cbn [app].
    destruct (eat_resplit_pieces sep cs c Hs buffer Hb Hst) as (o & nb & -> & Hn & Ho & Hst' & J).
    apply J. apply IH; auto.
Qed.

Lemma make_chunks_nonempty items : concat items <> [] -> make_chunks items <> [].
Proof. intros H. rewrite <- concat_chunks in H. destruct (make_chunks items); [easy|discriminate]. Qed.

Lemma no_straddle_filter sep items : no_straddle sep items -> no_straddle sep (make_chunks items).
Proof.
  intros H pre post a b E1 E2. rewrite concat_chunks in E2.
  assert (exists pre' post', items = pre' ++ post' /\ concat pre' = concat pre) as (pre' & post' & E3 & E4).
  { clear -E1. revert pre post E1. induction items as [|i items IH]; intros pre post E; cbn in E.
    - symmetry in E. apply app_eq_nil in E. destruct E as [-> ->]. exists [], []. auto.
    - destruct pre as [|x pre]; [exists [], (i :: items); auto|].
      destruct i as [|c i]; cbn [nonempty] in E.
      + destruct (IH _ _ E) as (p & q & -> & C). exists ([] :: p), q. auto.
      + injection E as <- E. destruct (IH _ _ E) as (p & q & -> & C). exists ((c :: i) :: p), q.
        split; auto. cbn. rewrite C. auto. }
  rewrite <- E4. eapply H; eauto.
Qed.

Lemma chunk_iter_pieces : forall items sep, sep <> [] -> concat items <> [] ->
  no_straddle sep items -> pieces_of sep (concat items) (make_chunk_iter items sep).
Proof.
  intros items sep Hs Hi Hst. unfold make_chunk_iter. rewrite <- concat_chunks.
  apply (chunk_loop_pieces sep Hs (make_chunks items) []).
  - right. apply make_chunks_nonempty. auto.
  - cbn. intros (a & b & E). destruct a; [|discriminate]. destruct sep; [easy|discriminate].
  - apply no_straddle_filter in Hst. intros pre post a b E1 E2.
    destruct pre as [|x pre]; [right; cbn; lia|]. injection E1 as <- E1. cbn [concat app] in *. eapply Hst; eauto.
Qed.
Lemma chunk_iter_single : forall items c, concat items <> [] ->
  pieces_of [c] (concat items) (make_chunk_iter items [c]).
Proof.
  intros items c H. apply chunk_iter_pieces; auto; [discriminate|].
  intros pre post a b _ _. cbn. lia.
Qed.
Lemma chunk_iter_one : forall text sep, sep <> [] -> text <> [] ->
  pieces_of sep text (make_chunk_iter [text] sep).
Proof.
  intros text sep Hs Ht. rewrite <- (app_nil_r text) at 1. apply (chunk_iter_pieces [text] sep Hs).
  - cbn. rewrite app_nil_r. auto.
  - intros pre post a b E1 E2. destruct pre as [|x pre]; [right; cbn; lia|].
    injection E1 as <- E1. symmetry in E1. apply app_eq_nil in E1. destruct E1 as [-> _]. left.
    rewrite E2, !app_length. lia.
Qed.
Lemma chunk_iter_lossless : forall items sep, sep <> [] ->
  join sep (make_chunk_iter items sep) = concat items.
Proof.
  intros items sep Hs. unfold make_chunk_iter. rewrite chunk_loop_lossless; auto; [|constructor].
  cbn. apply concat_chunks.
Qed.
Lemma pieces_of_unique : forall sep text L1 L2, sep <> [] ->
  pieces_of sep text L1 -> pieces_of sep text L2 -> L1 = L2.
Proof.
  intros sep text L1 L2 Hs H. revert L2. induction H as [text H|p rest ps F H IH]; intros L2 H2.
  - inversion H2 as [|p rest ps F H3 E]; subst; auto. exfalso. apply H. exists p, rest. auto.
  - inversion H2 as [? N E|p' rest' ps' F' H3 E]; subst.
    + exfalso. apply N. exists p, rest. auto.
    + pose proof (F _ _ (eq_sym E)) as A. pose proof (F' _ _ E) as B.
      apply app_eq_app in E. destruct E as [l [[-> E]|[-> E]]].
      * rewrite app_length in *. assert (l = []) as -> by (destruct l; [auto|cbn in *; lia]).
        rewrite app_nil_r. cbn [app] in E. apply app_inv_head in E. subst. f_equal. apply IH. auto.
      * rewrite app_length in *. assert (l = []) as -> by (destruct l; [auto|cbn in *; lia]).
        rewrite app_nil_r. cbn [app] in E. apply app_inv_head in E. subst. f_equal. apply IH. auto.
Qed.
Lemma chunk_iter_independent : forall items1 items2 c,
  concat items1 = concat items2 -> make_chunk_iter items1 [c] = make_chunk_iter items2 [c].
Proof.
  intros i1 i2 c E. destruct (concat i1) as [|x t] eqn:E1.
  - unfold make_chunk_iter.
    assert (forall i, concat i = [] -> make_chunks i = []) as K.
    { clear. induction i as [|x i IH]; auto. cbn. intros H. apply app_eq_nil in H. destruct H as [-> H]. cbn. auto. }
    rewrite !K; auto.
  - apply (pieces_of_unique [c] (x :: t)); [discriminate| |].
    + rewrite <- E1. apply chunk_iter_single. congruence.
    + rewrite E. apply chunk_iter_single. congruence.
Qed.
