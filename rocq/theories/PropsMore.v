(** More about claims C08, C89, C95 and C107: keyword arguments of headers, applications
    that never start a response, texts assigned to content_range, force_type without an
    environ. *)
From Coq Require Import Arith List NArith ZArith Bool Lia.
From Verif Require Import PyStr PyStrFacts ModelQuote ModelHeaders SpecHeaders ProofHeaders ModelMirror SpecMirror ProofMirror SpecKeywords.
From Verif Require ModelTest SpecTest ModelResponse ModelRespond.
Import ListNotations.
Open Scope N_scope.

(** ** C08 *)
Lemma replace_dash k : replace [95] [45] k = dashed k.
Proof.
  induction k as [|c k IH]; [reflexivity|]. unfold dashed. cbn [map]. destruct (N.eq_dec c 95) as [->|H].
  - change (95 :: k) with ([95] ++ k). rewrite replace_hit by discriminate. rewrite IH. reflexivity.
  - rewrite replace_miss; [rewrite IH; reflexivity|]. cbn [starts]. apply N.eqb_neq in H. rewrite N.eqb_sym in H. rewrite H. reflexivity.
Qed.
Lemma dset_new {V} (d : dict V) k v : ~ In k (map fst d) -> dset d k v = d ++ [(k, v)].
Proof.
  induction d as [|[k' v'] d IH]; intros H; [reflexivity|]. cbn [dset List.app]. destruct (eqs k k') eqn:E.
  - apply eqs_eq in E. exfalso. apply H. left. auto.
  - rewrite IH; [reflexivity|]. intros X. apply H. right. exact X.
Qed.
Lemma keywords_dict (kw : dict (option str)) : forall d, NoDup (map fst d ++ map (fun kv => dashed (fst kv)) kw) ->
  fold_left (fun d kv => dset d (replace [95] [45] (fst kv)) (snd kv)) kw d = d ++ map (fun kv => (dashed (fst kv), snd kv)) kw.
Proof.
  induction kw as [|[k v] kw IH]; intros d N; cbn [fold_left map fst snd]; [rewrite app_nil_r; reflexivity|].
  cbn [map fst] in N. rewrite replace_dash, dset_new.
  - rewrite IH, <- app_assoc; [reflexivity|]. rewrite map_app, <- app_assoc. exact N.
  - intros H. apply NoDup_remove_2 in N. apply N. apply in_or_app. left. exact H.
Qed.
Lemma join_first v l : join [59; 32] (v :: l) = v ++ concat (map (fun p => lit "; " ++ p) l).
Proof.
  revert v. induction l as [|p l IH]; intros v; [cbn [map concat join]; rewrite app_nil_r; reflexivity|].
  change (join [59; 32] (v :: p :: l)) with (v ++ [59; 32] ++ join [59; 32] (p :: l)). rewrite IH. cbn [map concat].
  rewrite <- app_assoc. reflexivity.
Qed.
(** What [stored_value] computes in C08_call: the value itself, or the value with its
    keywords, which are to be different names also when their underscores are dashes. *)
Theorem C08_keywords : forall v kw, NoDup (map (fun kv => dashed (fst kv)) kw) -> stored_value v kw = with_keywords (text v) kw.
Proof.
  intros v kw N. destruct kw as [|kv kw]; [unfold with_keywords; cbn [map concat]; rewrite app_nil_r; apply stored_nil|].
  unfold stored_value, vkw. rewrite (keywords_dict (kv :: kw) [] N). unfold dump_options_header. cbn [List.app].
  rewrite join_first. unfold with_keywords. rewrite <- (stored_nil v). cbn [stored_value]. f_equal. f_equal. rewrite !map_map. apply map_ext.
  intros [k [x|]]; reflexivity.
Qed.
Print Assumptions C08_keywords.
Example C08_keywords_example :
  let kw := [(lit "file_name", Some (lit "a b")); (lit "secure", None); (lit "max_age", Some (lit "10"))] in
  NoDup (map (fun kv => dashed (fst kv)) kw) /\
  h_add [] (lit "X") (HStr (lit "attachment")) kw = Ok [(lit "X", lit "attachment; file-name=""a b""; secure; max-age=10")].
Proof.
  split; [|vm_compute; reflexivity]. repeat constructor; cbn; intuition discriminate.
Qed.

(** ** C95: assigning to content_range *)
Theorem C95_assigned : forall h,
  (forall s, s <> [] -> SpecHeaders.one_line s -> exists h', set_content_range h (CvText s) = (h', None) /\ set_effect (lit "Content-Range") s h h') /\
  (forall s, s <> [] -> ~ SpecHeaders.one_line s -> set_content_range h (CvText s) = (h, Some ValueError)) /\
  (forall v, v = CvNone \/ v = CvText [] -> exists h', set_content_range h v = (h', None) /\ without (lit "Content-Range") h h').
Proof.
  intros h. split; [|split].
  - intros s N O. destruct s as [|c s]; [congruence|]. cbn [set_content_range].
    destruct (keep_set h (lit "Content-Range") (c :: s) O) as (h' & K1 & K2 & K3 & K4 & _). exists h'. split; [exact K1|]. assumption.
  - intros s N O. destruct s as [|c s]; [congruence|]. cbn [set_content_range]. unfold h_set. rewrite stored_nil. cbn [text].
    rewrite (proj2 (validate_false (c :: s)) O). reflexivity.
  - intros v E. destruct (remove_spec h (lit "content-range")) as (W & _ & _). exists (h_remove h (lit "content-range")).
    split; [destruct E as [-> | ->]; reflexivity|]. clear -W. induction W; [apply wo_nil|apply wo_drop; [assumption|exact IHW]|apply wo_keep; [assumption|exact IHW]].
Qed.
Print Assumptions C95_assigned.
Example C95_assigned_example :
  set_content_range [(lit "content-range", lit "x"); (lit "A", lit "b")] (CvText (lit "bytes 0-1/2")) =
    ([(lit "Content-Range", lit "bytes 0-1/2"); (lit "A", lit "b")], None) /\
  set_content_range [(lit "content-range", lit "x"); (lit "A", lit "b")] CvNone = ([(lit "A", lit "b")], None).
Proof. vm_compute. auto. Qed.

(** ** C107: an application needs an environ *)
Theorem C107_force_alone : forall c n a, ModelRespond.force_type c (ModelRespond.FApp n a false) = Raise TypeError.
Proof. reflexivity. Qed.
Print Assumptions C107_force_alone.

(** ** C89: an application that never starts a response *)
Section Silent.
  Import ModelTest SpecTest.
  (** It does nothing but yield chunks, and ends. *)
  Definition silent (a : app_run) : Prop :=
    r_call a = [] /\ r_fail a = None /\ Forall (fun s => fst s = [] /\ exists b, snd s = Chunk b) (r_steps a).
  Lemma silent_drain steps st : Forall (fun s => fst s = [] /\ exists b, snd s = Chunk b) steps ->
    exists bs, drain steps st = (bs, None, st).
  Proof.
    induction 1 as [|[l o] steps [A (b & B)] _ (bs & IH)]; [exists []; reflexivity|]. cbn [fst snd] in *. subst. exists (b :: bs).
    cbn [drain performs]. rewrite IH. reflexivity.
  Qed.
  Lemma silent_await steps : forall st, w_response st = None -> Forall (fun s => fst s = [] /\ exists b, snd s = Chunk b) steps ->
    await steps st = Raise StopIteration.
  Proof.
    induction steps as [|[l o] steps IH]; intros st N F; cbn [await]; rewrite N; [reflexivity|].
    inversion F as [|x y [A (b & B)] F']; subst. cbn [fst snd] in *. subst. cbn [performs bind]. apply IH; [exact N|exact F'].
  Qed.
Theorem C89_never_started : forall a, silent a ->
  run_wsgi_app a true = (Raise IndexError, closes a) /\ run_wsgi_app a false = (Raise StopIteration, 0%nat).
Proof.
  intros a (A & B & C). unfold run_wsgi_app. rewrite A, B. cbn [performs].
  destruct (silent_drain (r_steps a) (mk_wstate None []) C) as (bs & D). rewrite D, silent_await by auto. auto.
Qed.
End Silent.
Print Assumptions C89_never_started.
Example C89_never_started_example :
  let a := ModelTest.mk_app [] None [([], ModelTest.Chunk (lit "x")); ([], ModelTest.Chunk [])] true in
  silent a /\ ModelTest.run_wsgi_app a true = (Raise IndexError, 1%nat).
Proof. cbv zeta. split; [|reflexivity]. repeat split; repeat constructor; cbn; eauto. Qed.
