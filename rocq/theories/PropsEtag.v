(** C21, C22, C23: entity tags and conditional requests. *)
From Coq Require Import List NArith ZArith Bool Lia.
From Verif Require Import PyStr PyStrFacts ModelEtag SpecEtag ProofEtag.
Import ListNotations.
Open Scope N_scope.

(** C21 *)
Theorem C21_roundtrip : forall (t : str) (w : bool) (h : str),
  quote_etag t w = Ok h -> unquote_etag h = Some (t, w).
Proof. exact etag_roundtrip. Qed.
Theorem C21_rejects : forall (t : str) (w : bool), quote_etag t w = Raise ValueError <-> In 34 t.
Proof. exact quote_etag_raise. Qed.
Theorem C21_form : forall (t : str) (w : bool) (h : str),
  quote_etag t w = Ok h -> h = (if w then lit "w/" else []) ++ 34 :: t ++ [34] /\ ~ In 34 t.
Proof. exact quote_etag_ok. Qed.
Print Assumptions C21_roundtrip.
Print Assumptions C21_rejects.
Print Assumptions C21_form.
Example C21_example :
  quote_etag (lit " W/x ") true = Ok (lit "w/"" W/x """) /\ unquote_etag (lit "w/"" W/x """) = Some (lit " W/x ", true).
Proof. vm_compute. auto. Qed.

(** C22, the part that holds of termination: every header that does not end in a
    line feed; the parser needs at most one round per character.  Missing: headers
    that end in a line feed, see the refutation. *)
Theorem C22_terminates_partial : forall v : str, (forall u, v <> u ++ [10]) ->
  forall fuel, (length v <= fuel)%nat -> exists e, parse_etags fuel v = Some e.
Proof. exact parse_etags_terminates. Qed.
Theorem C22_loops_refuted : exists v, forall fuel, parse_etags fuel v = None.
Proof. exists [10]. exact etags_newline_loops. Qed.
Print Assumptions C22_terminates_partial.
Print Assumptions C22_loops_refuted.

(** For every header: the parser ends after at most one round per character, or never.
    So whether it ends can be seen from [parse_etags (length v) v]. *)
Theorem C22_rounds : forall v : str, (forall fuel, parse_etags fuel v = None) \/
  exists e, forall fuel, (length v <= fuel)%nat -> parse_etags fuel v = Some e.
Proof. exact parse_etags_rounds. Qed.
Print Assumptions C22_rounds.
Example C22_rounds_example :
  parse_etags 6 (lit """a"", " ++ [10]) = Some (ET [Some (lit "a")] [] false) /\
  parse_etags 4 (lit """a""" ++ [10]) = None /\ parse_etags 5 (lit "*, b" ++ [10]) = Some (ET [] [] true).
Proof. vm_compute. auto. Qed.

(** C22: a list of tags written with any spacing around the commas is read as
    exactly the strong and the weak tags, in order.  Missing: empty tags, which
    are read as None, and tags with a line feed. *)
Theorem C22_recovers_partial : forall (h : str) (l : list tag) (fuel : nat),
  tag_list h l -> Forall plain_tag l -> (length h <= fuel)%nat ->
  parse_etags fuel h = Some (ET (texts false l) (texts true l) false).
Proof. exact parse_etags_list. Qed.
(** Behind every such list a final line feed keeps the loop from ending. *)
Theorem C22_list_loops_refuted : forall (h : str) (l : list tag), tag_list h l -> Forall plain_tag l ->
  forall fuel, parse_etags fuel (h ++ [10]) = None.
Proof. intros h l T P fuel. exact (etags_loop_list_newline h l T P fuel None [] []). Qed.
Print Assumptions C22_list_loops_refuted.
Example C22_loops_example :
  tag_list (lit """a"", W/""b""") [(Strong, lit "a"); (WeakW, lit "b")] /\
  parse_etags 1000 (lit """a"", W/""b""" ++ [10]) = None.
Proof.
  assert (T : tag_list (lit """a"", W/""b""") [(Strong, lit "a"); (WeakW, lit "b")]).
  { apply (tl_cons (Strong, lit "a") [] [32] (lit "W/""b""") [(WeakW, lit "b")]); [apply Forall_nil|apply Forall_cons; [reflexivity|apply Forall_nil]|].
    apply (tl_one (WeakW, lit "b")). }
  split; [exact T|]. apply (C22_list_loops_refuted _ _ T).
  repeat constructor; try discriminate; cbn; intuition discriminate.
Qed.
Theorem C22_star : forall fuel, (1 <= fuel)%nat -> parse_etags fuel [42] = Some (ET [] [] true).
Proof. exact parse_etags_star. Qed.
Theorem C22_empty_tag_refuted : exists t fuel, parse_etags fuel (write_tag (Strong, t)) <> Some (ET [Some t] [] false)
  /\ parse_etags fuel (write_tag (Strong, t)) <> None.
Proof. exists [], 5%nat. vm_compute. split; discriminate. Qed.
(** What was read as None is written as the text None: an empty tag does not come back. *)
Theorem C22_empty_written_refuted : forall m fuel, (5 <= fuel)%nat ->
  exists e, parse_etags fuel (write_tag (m, [])) = Some e /\ exists m', et_to_header e = write_tag (m', lit "None").
Proof.
  intros m fuel L. destruct fuel as [|[|[|[|[|fuel]]]]]; try lia.
  destruct m; eexists; (split; [reflexivity|]); first [exists Strong; reflexivity|exists WeakW; reflexivity|exists Weakw; reflexivity].
Qed.
Print Assumptions C22_empty_written_refuted.
Print Assumptions C22_recovers_partial.
Print Assumptions C22_star.
Print Assumptions C22_empty_tag_refuted.

Example C22_example :
  let h := lit """a,b"" ,  W/""c"",w/""*""" in
  tag_list h [(Strong, lit "a,b"); (WeakW, lit "c"); (Weakw, lit "*")] /\
  parse_etags 100 h = Some (ET [Some (lit "a,b")] [Some (lit "c"); Some (lit "*")] false).
Proof.
  split; [|vm_compute; reflexivity].
  apply (tl_cons (Strong, lit "a,b") (lit " ") (lit "  ")); [repeat constructor|repeat constructor|].
  apply (tl_cons (WeakW, lit "c") [] []); [constructor|constructor|].
  apply (tl_one (Weakw, lit "*")).
Qed.

(** C23: an If-None-Match list decides for a GET or HEAD request: unmodified
    exactly when it holds the resource's tag.  [date] and [md5] are any date
    parser and tag generator. *)
Theorem C23_tag_list : forall (date : str -> option Z) (md5 : str -> str) (fuel : nat) (env : cond_env)
    (h : str) (l : list tag) (m : mark) (t : str) (lastmod : option Z),
  get_or_head (ce_method env) -> ce_inm env = Some h -> tag_list h l -> Forall plain_tag l -> (length h <= fuel)%nat ->
  exists b, is_resource_modified date md5 fuel env (Some (write_tag (m, t))) None lastmod = Some (Ok b) /\
  (b = false <-> tag_matches l (weak_mark m) t).
Proof. exact decision_tags. Qed.
Theorem C23_star : forall (date : str -> option Z) (md5 : str -> str) (fuel : nat) (env : cond_env)
    (m : mark) (t : str) (lastmod : option Z),
  get_or_head (ce_method env) -> ce_inm env = Some [42] -> (1 <= fuel)%nat ->
  is_resource_modified date md5 fuel env (Some (write_tag (m, t))) None lastmod = Some (Ok false).
Proof. exact decision_star. Qed.
(** C23: otherwise the dates decide, compared at whole seconds. *)
Theorem C23_dates : forall (date : str -> option Z) (md5 : str -> str) (fuel : nat) (env : cond_env)
    (etag : option str) (lastmod : option Z),
  get_or_head (ce_method env) ->
  (ce_inm env = None \/ ce_inm env = Some [] \/ etag = None) ->
  exists b, is_resource_modified date md5 fuel env etag None lastmod = Some (Ok b) /\
  (b = false <-> exists h since m, ce_ims env = Some h /\ date h = Some since /\ lastmod = Some m /\
                                   (m / 1000000 * 1000000 <= since)%Z).
Proof. exact decision_date. Qed.
(** C23: with data instead of a tag, the tag is generated; both are refused. *)
Theorem C23_data : forall (date : str -> option Z) (md5 : str -> str) (fuel : nat) (env : cond_env)
    (data : str) (lastmod : option Z),
  is_resource_modified date md5 fuel env None (Some data) lastmod =
  is_resource_modified date md5 fuel env (Some (md5 data)) None lastmod.
Proof. exact decision_data. Qed.
Print Assumptions C23_tag_list.
Print Assumptions C23_star.
Print Assumptions C23_dates.
Print Assumptions C23_data.

Example C23_example :
  let env := CE (lit "GET") None (Some (lit """a"", W/""b""")) in
  is_resource_modified (fun _ => None) (fun x => x) 50 env (Some (lit """a""")) None None = Some (Ok false) /\
  is_resource_modified (fun _ => None) (fun x => x) 50 env (Some (lit "w/""b""")) None None = Some (Ok false) /\
  is_resource_modified (fun _ => None) (fun x => x) 50 env (Some (lit """c""")) None None = Some (Ok true).
Proof. vm_compute. auto. Qed.

(** Findings: requests of other methods are always reported as unmodified, and a
    strong tag is not found if the client sends it as weak (RFC 7232 asks for a
    weak comparison here). *)
Theorem C23_other_methods_refuted : forall date md5 fuel env etag lastmod,
  ~ get_or_head (ce_method env) -> is_resource_modified date md5 fuel env (Some etag) None lastmod = Some (Ok false).
Proof. exact decision_other_methods. Qed.
Theorem C23_weak_comparison_refuted : exists env t,
  ce_inm env = Some (write_tag (WeakW, t)) /\ get_or_head (ce_method env) /\
  is_resource_modified (fun _ => None) (fun x => x) 50 env (Some (write_tag (Strong, t))) None None = Some (Ok true).
Proof. exists (CE (lit "GET") None (Some (lit "W/""a"""))), (lit "a"). vm_compute. auto. Qed.
Print Assumptions C23_other_methods_refuted.
Print Assumptions C23_weak_comparison_refuted.
