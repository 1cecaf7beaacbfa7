(** C16 - C20: byte ranges, content ranges and cache control. *)
From Coq Require Import List NArith ZArith Bool Lia.
From Verif Require Import PyStr PyStrFacts ModelQuote SpecQuote ModelRange SpecRange ProofRange.
Import ListNotations.
Open Scope N_scope.

(** C16: a resolved range lies inside the resource and holds exactly the bytes
    that were requested and exist. *)
Theorem C16_resolved_range : forall (r : range) (n s e : Z),
  range_for_length r (Some n) = Some (s, e) ->
  r_units r = lit "bytes" /\ exists b f, r_ranges r = [(b, f)] /\
  (0 <= s < e)%Z /\ (e <= n)%Z /\
  (forall p, (s <= p < e)%Z <-> requested b f n p /\ (0 <= p < n)%Z).
Proof. exact rfl_cases. Qed.
Print Assumptions C16_resolved_range.

(** C16: the content range made from it is always accepted. *)
Theorem C16_make_content_range : forall (r : range) (n s e : Z),
  range_for_length r (Some n) = Some (s, e) ->
  make_content_range r (Some n) = Ok (Some (CR (Some (r_units r)) (Some s) (Some e) (Some n))).
Proof. exact make_content_range_ok. Qed.
Print Assumptions C16_make_content_range.

(** C16: if some requested byte exists then the range is resolved, provided a
    suffix is not longer than the resource. *)
Theorem C16_satisfiable_resolved : forall (b : Z) (f : option Z) (n p : Z),
  (match f with Some _ => (0 <= b)%Z | None => (- n <= b)%Z end) ->
  requested b f n p -> (0 <= p < n)%Z ->
  exists s e, range_for_length (Rng (lit "bytes") [(b, f)]) (Some n) = Some (s, e).
Proof. exact rfl_complete. Qed.
Print Assumptions C16_satisfiable_resolved.

Example C16_example :
  range_for_length (Rng (lit "bytes") [(-3, None)%Z]) (Some 10%Z) = Some (7, 10)%Z /\
  range_for_length (Rng (lit "bytes") [(4, Some 100)%Z]) (Some 10%Z) = Some (4, 10)%Z /\
  range_for_length (Rng (lit "bytes") [(10, None)%Z]) (Some 10%Z) = None.
Proof. vm_compute. auto. Qed.

(** Finding beside C16: a suffix longer than the resource asks for all of it,
    and is refused. *)
Theorem C16_long_suffix_refuted : exists b n p,
  requested b None n p /\ (0 <= p < n)%Z /\
  range_for_length (Rng (lit "bytes") [(b, None)]) (Some n) = None.
Proof. exists (-10)%Z, 5%Z, 0%Z. vm_compute. repeat split; discriminate. Qed.
Print Assumptions C16_long_suffix_refuted.

(** C17: writing and reading back. *)
Theorem C17_roundtrip : forall (u : str) (ms : list (Z * option Z)),
  ~ In 61 u -> strip u = u -> lower u = u -> ms <> [] -> increasing 0 ms ->
  parse_range_header (range_to_header (Rng u ms)) = Ok (Some (Rng u ms)).
Proof. exact range_roundtrip. Qed.
Print Assumptions C17_roundtrip.

Example C17_example_increasing : increasing 0 [(0, Some 5); (7, Some 8); (-2, None)]%Z.
Proof. apply inc_closed; [lia|]. apply inc_closed; [lia|]. apply inc_suffix. lia. Qed.
Example C17_example :
  range_to_header (Rng (lit "bytes") [(0, Some 5); (7, Some 8); (-2, None)]%Z) = lit "bytes=0-4,7-7,-2" /\
  parse_range_header (lit "bytes=0-4,7-7,-2") = Ok (Some (Rng (lit "bytes") [(0, Some 5); (7, Some 8); (-2, None)]%Z)).
Proof. vm_compute. auto. Qed.

(** C17, the part that holds of acceptance: what is accepted is not empty and
    increasing, but for a final (0, None).  Missing: that last case, which
    arises from the suffix "-0". *)
Theorem C17_accepted_partial : forall (v u : str) (ms : list (Z * option Z)),
  parse_range_header v = Ok (Some (Rng u ms)) -> accepted 0 ms /\ ms <> [].
Proof. exact parse_accepted. Qed.
Theorem C17_zero_suffix_refuted : exists v u ms,
  parse_range_header v = Ok (Some (Rng u ms)) /\ ~ increasing 0 ms.
Proof.
  exists (lit "bytes=0-4,-0"), (lit "bytes"), [(0, Some 5); (0, None)]%Z.
  split; [vm_compute; reflexivity|]. intros H. inversion H; subst. inversion H5; subst; lia.
Qed.
Print Assumptions C17_accepted_partial.
Print Assumptions C17_zero_suffix_refuted.

(** C18, the part that holds: a header whose items are all of the right shape,
    open ranges and suffixes only at the end, never raises; it is read as
    written if the ranges are increasing, and gives None if they are not.
    Missing: other headers, see the refutations. *)
Theorem C18_grammatical_partial : forall (u : str) (items : list str) (ms : list (Z * option Z)),
  grammatical u items ms ->
  (increasing 0 ms -> parse_range_header (u ++ 61 :: join [44] items) = Ok (Some (Rng (lower (strip u)) ms))) /\
  (~ accepted 0 ms -> parse_range_header (u ++ 61 :: join [44] items) = Ok None) /\
  (exists r, parse_range_header (u ++ 61 :: join [44] items) = Ok r).
Proof. exact grammatical_result. Qed.
Theorem C18_no_equals : forall v : str, ~ In 61 v -> parse_range_header v = Ok None.
Proof. exact no_equals_none. Qed.
Print Assumptions C18_grammatical_partial.
Print Assumptions C18_no_equals.

Example C18_example :
  parse_range_header (lit "Bytes = 5-9, 1-3") = Ok None /\
  parse_range_header (lit "Bytes = 1-3 , 5-") = Ok (Some (Rng (lit "bytes") [(1, Some 4); (5, None)]%Z)).
Proof. vm_compute. auto. Qed.

Theorem C18_value_error_refuted : exists v, parse_range_header v = Raise ValueError.
Proof. exists (lit "bytes=a-b"). vm_compute. reflexivity. Qed.
Theorem C18_type_error_refuted : exists v, parse_range_header v = Raise TypeError.
Proof. exists (lit "bytes=0-,5-9"). vm_compute. reflexivity. Qed.
Print Assumptions C18_value_error_refuted.
Print Assumptions C18_type_error_refuted.

(** C17: what is accepted, exactly, and as what: the items say ranges that follow one
    another, of which only the last is open or a suffix. *)
Theorem C17_accepted_exact : forall (v w : str) (ms : list (Z * option Z)), parse_range_header v = Ok (Some (Rng w ms)) <->
  exists u items ks, v = u ++ 61 :: join [44] items /\ ~ In 61 u /\ items <> [] /\ Forall (fun s => ~ In 44 s) items /\
    w = lower (strip u) /\ Forall2 says items ks /\ fine 0 ks /\ ms = map as_range ks.
Proof. exact header_accepts. Qed.
Print Assumptions C17_accepted_exact.
(** C18: the headers that raise, exactly, and what: behind items that are fine comes one
    with a number that is none, or, behind an open range, one with a dash. *)
Theorem C18_raises_exact : forall (v : str) (e : exn), parse_range_header v = Raise e <->
  exists u pre it rest ks, v = u ++ 61 :: join [44] (pre ++ it :: rest) /\ ~ In 61 u /\
    Forall (fun s => ~ In 44 s) (pre ++ it :: rest) /\
    Forall2 says pre ks /\ fine 0 ks /\ offends (stands 0 ks) e (strip it).
Proof. exact header_raises. Qed.
Print Assumptions C18_raises_exact.
Example C18_raises_example :
  parse_range_header (lit "bytes=0-4, 7-x, 9-") = Raise ValueError /\ parse_range_header (lit "bytes=0-4,7-,8") = Ok None /\
  parse_range_header (lit "bytes=0-4,7-,-2") = Raise TypeError /\ parse_range_header (lit "bytes=5-9,3-x") = Ok None /\
  offends (stands 0 [Closed 0 5]) ValueError (lit "7-x").
Proof.
  repeat (split; [vm_compute; reflexivity|]). apply (off_second 5 (lit "7") (lit "x") 7); try discriminate; try reflexivity.
  intros [H|[]]; discriminate.
Qed.

(** C19: every valid content range is written and read back. *)
Theorem C19_roundtrip : forall (u : str) (s e n : option Z),
  word u -> valid_content s e n ->
  exists h, content_range_to_header (CR (Some u) s e n) = Ok h /\
            parse_content_range_header h = Ok (Some (CR (Some u) s e n)).
Proof. exact content_range_roundtrip. Qed.
Print Assumptions C19_roundtrip.

(** C19: what the parser accepts is valid. *)
Theorem C19_accepts_valid : forall (v : str) (c : content_range),
  parse_content_range_header v = Ok (Some c) ->
  valid_content (c_start c) (c_stop c) (c_length c) /\ (exists u, c_units c = Some u /\ u <> []).
Proof. exact parse_content_valid. Qed.
Print Assumptions C19_accepts_valid.

(** C19: a ContentRange is made of valid bounds as they are; any others are a ValueError. *)
Theorem C19_made : forall u s e n,
  (valid_content s e n -> content_range_new u s e n = Ok (CR u s e n)) /\
  (~ valid_content s e n -> content_range_new u s e n = Raise ValueError).
Proof. exact content_range_made. Qed.
Print Assumptions C19_made.

(** C19, the part that holds: no exception without superscript digits. *)
Theorem C19_no_raise_partial : forall v : str,
  Forall (fun c => ~ superscript c) v -> exists r, parse_content_range_header v = Ok r.
Proof. exact parse_content_no_raise. Qed.
Print Assumptions C19_no_raise_partial.

Example C19_example :
  content_range_to_header (CR (Some (lit "bytes")) (Some 0%Z) (Some 10%Z) (Some 100%Z)) = Ok (lit "bytes 0-9/100") /\
  parse_content_range_header (lit "bytes 0-9/100")
   = Ok (Some (CR (Some (lit "bytes")) (Some 0%Z) (Some 10%Z) (Some 100%Z))).
Proof. vm_compute. auto. Qed.

(** C19: the headers that are read, exactly, and as what; and those that raise: the
    length is written in digits in the sense of [str.isdigit] that [int] refuses. *)
Theorem C19_reads_exact : forall (v u : str) (s e n : option Z), parse_content_range_header v = Ok (Some (CR (Some u) s e n)) <->
  exists rng len, content_parts v u rng len /\ length_says len n /\ range_says rng s e /\ valid_content s e n.
Proof. exact content_reads. Qed.
Theorem C19_raises_exact : forall (v : str) (e : exn), parse_content_range_header v = Raise e <->
  e = ValueError /\ exists u rng len, content_parts v u rng len /\ false_digits len.
Proof. exact content_raises. Qed.
Print Assumptions C19_reads_exact.
Print Assumptions C19_raises_exact.
Example C19_exact_example :
  parse_content_range_header (lit "  bytes  +1_0- 19/100 ") = Ok (Some (CR (Some (lit "bytes")) (Some 10%Z) (Some 20%Z) (Some 100%Z))) /\
  content_parts (lit "  bytes  +1_0- 19/100 ") (lit "bytes") (lit "+1_0- 19") (lit "100") /\
  parse_content_range_header (lit "bytes */1" ++ [178]) = Raise ValueError /\ false_digits (49 :: [178]).
Proof.
  split; [vm_compute; reflexivity|]. split.
  - exists [32; 32], [32; 32], [32]. split; [reflexivity|]. unfold blanks, word.
    split; [repeat constructor|]. split; [repeat constructor|]. split; [discriminate|]. split; [repeat constructor|].
    split; [split; [discriminate|repeat constructor]|]. split; [cbn; intuition discriminate|]. split.
    + intros c t E. injection E as <- _. reflexivity.
    + intros c t E. change (lit "100") with ((lit "10") ++ [48]) in E. apply app_inj_tail in E. destruct E as [_ <-]. reflexivity.
  - split; [vm_compute; reflexivity|]. split.
    + constructor; [left; split; discriminate|]. constructor; [right; left; reflexivity|constructor].
    + right. left. left. reflexivity.
Qed.

(** Findings: a superscript digit raises; a stop beyond the length is accepted. *)
Theorem C19_raise_refuted : exists v, parse_content_range_header v = Raise ValueError.
Proof. exists (lit "bytes */" ++ [178]). vm_compute. reflexivity. Qed.
Theorem C19_stop_beyond_length_refuted : exists v c e n,
  parse_content_range_header v = Ok (Some c) /\ c_stop c = Some e /\ c_length c = Some n /\ (n < e)%Z.
Proof.
  exists (lit "bytes 0-9/5"), (CR (Some (lit "bytes")) (Some 0%Z) (Some 10%Z) (Some 5%Z)), 10%Z, 5%Z.
  vm_compute. auto.
Qed.
Print Assumptions C19_raise_refuted.
Print Assumptions C19_stop_beyond_length_refuted.

(** C20: what an attribute reads after it was set; other attributes keep theirs.
    [reads_after] spells out the result: the value itself for numbers and text. *)
Theorem C20_set_get : forall (p : cc_prop) (v : pyval) (d d' : ccdict),
  cc_set p v d = Ok d' -> cc_get p d' = reads_after p v.
Proof. exact cc_set_get. Qed.
Theorem C20_set_other : forall (p p' : cc_prop) (v : pyval) (d d' : ccdict),
  cc_set p v d = Ok d' -> cp_key p' <> cp_key p -> cc_get p' d' = cc_get p' d.
Proof. exact cc_set_other. Qed.
Theorem C20_set_raises : forall (p : cc_prop) (v : pyval) (d : ccdict),
  (exists e, cc_set p v d = Raise e) <->
  cp_type p <> TBool /\ v = PNone /\ dget d (cp_key p) = None.
Proof. exact cc_set_raises. Qed.
Print Assumptions C20_set_get.
Print Assumptions C20_set_other.
Print Assumptions C20_set_raises.

(** C20, the part that holds of header round trips: after any history of
    assignments and deletions, the header reads back as the same directives, in
    order, with values as text, if no value is itself written in quotes. *)
Theorem C20_header_partial : forall ops : list cc_op,
  Forall (fun o => is_token (op_key o)) ops ->
  Forall (fun kv => match py_str (snd kv) with Some s => ~ wears_quotes s | None => True end) (cc_run ops) ->
  parse_cache_control (cc_to_header (cc_run ops)) = map (fun kv => (fst kv, retext (snd kv))) (cc_run ops).
Proof. exact (fun ops H => cc_header_exact (cc_run ops) (cc_run_keys ops H)). Qed.
(** Each attribute reads the same from the header, unless it is untyped and holds
    a number, or False was stored. *)
Theorem C20_header_reads_partial : forall (ops : list cc_op) (p : cc_prop),
  Forall (fun o => is_token (op_key o)) ops ->
  Forall (fun kv => match py_str (snd kv) with Some s => ~ wears_quotes s | None => True end) (cc_run ops) ->
  Forall (fun kv => snd kv <> PFalse /\ snd kv <> PTrue) (cc_run ops) ->
  (cp_type p = TAny -> forall z, dget (cc_run ops) (cp_key p) <> Some (PInt z)) ->
  cc_get p (parse_cache_control (cc_to_header (cc_run ops))) = cc_get p (cc_run ops).
Proof. exact (fun ops p H => cc_header_reads (cc_run ops) p (cc_run_keys ops H)). Qed.
Print Assumptions C20_header_partial.
Print Assumptions C20_header_reads_partial.

(** The attributes of response cache control have distinct token names. *)
Theorem C20_attributes : NoDup (map cp_key response_props) /\ Forall (fun p => is_token (cp_key p)) response_props.
Proof. exact response_props_ok. Qed.
Print Assumptions C20_attributes.

Definition cc_max_age := CP (lit "max-age") (PInt (-1)) TInt.
Definition cc_no_transform := CP (lit "no-transform") PNone TAny.
Definition cc_public := CP (lit "public") PNone TBool.
Example C20_example :
  In cc_max_age response_props /\ In cc_public response_props /\
  cc_to_header (cc_run [CCSet cc_public PTrue; CCSet cc_max_age (PInt 10); CCSet cc_max_age (PInt 20)])
    = lit "public, max-age=20" /\
  cc_get cc_max_age (parse_cache_control (lit "public, max-age=20")) = PInt 20.
Proof. vm_compute. auto 10. Qed.

(** Findings: no_transform cannot be read back; False does not remove a number;
    None raises KeyError on an absent directive. *)
Theorem C20_no_transform_refuted : In cc_no_transform response_props /\
  exists d, cc_set cc_no_transform PTrue [] = Ok d /\ cc_get cc_no_transform d = cc_get cc_no_transform [].
Proof. split; [cbn; tauto|]. eexists. split; [reflexivity|]. vm_compute. reflexivity. Qed.
Theorem C20_false_refuted : In cc_max_age response_props /\
  exists d, cc_set cc_max_age PFalse [] = Ok d /\ cc_get cc_max_age d = PInt 0.
Proof. split; [cbn; tauto|]. eexists. split; [reflexivity|]. vm_compute. reflexivity. Qed.
Theorem C20_none_refuted : In cc_max_age response_props /\ cc_set cc_max_age PNone [] = Raise KeyError.
Proof. split; [cbn; tauto|]. vm_compute. reflexivity. Qed.
Print Assumptions C20_no_transform_refuted.
Print Assumptions C20_false_refuted.
Print Assumptions C20_none_refuted.
