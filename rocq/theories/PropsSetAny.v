(** Claim C94: what any call on the set of a header does to the response. *)
From Coq Require Import Arith List NArith ZArith Bool Lia.
From Verif Require Import PyStr PyStrFacts ModelHeaders SpecHeaders ProofHeaders ModelMirror SpecMirror ProofMirror PropsQopAny.
Import ListNotations.
Open Scope N_scope.

(** Whatever set, headers and call, tame or not, and whatever the names are: either the set is
    as it was and so are the headers (or a place was taken out whose name was no member, which
    is a KeyError); or the set now has length zero and the header is gone; or the header is
    now the text of the set, the others staying, or, if that text cannot be put on one line,
    the headers stay and the call fails with ValueError. *)
Theorem C94_call_any : forall name s h o,
  let '(s', h', e) := hs_call (set_update name) s h o in
  s' = fst (hs_step s o) /\ others_kept name h h' /\
  ((h' = h /\ e = snd (hs_step s o) /\ (s' = s \/ (e = Some KeyError /\ exists i, o = SDelItem i))) \/
   (hs_len s' = 0%nat /\ without name h h' /\ e = None) \/
   (hs_len s' <> 0%nat /\ one_line (hs_to_header s') /\ set_effect name (hs_to_header s') h h' /\ e = None) \/
   (hs_len s' <> 0%nat /\ ~ one_line (hs_to_header s') /\ h' = h /\ e = Some ValueError)).
Proof.
  intros name s h o. unfold hs_call. pose proof (step_any s o) as A.
  destruct (hs_step s o) as [s' e] eqn:E. cbn [fst snd] in *.
  destruct (Nat.eqb (hs_calls s') (hs_calls s)) eqn:C.
  - split; [reflexivity|]. split; [intros k _; reflexivity|]. left. split; [reflexivity|]. split; [reflexivity|].
    apply Nat.eqb_eq in C. destruct A as [A|[A|(A1 & A2 & _)]]; [left; exact A|lia|right; split; assumption].
  - unfold set_update. rewrite contains_remove. destruct (Nat.eqb (hs_len s') 0) eqn:L.
    + apply Nat.eqb_eq in L. destruct (remove_spec h name) as (W & _ & O).
      split; [reflexivity|]. split; [exact O|]. right. left. auto.
    + apply Nat.eqb_neq in L. destruct (h_set h name (HStr (hs_to_header s')) []) as [h'|x] eqn:H; cbn [keep].
      * pose proof (set_is_set_effect _ _ _ _ H) as SE. split; [reflexivity|].
        split; [intros k K; apply (set_get _ _ _ _ SE); intros Q; apply K; symmetry; exact Q|].
        right. right. left. split; [exact L|]. split; [|split; [exact SE|reflexivity]].
        unfold h_set in H. rewrite stored_nil in H. cbn [text] in H.
        destruct (validate_value (hs_to_header s')) eqn:V; [apply validate_spec; exact V|discriminate].
      * split; [reflexivity|]. split; [intros k _; reflexivity|]. right. right. right.
        unfold h_set in H. rewrite stored_nil in H. cbn [text] in H.
        destruct (validate_value (hs_to_header s')) eqn:V; [destruct (set_loop _ _ _); discriminate|].
        injection H as <-. split; [exact L|]. split; [apply validate_false; exact V|]. auto.
Qed.
Print Assumptions C94_call_any.

(** A name discarded in upper case that was the only member: the list still has it, the
    header is gone all the same. *)
Example C94_call_any_example :
  let h := [(lit "Vary", lit "Accept"); (lit "X", lit "1")] in
  let '(s', h', e) := hs_call (set_update (lit "Vary")) (get_set (lit "Vary") h) h (SDiscard (lit "Accept")) in
  hs_len s' = 0%nat /\ hs_iter s' = [lit "Accept"] /\ h' = [(lit "X", lit "1")] /\ e = None.
Proof. vm_compute. repeat split. Qed.
