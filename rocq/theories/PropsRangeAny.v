(** Claim C95: what any call on a ContentRange does to it and to the response. *)
From Coq Require Import Arith List NArith ZArith Bool Lia.
From Verif Require Import PyStr PyStrFacts ModelHeaders SpecHeaders ProofHeaders ModelRange SpecRange ModelMirror SpecMirror ProofMirror.
From Verif Require ProofRange.
Import ListNotations.
Open Scope N_scope.

(** The object that a call asks for. *)
Inductive asks (c : content_range) : cr_op -> content_range -> Prop :=
| as_units u : asks c (CrUnits u) (CR u (c_start c) (c_stop c) (c_length c))
| as_start z : asks c (CrStart z) (CR (c_units c) z (c_stop c) (c_length c))
| as_stop z : asks c (CrStop z) (CR (c_units c) (c_start c) z (c_length c))
| as_length z : asks c (CrLength z) (CR (c_units c) (c_start c) (c_stop c) z)
| as_set start stop length u : asks c (CrSet start stop length u) (CR u start stop length)
| as_unset : asks c CrUnset (CR None None None None).
(** The text of an object with units. *)
Inductive range_text : content_range -> str -> Prop :=
| rt_unknown u stop : range_text (CR (Some u) None stop None) (u ++ lit " */*")
| rt_length u stop n : range_text (CR (Some u) None stop (Some n)) (u ++ lit " */" ++ zdec n)
| rt_part u a b : range_text (CR (Some u) (Some a) (Some b) None) (u ++ lit " " ++ zdec a ++ lit "-" ++ zdec (b - 1) ++ lit "/*")
| rt_all u a b n : range_text (CR (Some u) (Some a) (Some b) (Some n)) (u ++ lit " " ++ zdec a ++ lit "-" ++ zdec (b - 1) ++ lit "/" ++ zdec n).

Lemma told_any h c :
  let (h', e) := cr_update h c in
  (c_units c = None /\ without (lit "Content-Range") h h' /\ e = None) \/
  (c_units c <> None /\ c_start c <> None /\ c_stop c = None /\ h' = h /\ e = Some TypeError) \/
  (exists line, range_text c line /\ one_line line /\ set_effect (lit "Content-Range") line h h' /\ e = None) \/
  (exists line, range_text c line /\ ~ one_line line /\ h' = h /\ e = Some ValueError).
Proof.
  destruct (c_units c) as [u|] eqn:U.
  - assert (T : (c_start c <> None /\ c_stop c = None /\ content_range_to_header c = Raise TypeError) \/
                exists line, range_text c line /\ content_range_to_header c = Ok line).
    { unfold content_range_to_header. rewrite U. destruct c as [u' a b n]. cbn in *. subst u'.
      destruct a as [a|].
      - destruct b as [b|]; [|left; repeat split; discriminate]. right. eexists. split; [|reflexivity].
        destruct n as [n|]; constructor.
      - right. eexists. split; [|reflexivity]. destruct n as [n|]; constructor. }
    unfold cr_update. rewrite U. destruct T as [(A & B & ->)|(line & R & ->)].
    + right. left. repeat split; auto. discriminate.
    + destruct (h_set h (lit "Content-Range") (HStr line) []) as [h'|x] eqn:H; cbn [keep]; right; right.
      * left. exists line. split; [exact R|]. split; [|split; [apply set_is_set_effect; exact H|reflexivity]].
        unfold h_set in H. rewrite stored_nil in H. cbn [text] in H.
        destruct (validate_value line) eqn:V; [apply validate_spec; exact V|discriminate].
      * right. exists line. split; [exact R|]. unfold h_set in H. rewrite stored_nil in H. cbn [text] in H.
        destruct (validate_value line) eqn:V; [destruct (set_loop _ _ _); discriminate|].
        injection H as <-. split; [apply validate_false; exact V|auto].
  - destruct (cr_update_none h c U) as (h' & -> & W & _). left. auto.
Qed.

(** Whatever object, headers and call: [set] with an invalid range changes nothing and is a
    ValueError.  Every other call changes the object as asked, and then: without units the
    header is gone; with a start and no stop the headers stay and the call is a TypeError;
    else the header is the text of the object, or, if the units hold a line break, the headers
    stay and the call is a ValueError. *)
Theorem C95_step_exact : forall c h o c2, asks c o c2 ->
  let '(c', h', e) := cr_step c h o in
  ((exists a b n u, o = CrSet a b n u /\ ~ valid_content a b n) /\ c' = c /\ h' = h /\ e = Some ValueError) \/
  ((forall a b n u, o = CrSet a b n u -> valid_content a b n) /\ c' = c2 /\
   ((c_units c' = None /\ without (lit "Content-Range") h h' /\ e = None) \/
    (c_units c' <> None /\ c_start c' <> None /\ c_stop c' = None /\ h' = h /\ e = Some TypeError) \/
    (exists line, range_text c' line /\ one_line line /\ set_effect (lit "Content-Range") line h h' /\ e = None) \/
    (exists line, range_text c' line /\ ~ one_line line /\ h' = h /\ e = Some ValueError))).
Proof.
  intros c h o c2 A. destruct A; cbn [cr_step];
    try (match goal with |- context [cr_update h ?x] => pose proof (told_any h x) as T; destruct (cr_update h x) as [h' e] end;
         right; split; [intros; discriminate|split; [reflexivity|exact T]]).
  destruct (is_byte_range_valid start stop length) eqn:V.
  - pose proof (told_any h (CR u start stop length)) as T. destruct (cr_update h (CR u start stop length)) as [h' e].
    right. apply ProofRange.valid_spec in V. split; [|split; [reflexivity|exact T]].
    intros a b n u' E. injection E as <- <- <- <-. exact V.
  - left. split; [|auto]. exists start, stop, length, u. split; [reflexivity|]. intros X.
    apply ProofRange.valid_spec in X. congruence.
Qed.
Print Assumptions C95_step_exact.

Example C95_step_exact_example :
  let c := CR (Some (lit "bytes")) None None (Some 10%Z) in
  let h := [(lit "Content-Range", lit "bytes */10")] in
  asks c (CrStart (Some 2%Z)) (CR (Some (lit "bytes")) (Some 2%Z) None (Some 10%Z)) /\
  cr_step c h (CrStart (Some 2%Z)) = (CR (Some (lit "bytes")) (Some 2%Z) None (Some 10%Z), h, Some TypeError) /\
  cr_step (CR (Some (lit "bytes")) (Some 2%Z) None (Some 10%Z)) h (CrStop (Some 5%Z)) =
    (CR (Some (lit "bytes")) (Some 2%Z) (Some 5%Z) (Some 10%Z), [(lit "Content-Range", lit "bytes 2-4/10")], None) /\
  cr_step c h (CrUnits (Some (lit "a" ++ [10]))) = (CR (Some (lit "a" ++ [10])) None None (Some 10%Z), h, Some ValueError).
Proof. split; [constructor|]. vm_compute. repeat split. Qed.
