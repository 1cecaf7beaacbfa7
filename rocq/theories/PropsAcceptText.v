(** * Accept objects as texts: the claims of C102

    [float_of] is Python's float(text), [show] the text of a float, [fmul] the
    product of two floats. *)
From Coq Require Import List NArith ZArith QArith Bool Lia.
From Verif Require Import PyStr PyStrFacts ModelAccept SpecRange SpecAccept ProofAccept
  ModelAcceptText SpecAcceptText ProofAcceptText PropsAccept.
Import ListNotations.
Open Scope N_scope.

(** A header that can be read is written back as a header that reads as the same
    ranges, in the same order, with the same qualities and parameters. *)
Theorem C102_round_trip : forall float_of show k header l,
  exact_floats float_of show ->
  parse_accept float_of k header = Ok l ->
  parse_accept float_of k (accept_header show l) = Ok l.
Proof. intros float_of show k header l F. exact (round_trip float_of show F k header l). Qed.
Print Assumptions C102_round_trip.

(** So do ranges made by hand, at least one, of pieces without separators. *)
Theorem C102_written : forall float_of show k l,
  exact_floats float_of show ->
  l <> [] -> Forall (writable float_of k) l ->
  parse_accept float_of k (accept_header show l) = Ok l.
Proof. intros float_of show k l F. exact (written_read float_of show F k l). Qed.
Print Assumptions C102_written.

(** The floats of the examples *)
Definition ex_show (x : fl) : str :=
  if feq x (Fin 1) then lit "1.0"
  else if feq x (Fin (9 # 10)) then lit "0.9"
  else if feq x (Fin (1 # 2)) then lit "0.5"
  else if feq x (Fin (1 # 10)) then lit "0.1"
  else if feq x (Fin 0) then lit "0"
  else lit "nan".
Lemma ex_floats_exact : exact_floats ex_float ex_show.
Proof.
  assert (C : forall s x, ex_float s = Some x ->
            x = Fin 1 \/ x = Fin (9 # 10) \/ x = Fin (1 # 2) \/ x = Fin (1 # 10)
            \/ x = Fin 0 \/ x = Fin 7 \/ x = NaN).
  { intros s x. unfold ex_float.
    repeat match goal with |- context [if ?b then _ else _] => destruct b end;
      intros E; inversion E; subst; tauto. }
  split.
  - intros s x E. apply C in E. repeat destruct E as [->|E]; try subst x; vm_compute; reflexivity.
  - intros s x E. apply C in E.
    repeat destruct E as [->|E]; try subst x; vm_compute; repeat constructor; discriminate.
  - vm_compute. reflexivity.
  - intros s x E H. apply C in E.
    repeat destruct E as [->|E]; try subst x; try discriminate H; reflexivity.
Qed.

Definition ex_ranges : list range :=
  [mk_range (lit "text/html") (Fin 1) [(lit "level", lit "1"); (lit "note", lit "a=b c")];
   mk_range (lit "image/*") (Fin (1 # 2)) [];
   mk_range (lit "*/*") NaN []].
Example C102_example :
  exact_floats ex_float ex_show
  /\ parse_accept ex_float KContentType
       (lit " text/html; level = 1 ;q= 7;note=a=b c , image/* ;q=0.5,*/*;q=nan") = Ok ex_ranges
  /\ accept_header ex_show ex_ranges
     = lit "text/html;level=1;note=a=b c,image/*;q=0.5,*/*;q=nan"
  /\ parse_accept ex_float KContentType (accept_header ex_show ex_ranges) = Ok ex_ranges.
Proof. split; [apply ex_floats_exact|]. vm_compute. auto. Qed.

(** Ranges made by hand need not read back: parameters are not escaped, a value
    is only checked at its beginning, and no range at all is written as a text
    that cannot be read. *)
Theorem C102_written_refuted :
  (exists r, new_range ex_float KContentType (lit "text/html") (lit "1.0") [(lit "title", lit "a,b")] = Ok r
     /\ parse_accept ex_float KContentType (accept_header ex_show [r]) = Raise ValueError)
  /\ (exists r, new_range ex_float KContentType (lit "text/html") (lit "1.0") [(lit "q", lit "0.5")] = Ok r
        /\ rg_q r = Fin 1
        /\ parse_accept ex_float KContentType (accept_header ex_show [r]) = Ok [rng (lit "text/html") (1 # 2)])
  /\ (exists r, new_range ex_float KContentType (lit "text/html,*/*") (lit "1.0") [] = Ok r
        /\ parse_accept ex_float KContentType (accept_header ex_show [r])
           = Ok [rng (lit "text/html") 1; rng (lit "*/*") 1])
  /\ parse_accept ex_float KContentType (accept_header ex_show []) = Raise ValueError.
Proof.
  split; [eexists; split; [vm_compute; reflexivity|vm_compute; reflexivity]|].
  split; [eexists; split; [vm_compute; reflexivity|vm_compute; auto]|].
  split; [eexists; split; [vm_compute; reflexivity|vm_compute; reflexivity]|].
  vm_compute. reflexivity.
Qed.
Print Assumptions C102_written_refuted.

(** A value is in an Accept object exactly when one of its ranges admits it. *)
Theorem C102_contains : forall fmul k l v,
  proper_text k (v_text v) -> (forall o, In o l -> proper_text k (rg_value o)) ->
  exists b, accept_contains fmul k l v = Ok b /\
    (b = true <-> exists o, In o l /\ admits k (rg_value o) (v_text v)).
Proof. exact contains_spec. Qed.
Print Assumptions C102_contains.

(** Looking a value up gives how acceptable one of the ranges finds it if the
    value is in the object, and a KeyError otherwise. *)
Theorem C102_getitem : forall fmul k l v,
  proper_text k (v_text v) -> (forall o, In o l -> proper_text k (rg_value o)) ->
  (accept_contains fmul k l v = Ok true /\
     exists o a, In o l /\ kind_option k v o = Ok a /\ accept_getitem fmul k l v = Ok a) \/
  (accept_contains fmul k l v = Ok false /\ accept_getitem fmul k l v = Raise KeyError).
Proof. exact getitem_spec. Qed.
Print Assumptions C102_getitem.

(** A match is called exact exactly when the range is the value itself. *)
Theorem C102_exact : forall k v o a,
  proper_text k (v_text v) -> proper_text k (rg_value o) -> v_text v <> star ->
  kind_option k v o = Ok a ->
  (exact_match k a = true <-> rg_value o = v_text v).
Proof. exact exact_spec. Qed.
Print Assumptions C102_exact.

(** The text of a value is the text it was made from. *)
Theorem C102_value_text : forall k v,
  proper_text k (v_text v) -> value_header k v = Ok (v_text v).
Proof. exact value_text. Qed.
Print Assumptions C102_value_text.

Definition ex_value (s : str) : value := mk_value s None.
Example C102_asking_example :
  let l := [mk_range (lit "en") (Fin (1 # 2)) []; mk_range (lit "de-AT") (Fin 1) []] in
  accept_contains ex_mul KLanguage l (ex_value (lit "en-GB")) = Ok true
  /\ accept_contains ex_mul KLanguage l (ex_value (lit "de")) = Ok false
  /\ accept_getitem ex_mul KLanguage l (ex_value (lit "de")) = Raise KeyError
  /\ (exists a, accept_getitem ex_mul KLanguage l (ex_value (lit "en-GB")) = Ok a
                /\ exact_match KLanguage a = false)
  /\ (exists a, accept_getitem ex_mul KLanguage l (ex_value (lit "de-AT")) = Ok a
                /\ exact_match KLanguage a = true)
  /\ value_header KContentType (ex_value (lit "text/html")) = Ok (lit "text/html").
Proof. vm_compute. repeat split; eexists; split; reflexivity. Qed.
