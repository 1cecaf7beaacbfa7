(** * C129: the texts of HTTP errors *)
From Coq Require Import Arith List NArith ZArith Bool Lia.
From Verif Require Import PyStr PyStrFacts ModelHeaders ModelResponse SpecResponse ModelUtils ModelErrorText ProofErrorText.
Import ListNotations.
Open Scope N_scope.

(** The text of an error with a code is the number, a colon, a blank and the name of the
    status: the words of the standard status line, which has them in capitals.  Codes without
    a standard line have the name Unknown Error.  The repr is the name of the class and this
    text, quoted, in angle brackets. *)
Theorem C129_text : forall z c, k_code c = Some z ->
  exists name, e_str c = Ok (zdec z ++ lit ": " ++ name) /\
    e_repr c = Ok (lit "<" ++ k_name c ++ lit " '" ++ (zdec z ++ lit ": " ++ name) ++ lit "'>") /\
    (forall line, In (z, line) standard_lines -> line = zdec z ++ 32 :: upper name) /\
    ((forall line, ~ In (z, line) standard_lines) -> name = lit "Unknown Error").
Proof.
  intros z c K. destruct (text_standard z c K) as (name & E & H). exists name. unfold e_repr. rewrite E. auto.
Qed.
Print Assumptions C129_text.
(** Errors with different codes have different texts, and errors with the same repr are of
    classes of one name and one code. *)
Theorem C129_distinct : forall c1 c2 s, e_str c1 = Ok s -> e_str c2 = Ok s -> k_code c1 = k_code c2.
Proof. exact text_same. Qed.
Print Assumptions C129_distinct.
Theorem C129_distinct_repr : forall c1 c2 s, ~ In 32 (k_name c1) -> ~ In 32 (k_name c2) ->
  e_repr c1 = Ok s -> e_repr c2 = Ok s -> k_name c1 = k_name c2 /\ k_code c1 = k_code c2.
Proof. exact repr_same. Qed.
Print Assumptions C129_distinct_repr.
(** A class made by wrap has the text of the HTTP error, is caught as that error, as the
    exception and as whatever these are caught as, and has the name given or else both names. *)
Theorem C129_wrap : forall cls exception name,
  let c := e_wrap cls exception name in
  e_str c = e_str cls /\ k_code c = k_code cls /\
  (forall b, subclass cls b = true -> subclass c b = true) /\
  (forall b, subclass exception b = true -> subclass c b = true) /\
  (forall n, name = Some n -> n <> [] -> k_name c = n) /\
  (name = None \/ name = Some [] -> k_name c = k_name cls ++ k_name exception).
Proof.
  intros cls exception name c. split; [reflexivity|]. split; [reflexivity|].
  assert (A : forall x, existsb (eqs x) (k_above c) = eqs x (k_name c) || (existsb (eqs x) (k_above cls) || existsb (eqs x) (k_above exception))).
  { intros x. unfold c, e_wrap. cbn [k_above k_name existsb]. rewrite existsb_app. reflexivity. }
  unfold subclass. repeat split; intros.
  - rewrite A, H. rewrite orb_true_l. apply orb_true_r.
  - rewrite A, H. rewrite !orb_true_r. reflexivity.
  - subst name. unfold c, e_wrap. destruct n; [congruence|reflexivity].
  - destruct H; subst name; reflexivity.
Qed.
Print Assumptions C129_wrap.
(** Finding: an error without a code has no text: str and repr raise TypeError.  This is so for
    the error that abort raises when it is given a response. *)
Theorem C129_no_code_refuted :
  exists c, In c module_classes /\ e_str c = Raise TypeError /\ e_repr c = Raise TypeError.
Proof. exists http_exception. repeat split. left. reflexivity. Qed.
Print Assumptions C129_no_code_refuted.
(** It is the only class of the module of which this is so. *)
Theorem C129_exact : forall c,
  ((exists s, e_str c = Ok s) <-> k_code c <> None) /\
  (In c module_classes -> k_code c = None -> k_name c = lit "HTTPException").
Proof.
  intros c. split.
  - unfold e_str. destruct (k_code c) as [z|]; split; intros H; try (intros X; discriminate); eauto; [destruct H; discriminate|congruence].
  - intros H K. unfold module_classes in H. cbn [In] in H.
    repeat (destruct H as [H|H]; [subst c; try discriminate K; try reflexivity|]). destruct H.
Qed.
Print Assumptions C129_exact.
Example C129_example :
  let wrapped := e_wrap (direct (lit "BadRequest") 400) (mk_eclass (lit "KeyError") None [lit "KeyError"; lit "LookupError"]) None in
  e_str (direct (lit "NotFound") 404) = Ok (lit "404: Not Found") /\
  e_repr (direct (lit "ImATeapot") 418) = Ok (lit "<ImATeapot '418: I'm a teapot'>") /\
  e_str (direct (lit "Odd") (-7)) = Ok (lit "-7: Unknown Error") /\
  e_repr wrapped = Ok (lit "<BadRequestKeyError '400: Bad Request'>") /\
  subclass wrapped (mk_eclass (lit "LookupError") None []) = true.
Proof. vm_compute. auto 10. Qed.
