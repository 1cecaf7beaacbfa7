(** Claim C126: the words of the quality of protection in an Authorization. *)
From Coq Require Import Arith List NArith ZArith Bool Lia.
From Verif Require Import PyStr PyStrFacts ModelQuote ModelHeaders SpecHeaders ModelMirror ModelQop ProofQop.
From Verif Require ModelAuth.
Import ListNotations.
Open Scope N_scope.

(** Whatever is called on the set that was handed out, the authorization stays as it is, and
    asked again it hands out the words of the header. *)
Theorem C126_stays : forall d ops,
  let '(s, d', es) := qop_calls (auth_qop d) d ops in d' = d /\ auth_qop d' = auth_qop d /\ s = hs_run (auth_qop d) ops.
Proof.
  intros d ops. pose proof (qop_calls_kept ops (auth_qop d) d) as [A B].
  destruct (qop_calls (auth_qop d) d ops) as [[s d'] es]. cbn [fst snd] in *. subst. auto.
Qed.
Print Assumptions C126_stays.

(** The words are those listed in the field qop; without the field, or with an empty one,
    there are none. *)
Theorem C126_words : forall d,
  (forall c v, dget d (lit "qop") = Some (Some (c :: v)) -> hs_iter (auth_qop d) = parse_list_header (c :: v)) /\
  (dget d (lit "qop") = None \/ dget d (lit "qop") = Some None \/ dget d (lit "qop") = Some (Some []) -> hs_iter (auth_qop d) = []).
Proof.
  intros d. unfold auth_qop. split.
  - intros c v ->. reflexivity.
  - intros [-> | [-> | ->]]; reflexivity.
Qed.
Print Assumptions C126_words.

(** Every call that changes the words of the set is refused with TypeError, except one that
    takes the last word out of the set of an authorization without qop.  Missing: a refused
    call leaves the set as it was, see below; and the calls that are not tame (C14). *)
Theorem C126_told_partial : forall d ops o, distinct_names (hs_iter (auth_qop d)) -> tame_run (auth_qop d) ops ->
  let s := hs_run (auth_qop d) ops in tame s o ->
  let '(s', d', e) := hs_call qop_update s d o in
  s' = fst (hs_step s o) /\ d' = d /\
  (hs_iter s' <> hs_iter s ->
     e = Some TypeError \/ (e = None /\ hs_iter s' = [] /\ forall v, ~ In (lit "qop", v) d)).
Proof. exact qop_told. Qed.
Print Assumptions C126_told_partial.

(** Adding a word that is there is not refused. *)
Theorem C126_known : forall d ops w, distinct_names (hs_iter (auth_qop d)) -> tame_run (auth_qop d) ops ->
  let s := hs_run (auth_qop d) ops in
  (exists n, In n (hs_iter s) /\ same_name n w) -> hs_call qop_update s d (SAdd w) = (s, d, None).
Proof. exact qop_known. Qed.
Print Assumptions C126_known.

Definition digest_fields : dict (option str) :=
  [(lit "username", Some (lit "u")); (lit "qop", Some (lit "auth, auth-int")); (lit "nc", Some (lit "1")); (lit "cnonce", Some (lit "c"))].
Example C126_example :
  hs_iter (auth_qop digest_fields) = [lit "auth"; lit "auth-int"] /\
  tame_run (auth_qop digest_fields) [SAdd (lit "AUTH"); SAdd (lit "x"); SClear] /\
  snd (qop_calls (auth_qop digest_fields) digest_fields [SAdd (lit "AUTH"); SAdd (lit "x"); SClear; SDelItem 0]) =
    [None; Some TypeError; Some TypeError; Some IndexError] /\
  snd (qop_calls (auth_qop []) [] [SAdd (lit "x"); SClear; SDiscard (lit "y")]) = [Some TypeError; None; None] /\
  match ModelAuth.parse_authorization_header (Some (lit "Digest username=u, realm=r, nonce=n, uri=""/"", response=x, qop=auth, nc=1, cnonce=c")) with
  | Ok (Some (ModelAuth.ADigest d)) => hs_iter (auth_qop d) = [lit "auth"]
  | _ => False
  end.
Proof. split; [reflexivity|]. split; [repeat constructor|]. vm_compute. auto. Qed.

(** A refused call has changed the set all the same. *)
Theorem C126_refused_refuted :
  let '(s', d', e) := hs_call qop_update (auth_qop digest_fields) digest_fields (SAdd (lit "x")) in
  e = Some TypeError /\ d' = digest_fields /\ hs_iter s' = [lit "auth"; lit "auth-int"; lit "x"].
Proof. vm_compute. auto. Qed.
Print Assumptions C126_refused_refuted.
