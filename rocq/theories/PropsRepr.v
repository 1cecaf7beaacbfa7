(** * C132: repr() of responses and requests *)
From Coq Require Import Arith List NArith ZArith Bool Lia.
From Verif Require Import PyStr PyStrFacts Utf8 ModelHeaders SpecHeaders ModelEtag ModelResponse SpecResponse PropsResponse ModelRepr ProofRepr.
Import ListNotations.
Open Scope N_scope.

(** The repr of a response whose body is a sequence tells the status line and how many bytes
    are sent for it, text or not; [chunks it] is what the server gets.  The four
    parameters are IDNA and the address checks. *)
Theorem C132_counts : forall (idna_part idna_decode_part : str -> res str) (ip_ok nfkc_ok : str -> bool) cls r environ method line h it cs l,
  serve idna_part idna_decode_part ip_ok nfkc_ok environ r = Ok (line, h, it) ->
  dget environ (lit "REQUEST_METHOD") = Some method -> method <> lit "HEAD" ->
  ~ bodyless (st_code (rs_status r)) -> rs_body r = BSeq l -> chunks it = (cs, None) ->
  r_repr cls r = (r, Ok (lit "<" ++ cls ++ lit " " ++ zdec (Z.of_nat (length (concat cs))) ++ lit " bytes [" ++ line ++ lit "]>")).
Proof. exact repr_counts. Qed.
Print Assumptions C132_counts.
(** An iterator is called streamed.  Nothing is taken from it, nor is a response changed in
    any other way, even if there is no repr. *)
Theorem C132_unused : forall cls r, fst (r_repr cls r) = r /\
  forall l f c, rs_body r = BIter l f c -> snd (r_repr cls r) = Ok (lit "<" ++ cls ++ lit " streamed [" ++ st_line (rs_status r) ++ lit "]>").
Proof. intros cls r. split; [reflexivity|]. intros l f c H. unfold r_repr. rewrite H. reflexivity. Qed.
Print Assumptions C132_unused.
(** There is a repr exactly if no text of a sequence has a surrogate (or a number that is no
    character at all). *)
Theorem C132_exact : forall cls r,
  (exists s, snd (r_repr cls r) = Ok s) <->
  forall l s c, rs_body r = BSeq l -> In (IText s) l -> In c s -> c <= 1114111 /\ ~ (55296 <= c <= 57343).
Proof.
  intros cls r. unfold r_repr. destruct (rs_body r) as [l|l f k]; cbn [snd].
  2: { split; [intros _ l' s c H; discriminate|]. intros _. cbn. eauto. }
  assert (Sc : forall c, scalar c = true <-> c <= 1114111 /\ ~ (55296 <= c <= 57343)).
  { intros c. unfold scalar, between. destruct (N.leb_spec c 1114111), (N.leb_spec 55296 c), (N.leb_spec c 57343); cbn; split; intros; try discriminate; try reflexivity; try (exfalso; lia); lia. }
  split.
  - intros (s & H) l' s' c Hl Hs Hc. injection Hl as <-. apply Sc.
    destruct (encode_items l None) as [[bs [e|]] rest] eqn:E; [discriminate|]. pose proof (encode_none l _ _ E) as ->.
    assert (K : forallb scalar s' = true) by (apply (proj1 (encode_ok l)); eauto). rewrite forallb_forall in K. apply K, Hc.
  - intros H. destruct (proj2 (encode_ok l)) as (cs & ->); [|cbn; eauto].
    intros s Hs. apply forallb_forall. intros c Hc. apply Sc. eapply H; eauto.
Qed.
Print Assumptions C132_exact.
(** Finding: with a surrogate in a text the repr fails. *)
Theorem C132_surrogate_refuted : exists r, snd (r_repr (lit "Response") r) = Raise UnicodeError.
Proof. exists (response0 [] (BSeq [IText [97; 55296]])). vm_compute. reflexivity. Qed.
Print Assumptions C132_surrogate_refuted.
(** The repr of a request: the address and the method if both can be read; in all other cases
    it ends by saying that the environ is not valid. *)
Theorem C132_request : forall cls u m,
  q_repr cls (Ok u) (Ok m) = lit "<" ++ cls ++ lit " '" ++ u ++ lit "' [" ++ m ++ lit "]>" /\
  forall url method, (forall u m, url <> Ok u \/ method <> Ok m) ->
    exists before, q_repr cls url method = before ++ lit "(invalid WSGI environ)>".
Proof.
  intros cls u m. split; [unfold q_repr; cbn [join]; rewrite <- !app_assoc; reflexivity|]. intros url method H. unfold q_repr.
  destruct url as [x|e]; [destruct method as [y|e]|].
  - destruct (H x y) as [K|K]; congruence.
  - exists (lit "<" ++ cls ++ lit " '" ++ x ++ lit "' "). cbn [join]. rewrite <- !app_assoc. reflexivity.
  - exists (lit "<" ++ cls ++ lit " "). cbn [join]. rewrite <- !app_assoc. reflexivity.
Qed.
Print Assumptions C132_request.
Example C132_example :
  let r := response0 [] (BSeq [IText [233]; IBytes [1; 2]]) in
  snd (r_repr (lit "Response") r) = Ok (lit "<Response 4 bytes [200 OK]>") /\
  snd (r_repr (lit "Response") (response0 [] (BIter [IText [233]] None None))) = Ok (lit "<Response streamed [200 OK]>") /\
  q_repr (lit "Request") (Ok (lit "http://a/b")) (Ok (lit "GET")) = lit "<Request 'http://a/b' [GET]>" /\
  q_repr (lit "Request") (Ok (lit "http://a/b")) (Raise KeyError) = lit "<Request 'http://a/b' (invalid WSGI environ)>".
Proof. vm_compute. auto. Qed.
