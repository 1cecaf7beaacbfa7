(** * Content negotiation: the claims

    C49 (what is selected), C50 (preference), C51 (matching and qualities),
    C52 (language and character set), C75 (reading the header).

    [float_of] is Python's float(text), [fmul] the product of two floats; both
    are arbitrary in every theorem. *)
From Coq Require Import List NArith ZArith QArith Bool Permutation Lia Lqa.
From Verif Require Import PyStr PyStrFacts ModelAccept SpecRange SpecAccept ProofAccept.
Import ListNotations.
Open Scope N_scope.

(** Readers and offers for the examples *)
Definition ex_float (s : str) : option fl :=
  if eqs s (lit "1.0") then Some (Fin 1)
  else if eqs s (lit "0.9") then Some (Fin (9 # 10))
  else if eqs s (lit "0.5") then Some (Fin (1 # 2))
  else if eqs s (lit "0.1") then Some (Fin (1 # 10))
  else if eqs s (lit "0") then Some (Fin 0)
  else if eqs s (lit "7") then Some (Fin 7)
  else if eqs s (lit "nan") then Some NaN
  else None.
Definition ex_mul (a b : fl) : fl :=
  match a, b with Fin x, Fin y => Fin (x * y) | _, _ => NaN end.
Definition offer (s : str) : repr := new_repr (Some s) None None None.
Definition html : repr := offer (lit "text/html").
Definition json : repr := offer (lit "application/json").
Definition plain : repr := offer (lit "text/plain").
Definition ask (l : list repr) (h : str) : res repr :=
  select_representation ex_float ex_mul l (Some h) None None.
Definition rng (v : str) (q : Q) : range := mk_range v (Fin q) [].

Lemma media_text_is v t s :
  eqs v (slashed t s) && forallb (fun c => negb (N.eqb 47 c)) (t ++ s) = true -> media_text v t s.
Proof.
  intros H. apply andb_true_iff in H as [E H]. apply eqs_eq in E. subst v.
  rewrite forallb_forall in H. repeat split; intros F.
  - specialize (H 47 (in_or_app _ _ _ (or_introl F))). discriminate.
  - specialize (H 47 (in_or_app _ _ _ (or_intror F))). discriminate.
Qed.

(** ** C49: what is returned was offered and is admitted by the Accept header *)
Theorem C49_sound : forall fmul l accept language charset r,
  select fmul l accept language charset = Ok r -> In r l /\ admitted accept r.
Proof. exact select_sound. Qed.
Print Assumptions C49_sound.

(** NotAcceptable is raised exactly when no offer is admitted.  Required: the
    ranges and content types have a single slash (else: ValueError, below), and
    no offer has a language without having a content type (else: AttributeError,
    below). *)
Theorem C49_not_acceptable_partial : forall fmul l accept language charset,
  (forall o, In o accept -> well_formed (rg_value o)) ->
  (forall r, In r l -> match r_content_type r with
                       | Some v => well_formed (v_text v) | None => r_language r = None end) ->
  (select fmul l accept language charset = Raise NotAcceptable
   <-> forall r, In r l -> ~ admitted accept r).
Proof. exact select_none. Qed.
Print Assumptions C49_not_acceptable_partial.

(** If moreover no offer has a character set (else: TypeError, below) then there
    is no other outcome. *)
Theorem C49_total_partial : forall fmul l accept language charset,
  (forall o, In o accept -> well_formed (rg_value o)) ->
  (forall r, In r l -> match r_content_type r with
                       | Some v => well_formed (v_text v) | None => r_language r = None end
                       /\ r_charset r = None) ->
  (exists r, select fmul l accept language charset = Ok r)
  \/ select fmul l accept language charset = Raise NotAcceptable.
Proof. exact select_total. Qed.
Print Assumptions C49_total_partial.

Example C49_example :
  ask [html; json] (lit "application/*, image/png") = Ok json
  /\ ask [html; json] (lit "image/png;q=0.5") = Raise NotAcceptable
  /\ ask [json; html; plain] (lit "text/html") = Ok html.
Proof. vm_compute. auto. Qed.
Example C49_example_hypotheses :
  (forall o, In o [rng (lit "application/*") 1; rng (lit "image/png") 1] -> well_formed (rg_value o))
  /\ (forall r, In r [html; json] -> match r_content_type r with
                       | Some v => well_formed (v_text v) | None => r_language r = None end
                       /\ r_charset r = None).
Proof.
  split.
  - intros o [<-|[<-|[]]]; [exists (lit "application"), star | exists (lit "image"), (lit "png")];
      (apply media_text_is; reflexivity).
  - intros r [<-|[<-|[]]]; (split; [|reflexivity]);
      [exists (lit "text"), (lit "html") | exists (lit "application"), (lit "json")];
      (apply media_text_is; reflexivity).
Qed.

(** Two offers with a character set: the comparison raises TypeError
    (verktyg/accept/__init__.py:181 stores a method instead of calling it). *)
Theorem C49_charset_refuted :
  let html8 := new_repr (Some (lit "text/html")) None (Some (lit "utf-8")) None in
  let html1 := new_repr (Some (lit "text/html")) None (Some (lit "latin1")) None in
  ask [html8; html1] (lit "text/html") = Raise TypeError.
Proof. vm_compute. reflexivity. Qed.
Print Assumptions C49_charset_refuted.
(** An offer with a language and no content type: AttributeError (line 175). *)
Theorem C49_language_refuted :
  ask [new_repr None (Some (lit "en")) None None] (lit "text/html") = Raise AttributeError.
Proof. vm_compute. reflexivity. Qed.
Print Assumptions C49_language_refuted.
(** A header that the client may send, accepted by the reader, and then refused
    with ValueError during selection; and one that is refused by the reader. *)
Theorem C49_value_error_refuted :
  is_ok (parse_accept ex_float KContentType (lit "text/html/x")) = true
  /\ ask [html] (lit "text/html/x") = Raise ValueError
  /\ ask [html] (lit "text/html, *;q=0.1") = Raise ValueError
  /\ ask [html] [] = Raise ValueError.
Proof. vm_compute. auto. Qed.
Print Assumptions C49_value_error_refuted.
(** Quality zero says: not acceptable.  It is selected. *)
Theorem C49_zero_refuted :
  ask [html] (lit "text/html;q=0") = Ok html
  /\ parse_accept ex_float KContentType (lit "text/html;q=0") = Ok [rng (lit "text/html") 0].
Proof. vm_compute. auto. Qed.
Print Assumptions C49_zero_refuted.

(** ** C50: preference

    Proved for headers in which a more specific range never has the lower
    quality ([in_order]), and plain offers ([plain_offer]): then the offer
    selected has, by its most specific matching range, the highest quality. *)
Theorem C50_preference_partial : forall fmul l accept language charset qs,
  plain_offer l qs -> (forall o, In o accept -> proper_range o) -> in_order l accept ->
  forall r, select fmul l accept language charset = Ok r ->
  exists v o, r_content_type r = Some v /\ decides accept (v_text v) o /\
    forall r' v' o', In r' l -> r_content_type r' = Some v' ->
      In o' accept -> media_matches (rg_value o') (v_text v') ->
      fle (rg_q o') (rg_q o) = true.
Proof. exact preference. Qed.
Print Assumptions C50_preference_partial.

(** Under the same conditions the order of the ranges in the header does not
    matter. *)
Theorem C50_order_partial : forall fmul l accept language charset qs,
  plain_offer l qs -> (forall o, In o accept -> proper_range o) -> in_order l accept ->
  forall accept', Permutation accept accept' ->
  select fmul l accept language charset = select fmul l accept' language charset.
Proof. exact order_independent. Qed.
Print Assumptions C50_order_partial.

Definition ex_ranges : list range :=
  [rng (lit "*/*") (1 # 10); rng (lit "text/*") (1 # 2); rng (lit "application/json") 1].
Lemma ex_rank o : In o ex_ranges ->
  rank (rg_value o) (if eqs (rg_value o) (lit "*/*") then 0 else if eqs (rg_value o) (lit "text/*") then 1 else 2)%nat.
Proof.
  intros [<-|[<-|[<-|[]]]].
  - apply rank_any. (apply media_text_is; reflexivity).
  - apply (rank_type _ (lit "text")); [(apply media_text_is; reflexivity) | discriminate].
  - apply (rank_exact _ (lit "application") (lit "json"));
      [(apply media_text_is; reflexivity) | discriminate | discriminate].
Qed.
Example C50_example_hypotheses :
  plain_offer [html; json; plain] 1 /\ (forall o, In o ex_ranges -> proper_range o)
  /\ in_order [html; json; plain] ex_ranges
  /\ select ex_mul [html; json; plain] ex_ranges [] [] = Ok json
  /\ select ex_mul [html; plain] ex_ranges [] [] = Ok plain.
Proof.
  split; [|split; [|split]].
  - split; [|left; intros r [<-|[<-|[<-|[]]]]; reflexivity].
    intros r [<-|[<-|[<-|[]]]]; (split; [|split; reflexivity]); eexists;
      (split; [reflexivity | split; [|reflexivity]]).
    + exists (lit "text"), (lit "html"). split; [(apply media_text_is; reflexivity) | split; discriminate].
    + exists (lit "application"), (lit "json"). split; [(apply media_text_is; reflexivity) | split; discriminate].
    + exists (lit "text"), (lit "plain"). split; [(apply media_text_is; reflexivity) | split; discriminate].
  - intros o Ho. split; [eexists; apply ex_rank; exact Ho|].
    destruct Ho as [<-|[<-|[<-|[]]]]; eexists; (split; [reflexivity | split; lra]).
  - intros o o' v v' n n' Ho Ho' _ _ _ _ Hn Hn' H.
    rewrite (rank_fun _ _ _ Hn (ex_rank o Ho)) in H.
    rewrite (rank_fun _ _ _ Hn' (ex_rank o' Ho')) in H. clear Hn Hn'.
    destruct Ho as [<-|[<-|[<-|[]]]], Ho' as [<-|[<-|[<-|[]]]]; vm_compute in H |- *;
      first [reflexivity | lia].
  - vm_compute. auto.
Qed.

(** In general neither holds.  The same ranges in two orders, and in the second
    the answer is the one the client wants least: *)
Theorem C50_order_refuted :
  ask [json; html] (lit "text/html;q=0.1, */*;q=0.5, application/*;q=0.9") = Ok json
  /\ ask [json; html] (lit "application/*;q=0.9, */*;q=0.5, text/html;q=0.1") = Ok html.
Proof. vm_compute. auto. Qed.
Print Assumptions C50_order_refuted.

(** The most specific range does not decide: the client gives text/html 0.1 and
    everything else 0.5, and text/html is selected. *)
Theorem C50_quality_refuted :
  ask [json; html] (lit "text/html;q=0.1, */*;q=0.5") = Ok html
  /\ ask [json; html] (lit "*/*;q=0.5, text/html;q=0.1") = Ok html
  /\ decides [rng (lit "text/html") (1 # 10); rng (lit "*/*") (1 # 2)] (lit "text/html")
       (rng (lit "text/html") (1 # 10))
  /\ decides [rng (lit "text/html") (1 # 10); rng (lit "*/*") (1 # 2)] (lit "application/json")
       (rng (lit "*/*") (1 # 2)).
Proof.
  split; [vm_compute; reflexivity|]. split; [vm_compute; reflexivity|].
  assert (R2 : rank (lit "text/html") 2)
    by (apply (rank_exact _ (lit "text") (lit "html")); [apply media_text_is; reflexivity | discriminate | discriminate]).
  assert (R0 : rank (lit "*/*") 0) by (apply rank_any; apply media_text_is; reflexivity).
  split.
  - split; [left; reflexivity|]. split.
    + exists (lit "text"), (lit "html"). split; [apply media_text_is; reflexivity | right; right; reflexivity].
    + cbn [rg_value rng rg_q]. intros o' [<-|[<-|[]]] _ n n' Hn Hn'; cbn [rg_value rng rg_q] in *.
      * right. split; [exact (rank_fun _ _ _ Hn' Hn) | reflexivity].
      * left. rewrite (rank_fun _ _ _ Hn R2), (rank_fun _ _ _ Hn' R0). lia.
  - split; [right; left; reflexivity|]. split.
    + exists (lit "application"), (lit "json"). split; [apply media_text_is; reflexivity | left; reflexivity].
    + cbn [rg_value rng rg_q]. intros o' [<-|[<-|[]]] M n n' Hn Hn'; cbn [rg_value rng rg_q] in *.
      * exfalso. destruct M as (t & s & T & M).
        assert (J : media_text (lit "application/json") (lit "application") (lit "json"))
          by (apply media_text_is; reflexivity).
        destruct (media_text_fun _ _ _ _ _ T J) as [-> ->].
        destruct M as [M|[M|M]]; discriminate M.
      * right. split; [exact (rank_fun _ _ _ Hn' Hn) | reflexivity].
Qed.
Print Assumptions C50_quality_refuted.

(** An offer with a language beats one without, whatever the client says of
    either; and so does a higher server side quality of an offer the client wants
    less. *)
Theorem C50_language_refuted :
  let english := new_repr (Some (lit "text/html")) (Some (lit "en")) None None in
  ask [json; english] (lit "application/json, text/html;q=0.1") = Ok english.
Proof. vm_compute. reflexivity. Qed.
Print Assumptions C50_language_refuted.
Theorem C50_qs_refuted :
  let poor := new_repr (Some (lit "application/json")) None None (Some (Fin (1 # 2))) in
  ask [poor; html] (lit "application/json, text/html;q=0.1") = Ok html.
Proof. vm_compute. reflexivity. Qed.
Print Assumptions C50_qs_refuted.

(** ** C51: matching

    A media type matches a range exactly when the range has one of the three
    forms, or the fourth form */subtype. *)
Theorem C51_media_partial : forall v o,
  well_formed (v_text v) -> well_formed (rg_value o) ->
  ((exists a, content_type_option v o = Ok a) <->
   media_matches (rg_value o) (v_text v) \/ star_subtype (rg_value o) (v_text v))
  /\ ((forall a, content_type_option v o <> Ok a) -> content_type_option v o = Raise NotAcceptable).
Proof.
  intros v o Hv Ho.
  destruct (content_type_option_spec v o Hv Ho) as [[M (t & s & ot & os & _ & _ & E)]|[M E]];
    rewrite E; (split; [split|]).
  - intros _. exact M.
  - intros _. eauto.
  - intros F. destruct (F _ eq_refl).
  - intros [a F]. discriminate.
  - intros F. contradiction.
  - reflexivity.
Qed.
Print Assumptions C51_media_partial.
Theorem C51_media_refuted :
  exists a, content_type_option (mk_value (lit "text/html") None) (rng (lit "*/html") 1) = Ok a.
Proof. eexists. vm_compute. reflexivity. Qed.
Print Assumptions C51_media_refuted.

Theorem C51_language : forall v o,
  ((exists a, language_option v o = Ok a) <-> language_matches (rg_value o) (v_text v))
  /\ ((forall a, language_option v o <> Ok a) -> language_option v o = Raise NotAcceptable).
Proof.
  intros v o. destruct (language_option_spec v o) as [[M (a & E & _)]|[M E]];
    rewrite E; (split; [split|]).
  - intros _. exact M.
  - intros _. eauto.
  - intros F. destruct (F _ eq_refl).
  - intros [a F]. discriminate.
  - intros F. contradiction.
  - reflexivity.
Qed.
Print Assumptions C51_language.
Theorem C51_charset : forall v o,
  ((exists a, charset_option v o = Ok a) <-> charset_matches (rg_value o) (v_text v))
  /\ ((forall a, charset_option v o <> Ok a) -> charset_option v o = Raise NotAcceptable).
Proof.
  intros v o. destruct (charset_option_spec v o) as [[M (a & E & _)]|[M E]];
    rewrite E; (split; [split|]).
  - intros _. exact M.
  - intros _. eauto.
  - intros F. destruct (F _ eq_refl).
  - intros [a F]. discriminate.
  - intros F. contradiction.
  - reflexivity.
Qed.
Print Assumptions C51_charset.
Example C51_example :
  is_ok (language_option (mk_value (lit "en-GB") None) (rng (lit "en") 1)) = true
  /\ language_option (mk_value (lit "english") None) (rng (lit "en") 1) = Raise NotAcceptable
  /\ language_option (mk_value (lit "en") None) (rng (lit "en-GB") 1) = Raise NotAcceptable
  /\ is_ok (charset_option (mk_value (lit "utf-8") None) (rng (lit "*") 1)) = true
  /\ content_type_option (mk_value (lit "text/html") None) (rng (lit "text/plain") 1) = Raise NotAcceptable
  /\ is_ok (content_type_option (mk_value (lit "text/html") None) (rng (lit "text/*") 1)) = true.
Proof. vm_compute. auto 10. Qed.

(** Qualities are clamped to [0, 1]; the one exception is not-a-number, which
    the header text "nan" gives. *)
Theorem C51_quality_partial : forall float_of k header rs r,
  parse_accept float_of k header = Ok rs -> In r rs -> rg_q r = NaN \/ within01 (rg_q r).
Proof. exact parse_within. Qed.
Print Assumptions C51_quality_partial.
Theorem C51_quality_refuted : exists r,
  parse_accept ex_float KContentType (lit "text/html;q=nan") = Ok [r] /\ ~ within01 (rg_q r).
Proof.
  eexists. split; [vm_compute; reflexivity|]. intros (q & E & _). discriminate E.
Qed.
Print Assumptions C51_quality_refuted.
Example C51_quality_example :
  parse_accept ex_float KContentType (lit "text/html;q=7, text/plain ; q = 0.5;level=1")
  = Ok [mk_range (lit "text/html") (Fin 1) [];
        mk_range (lit "text/plain") (Fin (1 # 2)) [(lit "level", lit "1")]].
Proof. vm_compute. reflexivity. Qed.

(** ** C52: Accept-Language and Accept-Charset

    Both are read and then ignored: no value of either header changes what is
    selected. *)
Theorem C52_ignored_refuted : forall fmul l accept language charset language' charset',
  select fmul l accept language charset = select fmul l accept language' charset'.
Proof. exact select_ignores. Qed.
Print Assumptions C52_ignored_refuted.
(** So a French page is sent to a client that reads only German. *)
Theorem C52_language_refuted :
  let french := new_repr (Some (lit "text/html")) (Some (lit "fr")) None None in
  select_representation ex_float ex_mul [french] None (Some (lit "de")) None = Ok french
  /\ ~ language_matches (lit "de") (lit "fr").
Proof.
  split; [vm_compute; reflexivity|]. intros [H|[H|[rest H]]]; discriminate.
Qed.
Print Assumptions C52_language_refuted.
Theorem C52_charset_refuted :
  let page := new_repr (Some (lit "text/html")) None (Some (lit "utf-8")) None in
  select_representation ex_float ex_mul [page] None None (Some (lit "latin1")) = Ok page
  /\ ~ charset_matches (lit "latin1") (lit "utf-8").
Proof. split; [vm_compute; reflexivity|]. intros [H|H]; discriminate. Qed.
Print Assumptions C52_charset_refuted.

(** ** C75: reading an Accept header

    A header written from ranges (white space allowed around every piece) is
    read as those ranges, in order, each with its parameters other than q, and
    the number of [0, 1] closest to its q, or to 1.0 if it has none. *)
Theorem C75_read : forall float_of header its,
  header_written header its -> Forall item_ok its ->
  Forall (fun it => media_like (i_value it)) its ->
  (forall it q, In it its -> q_text it q -> exists x, float_of q = Some x /\ x <> NaN) ->
  exists rs, parse_accept float_of KContentType header = Ok rs /\
    Forall2 (fun it r => rg_value r = i_value it /\
               rg_params r = filter (fun kv => negb (eqs (lit "q") (fst kv))) (i_params it) /\
               exists q x, q_text it q /\ float_of q = Some x /\ closest x (rg_q r)) its rs.
Proof. exact header_read_closest. Qed.
Print Assumptions C75_read.

(** A value is accepted as a media range exactly when it begins like one, and as
    a language or character set range exactly when it begins with a letter or a
    digit, or is a star. *)
Theorem C75_values : forall k v,
  valid_value k v = true <-> match k with KContentType => media_like v | _ => plain_like v end.
Proof.
  intros [] v; [apply valid_media | apply valid_plain; discriminate | apply valid_plain; discriminate].
Qed.
Print Assumptions C75_values.

Definition ex_items : list item :=
  [mk_item (lit "text/html") [(lit "level", lit "1"); (lit "q", lit "0.5")];
   mk_item (lit "image/*") []].
Example C75_example :
  header_written (lit "text/html; level = 1;q=0.5 , image/*") ex_items /\ Forall item_ok ex_items
  /\ Forall (fun it => media_like (i_value it)) ex_items
  /\ parse_accept ex_float KContentType (lit "text/html; level = 1;q=0.5 , image/*")
     = Ok [mk_range (lit "text/html") (Fin (1 # 2)) [(lit "level", lit "1")];
           mk_range (lit "image/*") (Fin 1) []].
Proof.
  assert (W0 : forall s, written s s) by (intros s; exists [], []; rewrite app_nil_r; auto).
  assert (WL : forall s, written (32 :: s) s)
    by (intros s; exists [32], []; rewrite app_nil_r; auto).
  assert (WR : forall s, written (s ++ [32]) s) by (intros s; exists [], [32]; auto).
  assert (WB : forall s, written (32 :: s ++ [32]) s) by (intros s; exists [32], [32]; auto).
  repeat split.
  - exists [lit "text/html; level = 1;q=0.5 "; lit " image/*"]. split; [discriminate|].
    split; [reflexivity|]. constructor; [|constructor; [|constructor]].
    + exists (lit "text/html"), [lit " level = 1"; lit "q=0.5 "]. split; [reflexivity|].
      split; [apply W0|]. constructor; [|constructor; [|constructor]].
      * exists (lit " level "), (lit " 1"). split; [reflexivity|]. split; [apply (WB (lit "level")) | apply (WL (lit "1"))].
      * exists (lit "q"), (lit "0.5 "). split; [reflexivity|]. split; [apply W0 | apply (WR (lit "0.5"))].
    + exists (lit " image/*"), []. split; [reflexivity|]. split; [apply (WL (lit "image/*")) | constructor].
  - repeat constructor; cbn; try lia; try discriminate; intuition discriminate.
  - constructor; [|constructor; [|constructor]].
    + exists (lit "text"), 104, (lit "tml"). split; [reflexivity|]. split; [|auto].
      left. exists (lit "text"), []. repeat split; [discriminate | repeat constructor | constructor].
    + exists (lit "image"), 42, []. split; [reflexivity|]. split; [|auto].
      left. exists (lit "image"), []. repeat split; [discriminate | repeat constructor | constructor].
Qed.
