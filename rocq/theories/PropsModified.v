(** * C130: is_resource_modified with the dates an application gives *)
From Coq Require Import Arith List NArith ZArith Bool Lia.
From Verif Require Import PyStr PyStrFacts ModelEtag SpecEtag ProofEtag ModelDate SpecDate ProofDate PropsDate ModelMirror SpecMirror ProofMirror
  ModelModified ProofModified.
Import ListNotations.
Open Scope N_scope.

(** The resource counts as unmodified exactly if it was modified at the second given by the
    header If-Modified-Since, or earlier; [instant] counts seconds from the beginning of year
    1.  The datetime is naive, with any microseconds; the header is in any of the formats of
    HTTP.  Missing: years before 100 in the header. *)
Theorem C130_order_partial : forall md5 fuel env etag d u h since m s, get_or_head (ce_method env) ->
  (ce_inm env = None \/ ce_inm env = Some [] \/ etag = None) ->
  ce_ims env = Some h -> dated h since -> real_date since -> (100 <= dt_year since)%Z -> instant since s ->
  real_date d -> instant d m -> (0 <= u < 1000000)%Z ->
  exists b, resource_modified md5 fuel env etag None (Some (LMoment (Moment d u None))) = Some (Ok b) /\ (b = false <-> (m <= s)%Z).
Proof. exact ordered. Qed.
Print Assumptions C130_order_partial.
(** A client that sends back the date it was given, as http_date writes it, is told that
    the resource is unmodified. *)
Theorem C130_own_date_partial : forall md5 fuel env etag d u t, get_or_head (ce_method env) ->
  (ce_inm env = None \/ ce_inm env = Some [] \/ etag = None) ->
  real_date d -> (100 <= dt_year d)%Z -> (0 <= u < 1000000)%Z ->
  http_date (DDatetime d None) = Ok t -> ce_ims env = Some t ->
  resource_modified md5 fuel env etag None (Some (LMoment (Moment d u None))) = Some (Ok false).
Proof.
  intros md5 fuel env etag d u t G Nn R Y U Ht I. destruct (real_day d R) as [n Hn]. destruct (C69_written d n R Hn) as [E1 _].
  assert (Et : t = rfc1123 n d (lit "GMT")) by congruence.
  assert (Si : instant d (seconds d - 86400)) by (apply (real_instant d _ R); lia).
  destruct (ordered md5 fuel env etag d u t d _ _ G Nn I (da_rfc1123 t d n Et) R Y Si R Si U) as (b & E & B).
  rewrite E, (proj2 B (Z.le_refl _)). reflexivity.
Qed.
Print Assumptions C130_own_date_partial.
(** A text in any of the formats stands for its date, whatever the request. *)
Theorem C130_text_partial : forall md5 fuel env etag data v d, dated v d -> real_date d -> (100 <= dt_year d)%Z ->
  resource_modified md5 fuel env etag data (Some (LText v)) =
  resource_modified md5 fuel env etag data (Some (LMoment (Moment d 0 None))).
Proof.
  intros md5 fuel env etag data v d D R Y. unfold resource_modified. rewrite (dated_parse v d R Y D). reflexivity.
Qed.
Print Assumptions C130_text_partial.
(** A list of entity tags decides alone, whatever the dates, if the datetime is naive. *)
Theorem C130_tags : forall md5 fuel env h l mk t d u,
  get_or_head (ce_method env) -> ce_inm env = Some h -> tag_list h l -> Forall plain_tag l -> (length h <= fuel)%nat ->
  (0 <= u < 1000000)%Z ->
  exists b, resource_modified md5 fuel env (Some (write_tag (mk, t))) None (Some (LMoment (Moment d u None))) = Some (Ok b) /\
  (b = false <-> tag_matches l (weak_mark mk) t).
Proof.
  intros md5 fuel env h l mk t d u G I TL PL F U. rewrite bridge.
  - apply (decision_tags date_micros md5 fuel env h l mk t _ G I TL PL F).
  - intros m0 H. injection H as <-. cbn. auto.
Qed.
Print Assumptions C130_tags.
(** Finding: an aware datetime, which http_date takes, is refused with TypeError as soon as
    a date arrives, even if the request has a list of tags that holds the tag.  The client
    that sends back what it was given makes the call fail. *)
Theorem C130_aware_refuted : exists env d off t etag, real_date d /\ get_or_head (ce_method env) /\
  http_date (DDatetime d (Some off)) = Ok t /\ ce_ims env = Some t /\ ce_inm env = Some etag /\
  forall md5, resource_modified md5 50 env (Some etag) None (Some (LMoment (Moment d 0 (Some off)))) = Some (Raise TypeError).
Proof.
  exists (CE (lit "GET") (Some (lit "Sun, 06 Nov 1994 07:49:37 GMT")) (Some (lit """a"""))),
    (DT 1994 11 6 8 49 37), 3600%Z, (lit "Sun, 06 Nov 1994 07:49:37 GMT"), (lit """a""").
  split; [apply valid_spec; reflexivity|]. split; [left; reflexivity|]. split; [vm_compute; reflexivity|].
  split; [reflexivity|]. split; [reflexivity|]. intros md5. vm_compute. reflexivity.
Qed.
Print Assumptions C130_aware_refuted.
(** With a tag or nothing (and no data) the call fails in this case only: for a GET or
    HEAD request, an aware datetime, and a header If-Modified-Since that is a date. *)
Theorem C130_exact : forall md5 fuel env etag l,
  (exists e, resource_modified md5 fuel env etag None l = Some (Raise e)) <->
  get_or_head (ce_method env) /\ exists m off h since, l = Some (LMoment m) /\ m_offset m = Some off /\
    ce_ims env = Some h /\ parse_date (Some h) = Ok (Some since).
Proof. exact raises_exact. Qed.
Print Assumptions C130_exact.
Example C130_example :
  let env since := CE (lit "HEAD") (Some since) None in
  let ask since l := resource_modified (fun x => x) 50 (env since) None None (Some l) in
  let d := DT 1994 11 6 8 49 37 in
  real_date d /\ http_date (DDatetime d None) = Ok (lit "Sun, 06 Nov 1994 08:49:37 GMT") /\
  ask (lit "Sun, 06 Nov 1994 08:49:37 GMT") (LMoment (Moment d 999999 None)) = Some (Ok false) /\
  ask (lit "Sun, 06 Nov 1994 08:49:36 GMT") (LMoment (Moment d 0 None)) = Some (Ok true) /\
  ask (lit "Sunday, 06-Nov-94 08:49:38 GMT") (LText (lit "Sun Nov  6 08:49:37 1994")) = Some (Ok false) /\
  ask (lit "yesterday") (LMoment (Moment d 0 (Some 3600%Z))) = Some (Ok true).
Proof. split; [apply valid_spec; reflexivity|]. vm_compute. auto 10. Qed.
