(** C111: a set of entity tags answers for exactly the tags that were put in. *)
From Coq Require Import List NArith ZArith Bool Lia.
From Verif Require Import PyStr PyStrFacts ModelHeaders ModelEtag SpecEtag ModelEtagSet SpecEtagSet ProofEtagSet.
Import ListNotations.
Open Scope N_scope.

(** Without a star: [in], iteration and as_set() know exactly the strong tags given, is_weak exactly the
    weak ones, contains_weak and as_set(include_weak=True) both. *)
Theorem C111_members : forall (strong weak : option (list str)) (t : str),
  let e := es_new strong weak false in
  (es_in e (Some t) = true <-> given strong t) /\ (In (Some t) (es_iter e) <-> given strong t) /\
  (In (Some t) (es_as_set e false) <-> given strong t) /\ (et_is_weak e (Some t) = true <-> given weak t) /\
  (et_contains_weak e (Some t) = true <-> given strong t \/ given weak t) /\
  (In (Some t) (es_as_set e true) <-> given strong t \/ given weak t).
Proof. exact strong_members. Qed.
Theorem C111_only_texts : forall (strong weak : option (list str)) (star include_weak : bool),
  ~ In None (es_as_set (es_new strong weak star) include_weak).
Proof. exact no_none. Qed.
(** Calling it: the same answer, by tag or by the data a tag is made of; exactly one must be given. *)
Theorem C111_call : forall (generate : str -> str) (strong weak : option (list str)) (t : str) (include_weak : bool),
  es_call generate (es_new strong weak false) (Some t) None include_weak = Ok true <->
  given strong t \/ (include_weak = true /\ given weak t).
Proof. exact call_members. Qed.
Theorem C111_call_data : forall (generate : str -> str) (e : etags) (data : str) (include_weak : bool),
  es_call generate e None (Some data) include_weak = es_call generate e (Some (generate data)) None include_weak.
Proof. exact call_data. Qed.
Theorem C111_call_arguments : forall (generate : str -> str) (e : etags) (etag data : option str) (include_weak : bool),
  es_call generate e etag data include_weak = Raise TypeError <-> (etag = None <-> data = None).
Proof. exact call_args. Qed.
(** A star stands for every tag and is written as one. *)
Theorem C111_star : forall (strong weak : option (list str)) (t : str),
  let e := es_new strong weak true in
  es_in e (Some t) = true /\ et_contains_weak e (Some t) = true /\ (forall raw, et_contains_raw e raw = true) /\ es_str e = [42].
Proof. exact star_members. Qed.
(** contains_raw of a written tag: strong tags match whatever the mark, weak ones only a tag marked weak. *)
Theorem C111_raw : forall (strong weak : option (list str)) (star : bool) (t : str) (m : mark),
  (et_contains_raw (es_new strong weak star) (write_tag (m, t)) = true <->
   star = true \/ given strong t \/ (weak_mark m = true /\ given weak t)).
Proof. exact raw_member. Qed.
Theorem C111_bool : forall (strong weak : option (list str)) (star : bool),
  et_bool (es_new strong weak star) = true <-> star = true \/ (exists t, given strong t) \/ (exists t, given weak t).
Proof. exact bool_spec. Qed.
(** str() of a set, read back, is the set: for every order in which the tags come. *)
Theorem C111_roundtrip : forall (strong weak : option (list str)) (fuel : nat),
  (forall t, given strong t \/ given weak t -> writable t) ->
  (length (es_str (es_new strong weak false)) <= fuel)%nat ->
  parse_etags fuel (es_str (es_new strong weak false)) = Some (es_new strong weak false).
Proof.
  intros s w fuel H. apply header_roundtrip; apply Forall_forall; intros t Ht; apply H; [left|right]; apply given_listed; exact Ht.
Qed.
(** Findings.  Calling does not know the star; weak tags given beside a star are kept but not written. *)
Theorem C111_call_star_refuted : ~ (forall (generate : str -> str) (strong weak : option (list str)) (star : bool) (t : str),
  es_call generate (es_new strong weak star) (Some t) None false = Ok (es_in (es_new strong weak star) (Some t))).
Proof. intros H. specialize (H (fun x => x) None None true (lit "x")). vm_compute in H. discriminate H. Qed.
Theorem C111_star_weak_refuted : ~ (forall (strong weak : option (list str)) (star : bool) (fuel : nat),
  (forall t, given strong t \/ given weak t -> writable t) ->
  (length (es_str (es_new strong weak star)) <= fuel)%nat ->
  parse_etags fuel (es_str (es_new strong weak star)) = Some (es_new strong weak star)).
Proof.
  intros H. specialize (H None (Some [lit "x"]) true 1%nat). vm_compute in H.
  assert (Some (ET [] [] true) = Some (ET [] [Some [120]] true)) as E; [|discriminate E].
  apply H; [|auto]. intros t [[]|[<-|[]]]. repeat split; try discriminate; intros [E|[]]; discriminate.
Qed.
Print Assumptions C111_members.
Print Assumptions C111_only_texts.
Print Assumptions C111_call.
Print Assumptions C111_call_data.
Print Assumptions C111_call_arguments.
Print Assumptions C111_star.
Print Assumptions C111_raw.
Print Assumptions C111_bool.
Print Assumptions C111_roundtrip.
Print Assumptions C111_call_star_refuted.
Print Assumptions C111_star_weak_refuted.

Example C111_example :
  let e := es_new (Some [lit "foo"; lit "bar"]) (Some [lit "baz"]) false in
  es_in e (Some (lit "bar")) = true /\ es_in e (Some (lit "baz")) = false /\ et_contains_weak e (Some (lit "baz")) = true /\
  et_contains_raw e (lit "w/""baz""") = true /\ et_contains_raw e (lit """baz""") = false /\
  es_call (fun d => d) e None (Some (lit "baz")) true = Ok true /\
  es_str e = lit """foo"", ""bar"", w/""baz""" /\ parse_etags 22 (es_str e) = Some e /\
  (forall t, given (Some [lit "foo"; lit "bar"]) t \/ given (Some [lit "baz"]) t -> writable t).
Proof.
  cbv zeta. repeat (split; [vm_compute; reflexivity|]).
  intros t [[<-|[<-|[]]]|[<-|[]]]; unfold writable; vm_compute; repeat split; intros H; try discriminate H; repeat (destruct H as [H|H]; try discriminate H); exact H.
Qed.
