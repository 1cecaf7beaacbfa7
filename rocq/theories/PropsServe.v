(** Claim C124: what the shared data middleware sends for a file. *)
From Coq Require Import Arith List NArith ZArith Bool Lia.
From Verif Require Import PyStr PyStrFacts ModelWsgi ModelEtag SpecEtag ModelDate SpecDate ProofDate SpecHeaders ProofHeaders SpecMirror
  ModelServe SpecServe ProofServe.
Import ListNotations.
Open Scope N_scope.

(** A request that finds no file, or one whose base name the rule forbids, is passed on and
    nothing is opened; otherwise the one file found is opened and the answer is the
    middleware's own. *)
Theorem C124_call : forall fnmatch guess_type mktime fs_encode exists_ disk m now fuel env path asked r (allowed : str -> bool),
  m_disallow m = NoRules /\ (forall f, allowed f = true) \/
  (exists p, m_disallow m = Pattern p /\ forall f, allowed f = negb (fnmatch f p)) ->
  shared_data exists_ allowed (m_exports m) path = (asked, r) ->
  match r with
  | None => shared_call fnmatch guess_type mktime fs_encode exists_ disk m now fuel env path = (Some (Ok PassedOn), [])
  | Some file => shared_call fnmatch guess_type mktime fs_encode exists_ disk m now fuel env path =
      (match send_file guess_type mktime fs_encode m now fuel env (basename file) (disk file) with
       | None => None
       | Some (Raise e) => Some (Raise e)
       | Some (Ok x) => Some (Ok (Sent x))
       end, [file])
  end.
Proof.
  intros fnmatch guess_type mktime fs_encode exists_ disk m now fuel env path asked r allowed A. apply call_decides.
  intros f. destruct A as [[-> A]|(p & -> & A)]; cbn [is_allowed]; rewrite A; reflexivity.
Qed.
Print Assumptions C124_call.

(** With caching on every answer either says that the file is unchanged, and then nothing
    is sent and the file is closed, or sends all of the file's bytes; the headers name the
    tag, the time to keep it, and for a file that is sent its type, size and times. *)
Theorem C124_answers : forall guess_type mktime fs_encode m now fuel env name s t r,
  m_cache m = true -> dates_exist m now s -> tag_now mktime fs_encode name s t ->
  send_file guess_type mktime fs_encode m now fuel env name s = Some (Ok r) ->
  cache_lines m t (r_headers r) /\ dates_line (lit "Date") now (r_headers r) /\
  ((unchanged r /\ length (r_headers r) = 3%nat) \/
   (sends r s /\ dates_line (lit "Expires") (now + m_timeout m) (r_headers r) /\
    file_lines guess_type m name s (r_headers r) /\ length (r_headers r) = 7%nat)).
Proof.
  intros guess_type mktime fs_encode m now fuel env name s t r C D T E.
  destruct (cached_cases guess_type mktime fs_encode m now fuel env name s t C D T) as (r3 & r2 & U & S & L3 & L2 & D3 & D2 & X & F & N3 & N2 & E').
  rewrite E' in E. destruct (is_resource_modified _ _ _ _ _ _ _) as [[[]|]|]; inversion E; subst; auto 10.
Qed.
Print Assumptions C124_answers.

(** With caching off the file is always sent, without tag and without Expires. *)
Theorem C124_uncached : forall guess_type mktime fs_encode m now fuel env name s,
  m_cache m = false -> dates_exist m now s ->
  exists r, send_file guess_type mktime fs_encode m now fuel env name s = Some (Ok r) /\ sends r s /\
    file_lines guess_type m name s (r_headers r) /\ dates_line (lit "Date") now (r_headers r) /\
    absent (lit "ETag") (r_headers r) /\ absent (lit "Expires") (r_headers r) /\
    values_of (lit "Cache-Control") (r_headers r) [lit "public"] /\ length (r_headers r) = 5%nat.
Proof. exact uncached_answer. Qed.
Print Assumptions C124_uncached.

(** GET and HEAD with tags: the file is unchanged exactly if its tag is among the strong
    ones; a star means any. *)
Theorem C124_tags : forall guess_type mktime fs_encode m now fuel env name s t,
  m_cache m = true -> dates_exist m now s -> tag_now mktime fs_encode name s t -> get_or_head (ce_method env) ->
  (forall h l, ce_inm env = Some h -> tag_list h l -> Forall plain_tag l -> (length h <= fuel)%nat ->
     exists r, send_file guess_type mktime fs_encode m now fuel env name s = Some (Ok r) /\
     ((In (Strong, t) l /\ unchanged r) \/ (~ In (Strong, t) l /\ sends r s))) /\
  (ce_inm env = Some (lit "*") -> (1 <= fuel)%nat ->
     exists r, send_file guess_type mktime fs_encode m now fuel env name s = Some (Ok r) /\ unchanged r).
Proof.
  intros. split; intros; [eapply serve_tags|eapply serve_star]; eauto.
Qed.
Print Assumptions C124_tags.

(** GET and HEAD without tags: the file is unchanged exactly if it was not changed after the
    second that If-Modified-Since names; without a date that can be read it is sent. *)
Theorem C124_dates : forall guess_type mktime fs_encode m now fuel env name s t,
  m_cache m = true -> dates_exist m now s -> tag_now mktime fs_encode name s t -> get_or_head (ce_method env) ->
  ce_inm env = None \/ ce_inm env = Some [] ->
  (forall h since ss st, ce_ims env = Some h -> dated h since -> real_date since -> (100 <= dt_year since)%Z -> instant since ss ->
     instant (time_of s) st -> exists r, send_file guess_type mktime fs_encode m now fuel env name s = Some (Ok r) /\
     (((st <= ss)%Z /\ unchanged r) \/ ((ss < st)%Z /\ sends r s))) /\
  (ce_ims env = None \/ (exists h, ce_ims env = Some h /\ parse_date (Some h) = Ok None) ->
     exists r, send_file guess_type mktime fs_encode m now fuel env name s = Some (Ok r) /\ sends r s).
Proof. exact serve_dates. Qed.
Print Assumptions C124_dates.

(** A client that sends the tag of an earlier answer, or the Last-Modified line of one, is
    told that the file is unchanged, at any later time. *)
Theorem C124_again : forall guess_type mktime fs_encode m now now' fuel fuel' env env' name s b r,
  m_cache m = true -> dates_exist m now s -> dates_exist m now' s -> fs_encode name = Ok b ->
  send_file guess_type mktime fs_encode m now fuel env name s = Some (Ok r) -> get_or_head (ce_method env') ->
  (forall e, values_of (lit "ETag") (r_headers r) [e] -> ce_inm env' = Some e -> (length e <= fuel')%nat ->
     exists r', send_file guess_type mktime fs_encode m now' fuel' env' name s = Some (Ok r') /\ unchanged r') /\
  (forall v, values_of (lit "Last-Modified") (r_headers r) [v] -> ce_inm env' = None -> ce_ims env' = Some v ->
     exists r', send_file guess_type mktime fs_encode m now' fuel' env' name s = Some (Ok r') /\ unchanged r').
Proof.
  intros guess_type mktime fs_encode m now now' fuel fuel' env env' name s b r C D D' B S1 G. split; intros.
  - eapply (serve_again_tag guess_type mktime fs_encode m now now' fuel fuel' env env'); eauto.
  - eapply (serve_again_date guess_type mktime fs_encode m now now' fuel fuel' env env'); eauto.
Qed.
Print Assumptions C124_again.

(** Missing for "a changed file is always sent": the change shows in the second or in the
    size.  Then the old tag brings the new bytes, whatever If-Modified-Since says. *)
Theorem C124_changed_partial : forall guess_type mktime fs_encode m now fuel env name s s' t h,
  m_cache m = true -> dates_exist m now s' -> (exists b, fs_encode name = Ok b) -> tag_now mktime fs_encode name s t -> h = 34 :: t ++ [34] ->
  mktime (time_of s) <> mktime (time_of s') \/ size_said s <> size_said s' ->
  get_or_head (ce_method env) -> ce_inm env = Some h -> (length h <= fuel)%nat ->
  exists r, send_file guess_type mktime fs_encode m now fuel env name s' = Some (Ok r) /\ sends r s'.
Proof. exact serve_changed. Qed.
Print Assumptions C124_changed_partial.

(** The tag is made of the seconds, the size and Adler's checksum of the name, and tells
    them apart. *)
Theorem C124_tag_exact : forall mktime fs_encode s name t,
  generate_etag mktime fs_encode (time_of s) (size_said s) name = Ok t <-> tag_now mktime fs_encode name s t.
Proof.
  intros mktime fs_encode s name t. unfold tag_now. split.
  - unfold generate_etag. destruct (fs_encode name) as [b|] eqn:B; cbn [bind]; [|discriminate]. intros E. exists b. split; [reflexivity|].
    destruct (etag_is mktime fs_encode name s b B) as (t' & T & G). unfold generate_etag in G. rewrite B in G. cbn [bind] in G.
    rewrite E in G. injection G as ->. exact T.
  - intros (b & B & T). destruct (etag_is mktime fs_encode name s b B) as (t' & T' & G). rewrite G, T', <- T. reflexivity.
Qed.
Print Assumptions C124_tag_exact.
Theorem C124_tag_tells : forall secs size b secs' size' b' t, (0 <= size)%Z -> (0 <= size')%Z ->
  tag_says secs size b t -> tag_says secs' size' b' t -> secs = secs' /\ size = size' /\ adler b = adler b'.
Proof. exact tag_tells. Qed.
Print Assumptions C124_tag_tells.

(** The announced length is the number of bytes sent, for files on a disk. *)
Theorem C124_length_partial : forall guess_type mktime fs_encode m now fuel env name s r body v,
  dates_exist m now s -> on_disk s -> (exists b, fs_encode name = Ok b) ->
  send_file guess_type mktime fs_encode m now fuel env name s = Some (Ok r) -> r_body r = Some body ->
  values_of (lit "Content-Length") (r_headers r) [v] -> py_int v = Some (Z.of_nat (length body)).
Proof.
  intros guess_type mktime fs_encode m now fuel env name s r body v D (by_ & ti & mi & Es) (b & B) E Eb V.
  assert (K : sends r s /\ file_lines guess_type m name s (r_headers r)).
  { destruct (m_cache m) eqn:C.
    - destruct (etag_is mktime fs_encode name s b B) as (t & T & _).
      destruct (C124_answers guess_type mktime fs_encode m now fuel env name s t r C D ltac:(exists b; auto) E) as (_ & _ & [[[_ [U _]] _]|[S [_ [F _]]]]); [congruence|auto].
    - destruct (C124_uncached guess_type mktime fs_encode m now fuel env name s C D) as (r' & E' & S & F & _). rewrite E in E'. injection E' as <-. auto. }
  destruct K as [[_ [S _]] [_ [L _]]]. rewrite Eb in S. injection S as ->. pose proof (ProofHeaders.values_of_fun _ _ _ V _ L) as Q. injection Q as ->.
  rewrite py_int_zdec. subst s. reflexivity.
Qed.
Print Assumptions C124_length_partial.

(** *** Where the middleware falls short *)
Definition sample_mktime (d : datetime) : Z := (seconds d - 719163 * 86400)%Z.
Definition sample_encode (n : str) : res str := Ok n.
Definition sample_guess (n : str) : option str := if ends (lit ".css") n then Some (lit "text/css") else None.
Definition sample (cache : bool) : sdm := SDM [(lit "/s", EDir (lit "/srv"))] NoRules cache 60 (lit "text/plain").
Definition sample_file (b : str) : source := OnDisk b (DT 2020 1 2 3 4 5) 250000.
Definition sample_now : Z := 1600000000.
Definition asks (method : str) : cond_env := CE method None None.
Lemma sample_dates m s : (exists c, m = sample c) -> (exists b, s = sample_file b) \/ (exists b, s = InPackage b (DT 2020 1 2 3 4 5) 0) ->
  dates_exist m sample_now s.
Proof.
  intros (c & ->) Hs. split.
  { destruct Hs as [(b & ->)|(b & ->)]; (split; [apply valid_spec; reflexivity|cbn; lia]). }
  split; [exists (DT 2020 9 13 12 26 40)|exists (DT 2020 9 13 12 27 40)];
    (split; [apply valid_spec; reflexivity|]); exists (719162 * 86400)%Z; (split; [exact epoch_instant|]);
    (apply real_instant; [apply valid_spec; reflexivity|vm_compute; reflexivity]).
Qed.

(** The claim that only GET and HEAD are answered from the cache is false: with caching on,
    every other method is told "304 Not Modified", whatever it asked. *)
Theorem C124_method_refuted : forall guess_type mktime fs_encode m now fuel env name s t,
  m_cache m = true -> dates_exist m now s -> tag_now mktime fs_encode name s t -> ~ get_or_head (ce_method env) ->
  exists r, send_file guess_type mktime fs_encode m now fuel env name s = Some (Ok r) /\ unchanged r.
Proof. exact serve_other. Qed.
Print Assumptions C124_method_refuted.
(** The announced length of package data that is not on a disk is always 0. *)
Theorem C124_length_refuted : exists guess_type mktime fs_encode m now fuel env name s r body,
  dates_exist m now s /\ send_file guess_type mktime fs_encode m now fuel env name s = Some (Ok r) /\
  r_body r = Some body /\ body <> [] /\ values_of (lit "Content-Length") (r_headers r) [lit "0"].
Proof.
  exists sample_guess, sample_mktime, sample_encode, (sample true), sample_now, 9%nat, (asks (lit "GET")), (lit "a.css"),
    (InPackage (lit "body {}") (DT 2020 1 2 3 4 5) 0).
  eexists. eexists. split; [apply sample_dates; eauto|]. split; [vm_compute; reflexivity|]. split; [reflexivity|]. split; [discriminate|].
  cbn [r_headers]. names.
Qed.
Print Assumptions C124_length_refuted.
(** A file that was changed to other bytes, as many and within the same second, is said to be
    unchanged to a client that has the old bytes. *)
Theorem C124_changed_refuted : exists guess_type mktime fs_encode m now fuel env name b b' e r r',
  send_file guess_type mktime fs_encode m now fuel env name (sample_file b) = Some (Ok r) /\
  sends r (sample_file b) /\ values_of (lit "ETag") (r_headers r) [e] /\ b <> b' /\
  dates_exist m now (sample_file b') /\
  send_file guess_type mktime fs_encode m now 60 (CE (lit "GET") None (Some e)) name (sample_file b') = Some (Ok r') /\ unchanged r'.
Proof.
  exists sample_guess, sample_mktime, sample_encode, (sample true), sample_now, 9%nat, (asks (lit "GET")), (lit "a.css"), (lit "one"), (lit "two").
  eexists. eexists. eexists. split; [vm_compute; reflexivity|]. split; [repeat split|]. split; [cbn [r_headers]; names|].
  split; [discriminate|]. split; [apply sample_dates; eauto|]. split; [vm_compute; reflexivity|]. repeat split.
Qed.
Print Assumptions C124_changed_refuted.
(** With caching off "no caching headers are sent", the documentation says; but
    Cache-Control: public is. *)
Theorem C124_uncached_refuted : forall guess_type mktime fs_encode m now fuel env name s,
  m_cache m = false -> dates_exist m now s ->
  exists r, send_file guess_type mktime fs_encode m now fuel env name s = Some (Ok r) /\
    values_of (lit "Cache-Control") (r_headers r) [lit "public"].
Proof.
  intros guess_type mktime fs_encode m now fuel env name s C D.
  destruct (C124_uncached guess_type mktime fs_encode m now fuel env name s C D) as (r & E & _ & _ & _ & _ & _ & V & _). eauto.
Qed.
Print Assumptions C124_uncached_refuted.
(** The documentation asks for a list of rules; with one, every request that finds a file
    raises TypeError. *)
Theorem C124_rules_refuted : forall fnmatch guess_type mktime fs_encode exists_ disk m now fuel env path ps,
  m_disallow m = PatternList ps ->
  (forall asked, shared_data exists_ (fun _ => true) (m_exports m) path = (asked, None) ->
     shared_call fnmatch guess_type mktime fs_encode exists_ disk m now fuel env path = (Some (Ok PassedOn), [])) /\
  (forall asked file, shared_data exists_ (fun _ => true) (m_exports m) path = (asked, Some file) ->
     shared_call fnmatch guess_type mktime fs_encode exists_ disk m now fuel env path = (Some (Raise TypeError), [])).
Proof. exact call_list. Qed.
Print Assumptions C124_rules_refuted.

Example C124_example :
  send_file sample_guess sample_mktime sample_encode (sample true) sample_now 60 (asks (lit "GET")) (lit "a.css") (sample_file (lit "body {}")) =
  Some (Ok (RP (lit "200 OK")
    [(lit "Date", lit "Sun, 13 Sep 2020 12:26:40 GMT"); (lit "Etag", lit """wzsdm-1577934245-7-86245849""");
     (lit "Cache-Control", lit "max-age=60, public"); (lit "Expires", lit "Sun, 13 Sep 2020 12:27:40 GMT");
     (lit "Content-Type", lit "text/css"); (lit "Content-Length", lit "7"); (lit "Last-Modified", lit "Thu, 02 Jan 2020 03:04:05 GMT")]
    (Some (lit "body {}")) false)) /\
  option_map (fun r => match r with Ok x => r_status x | Raise _ => [] end)
    (send_file sample_guess sample_mktime sample_encode (sample true) sample_now 60
      (CE (lit "GET") None (Some (lit """x"", ""wzsdm-1577934245-7-86245849"""))) (lit "a.css") (sample_file (lit "body {}"))) = Some (lit "304 Not Modified") /\
  option_map (fun r => match r with Ok x => r_status x | Raise _ => [] end)
    (send_file sample_guess sample_mktime sample_encode (sample true) sample_now 60
      (CE (lit "GET") (Some (lit "Thu, 02 Jan 2020 03:04:04 GMT")) None) (lit "a.css") (sample_file (lit "body {}"))) = Some (lit "200 OK").
Proof. vm_compute. auto. Qed.
(** A POST to a file is told that nothing was modified; a HEAD is sent the bytes. *)
Example C124_finding_methods :
  option_map (fun r => match r with Ok x => (r_status x, r_body x) | Raise _ => ([], None) end)
    (send_file sample_guess sample_mktime sample_encode (sample true) sample_now 9 (asks (lit "POST")) (lit "a.css") (sample_file (lit "x"))) =
    Some (lit "304 Not Modified", None) /\
  option_map (fun r => match r with Ok x => (r_status x, r_body x) | Raise _ => ([], None) end)
    (send_file sample_guess sample_mktime sample_encode (sample true) sample_now 9 (asks (lit "HEAD")) (lit "a.css") (sample_file (lit "x"))) =
    Some (lit "200 OK", Some (lit "x")).
Proof. vm_compute. auto. Qed.
Example C124_call_example :
  shared_call (fun f p => eqs f p) sample_guess sample_mktime sample_encode (fun n => eqs n (lit "/srv/a.css")) (fun _ => sample_file (lit "x"))
    (SDM [(lit "/s", EDir (lit "/srv"))] (Pattern (lit "a.css")) true 60 (lit "text/plain")) sample_now 9 (asks (lit "GET")) (lit "/s/a.css") =
    (Some (Ok PassedOn), []) /\
  shared_call (fun f p => eqs f p) sample_guess sample_mktime sample_encode (fun n => eqs n (lit "/srv/a.css")) (fun _ => sample_file (lit "x"))
    (SDM [(lit "/s", EDir (lit "/srv"))] (PatternList [lit "b.css"]) true 60 (lit "text/plain")) sample_now 9 (asks (lit "GET")) (lit "/s/a.css") =
    (Some (Raise TypeError), []) /\
  snd (shared_call (fun f p => eqs f p) sample_guess sample_mktime sample_encode (fun n => eqs n (lit "/srv/a.css")) (fun _ => sample_file (lit "x"))
    (sample true) sample_now 9 (asks (lit "GET")) (lit "/s/../a.css")) = [lit "/srv/a.css"].
Proof. vm_compute. auto. Qed.
