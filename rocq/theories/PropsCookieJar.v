(** C112: the test client sends the cookies it was given. *)
From Coq Require Import Arith List NArith ZArith Bool Lia ZifyBool ZifyN ZifyNat.
From Verif Require Import PyStr PyStrFacts Utf8 Utf8Facts ModelUrls SpecUrls ProofUrls ProofIri ModelHeaders SpecHeaders ModelCookie SpecCookie ProofCookie
  ModelMultiDict ModelCombined ModelStream SpecStream ModelWsgi ModelRequest SpecRequest ProofRequest ProofCurrent
  ModelTest SpecTest ProofBuilder ModelCookieJar SpecCookieJar ProofCookieJar.
Import ListNotations.
Open Scope N_scope.

Section props.
Variable guess : str -> option str.
Variables (idna_part idna_decode_part : str -> res str) (ip_ok nfkc_ok : str -> bool).
Variable jar : Type.
Variable cookies : jar -> list (str * option str).
Variable store : jar -> list str -> list str -> str -> res jar.
Variable application : nat -> dict str -> str -> res (str * headers).
Notation run := (run idna_part idna_decode_part ip_ok nfkc_ok jar cookies store application).
Notation open_j := (open_j guess idna_part idna_decode_part ip_ok nfkc_ok jar cookies store application).
Notation verb_open := (verb_open guess idna_part idna_decode_part ip_ok nfkc_ok jar cookies store application).
Notation url_of := (fun e => get_current_url idna_part idna_decode_part ip_ok nfkc_ok e false false false None).

(** Along all the redirects of one call of open, whatever the library, each request carries
    the cookies the jar holds at that moment, and each response's Set-Cookie headers, in
    order, go into it. *)
Theorem C112_session : forall fuel allow follow_redirects (j : jar) r x chain trail jo,
  open_j fuel allow follow_redirects (Some j) r = (x, chain, trail, jo) ->
  exists j', jo = Some j' /\ visits jar cookies store url_of application 0 j trail j'.
Proof. exact (open_visits guess idna_part idna_decode_part ip_ok nfkc_ok jar cookies store application). Qed.
(** Cookies do not change the way of a client: it makes the requests, in the order, and
    returns the response that it would without a jar if it got the same answers.  So C90
    holds of it. *)
Theorem C112_same_way : forall fuel allow follow_redirects (jo : option jar) r x chain trail jo',
  open_j fuel allow follow_redirects jo r = (x, chain, trail, jo') ->
  exists y, client_open guess idna_part ip_ok nfkc_ok
      (fun n _ _ => match nth_error trail n with Some v => v_outcome v | None => Raise RuntimeError end)
      fuel allow follow_redirects r = (y, chain, map v_request trail) /\
    match x, y with
    | None, None => True
    | Some (Ok (_, response)), Some (Ok (_, response')) => response = response'
    | Some (Raise e), Some (Raise e') => e = e'
    | _, _ => False
    end.
Proof.
  intros fuel allow f jo r x c t jo' H.
  destruct (open_same guess idna_part idna_decode_part ip_ok nfkc_ok jar cookies store application _ _ _ _ _ _ _ _ _ H) as (y & E & P).
  exists y. split; [exact E|]. destruct x as [[[? ?]|]|], y as [[[? ?]|]|]; cbn in P; try discriminate; auto; congruence.
Qed.
(** A client without a jar sends the environs as they are. *)
Theorem C112_no_jar : forall fuel allow follow_redirects r x chain trail jo,
  open_j fuel allow follow_redirects None r = (x, chain, trail, jo) ->
  jo = None /\ Forall (fun v => v_sent v = fst (v_request v)) trail.
Proof. exact (open_without guess idna_part idna_decode_part ip_ok nfkc_ok jar cookies store application). Qed.
Variable date_after : Z -> str.
Notation set_cookie := (set_cookie guess idna_part idna_decode_part ip_ok nfkc_ok date_after jar store).
Notation tell := (tell guess idna_part idna_decode_part ip_ok nfkc_ok date_after jar store).
(** set_cookie gives the library exactly the one header of dump_cookie (C26), as if it came
    from the path at the server, over http. *)
Theorem C112_set : forall (j : jar) server name path text key value max_age expires domain secure httponly h,
  plain_host name server -> (forall p, In p (split_on 46 name) -> idna_decode_part p = Ok p) -> path_argument path text ->
  dump_cookie idna_part ip_ok nfkc_ok date_after key value (Args max_age expires (Some path) domain secure httponly true) = Ok h ->
  set_cookie (Some j) server key value max_age expires path domain secure httponly =
    store j [] [h] (lit "http://" ++ server ++ shown_path text).
Proof. intros. eapply set_cookie_calls; eauto. Qed.
Theorem C112_disabled : forall server key value max_age expires path domain secure httponly,
  set_cookie None server key value max_age expires path domain secure httponly = Raise AssertionError.
Proof. reflexivity. Qed.
(** With a library that keeps the cookies of a server and path: after any number of cookies
    were set and deleted, in any order, the application that reads the cookies of the next
    request finds exactly the ones set and not deleted since, with their last values. *)
Theorem C112_seen : forall server name path text p l (j0 : jar),
  plain_host name server -> (forall p, In p (split_on 46 name) -> idna_decode_part p = Ok p) ->
  path_argument path text -> iri_to_uri idna_part ip_ok nfkc_ok path = Ok p ->
  keeps jar cookies store (lit "http://" ++ server ++ shown_path text) p ->
  Forall proper l -> cookies j0 = [] ->
  exists j, tell j0 server path l = Ok j /\
    forall n r v jo fuel, run n (Some j) r = (v, jo) -> dget (fst r) (lit "HTTP_COOKIE") = None ->
      (length (env_or (v_sent v) (lit "HTTP_COOKIE")) < fuel)%nat ->
      exists d, parse_cookie fuel (env_or (v_sent v) (lit "HTTP_COOKIE")) = Some (Ok d) /\ forall k, dget d k = current l k.
Proof. intros. eapply cookies_seen; eauto. Qed.
(** get, post and so on: the request has that method, whatever method was given. *)
Theorem C112_verb : forall verb boundary fuel allow follow_redirects jo a x chain v trail jo' scheme name host script path query,
  verb_open verb boundary fuel allow follow_redirects jo a = (x, chain, v :: trail, jo') ->
  a_overrides a = [] -> silent_on_host a -> asks_for a path query -> base_for (a_base_url a) scheme name host script ->
  request_for idna_part (fst (v_request v)) verb scheme name host script path query.
Proof.
  intros verb boundary fuel allow f jo a x c v t jo' scheme name host script path query H Ho Hs Ha Hb. unfold ModelCookieJar.verb_open in H.
  set (a' := mk_args _ _ _ _ _ _ _ _ _ _ _) in H.
  destruct (create_environ guess idna_part ip_ok nfkc_ok boundary a') as [r|] eqn:E; [|discriminate].
  assert (v_request v = r) as ->.
  { destruct (open_same guess idna_part idna_decode_part ip_ok nfkc_ok jar cookies store application _ _ _ _ _ _ _ _ _ H) as (y & O & _).
    assert (exists t', map v_request (v :: t) = r :: t') as [t' T].
    { generalize dependent (map v_request (v :: t)). clear. intros m O. unfold client_open in O. destruct (request_of _ 0 r) as [resp|]; [|inversion O; subst; eauto].
      destruct f; [|destruct (status_number (fst resp)); inversion O; eauto].
      assert (forall fuel app e resp ch tr y c t, follow guess idna_part ip_ok nfkc_ok app fuel allow e resp ch tr = (y, c, t) -> exists s, t = tr ++ s) as G.
      { clear. induction fuel as [|fuel IH]; intros app e resp ch tr y c t O; cbn [follow] in O;
          (destruct (status_number (fst resp)); [|inversion O; subst; exists []; rewrite app_nil_r; auto]);
          (destruct (negb _); [inversion O; subst; exists []; rewrite app_nil_r; auto|]);
          (destruct (h_getitem (snd resp) _); [|inversion O; subst; exists []; rewrite app_nil_r; auto]);
          (destruct (existsb _ ch); [inversion O; subst; exists []; rewrite app_nil_r; auto|]);
          (destruct (redirect_environ _ _ _ _ _ _ _ _) as [q|]; [|inversion O; subst; exists []; rewrite app_nil_r; auto]);
          (destruct (request_of _ _ q); [|inversion O; subst; eauto]).
        - inversion O; subst; eauto.
        - apply IH in O as [s ->]. rewrite <- app_assoc. eauto. }
      apply G in O as [s O]. rewrite O. cbn. eauto. }
    cbn [map] in T. congruence. }
  destruct r as [e u]. cbn [fst]. 
  apply (request_spec guess idna_part ip_ok nfkc_ok boundary a' e u scheme name host script path query E Ho Hs); [|exact Hb].
  inversion Ha; subst; [apply ask_path|eapply ask_inline|apply ask_query]; eauto.
Qed.
End props.
Print Assumptions C112_session.
Print Assumptions C112_same_way.
Print Assumptions C112_no_jar.
Print Assumptions C112_set.
Print Assumptions C112_disabled.
Print Assumptions C112_seen.
Print Assumptions C112_verb.

(** ** A library, for the examples: a list of names and values; what follows the first
    semicolon says whether the cookie is removed *)
Definition toy_store (j : list (str * option str)) (_ set : list str) (_ : str) : res (list (str * option str)) :=
  Ok (fold_left (fun j h =>
    match split1 61 h with
    | None => j
    | Some (n, r) =>
        let (w, attrs) := partition 59 r in
        let others := filter (fun c => negb (eqs (fst c) n)) j in
        if starts (lit " Expires=Thu, 01-Jan-1970") attrs then others else others ++ [(n, Some w)]
    end) set j).
Lemma toy_keeps url p : keeps (list (str * option str)) (fun j => j) toy_store url p.
Proof.
  assert (S : forall n w r, legal_name n -> Forall wire_byte w -> split1 61 (n ++ [61] ++ w ++ 59 :: r) = Some (n, w ++ 59 :: r) /\ partition 59 (w ++ 59 :: r) = (w, r)).
  { intros n w r (_ & Hn & _) Hw. split.
    - apply split1_app. intros X. apply Hn, name_char_range in X. lia.
    - apply partition_app. intros X. rewrite Forall_forall in Hw. apply Hw in X. unfold wire_byte in X. lia. }
  assert (F : forall n j m v, In (m, v) (filter (fun c : str * option str => negb (eqs (fst c) n)) j) <-> m <> n /\ In (m, v) j).
  { intros n j m v. rewrite filter_In. cbn [fst]. destruct (eqs m n) eqn:E; cbn [negb].
    - apply eqs_eq in E. split; [intros [_ X]; discriminate|intros [X _]; contradiction].
    - split; [intros [X _]|intros [_ X]]; split; auto. intros ->. rewrite eqs_refl in E. discriminate. }
  split; intros j n w Hn Hw; unfold toy_store; cbn [fold_left].
  - unfold setting. destruct (S n w (lit " Path=" ++ p) Hn Hw) as [S1 S2].
    change (lit "; Path=" ++ p) with (59 :: lit " Path=" ++ p). rewrite S1, S2. cbn [starts andb].
    eexists. split; [reflexivity|]. intros m v. cbn. rewrite in_app_iff, F. cbn [In].
    split; [intros [X|[X|[]]]; [auto|inversion X; auto]|intros [[-> ->]|X]; auto].
  - unfold removing. destruct (S n w (lit " Expires=Thu, 01-Jan-1970 00:00:00 GMT; Max-Age=0; Path=" ++ p) Hn Hw) as [S1 S2].
    change (lit "; Expires=Thu, 01-Jan-1970 00:00:00 GMT; Max-Age=0; Path=" ++ p) with (59 :: lit " Expires=Thu, 01-Jan-1970 00:00:00 GMT; Max-Age=0; Path=" ++ p). rewrite S1, S2.
    assert (starts (lit " Expires=Thu, 01-Jan-1970") (lit " Expires=Thu, 01-Jan-1970 00:00:00 GMT; Max-Age=0; Path=" ++ p) = true) as -> by reflexivity.
    eexists. split; [reflexivity|]. intros m v. apply F.
Qed.
Definition no_guess (s : str) : option str := None.
Definition toy_app (n : nat) (e : dict str) (b : str) : res (str * headers) :=
  if Nat.eqb n 0 then Ok (lit "302 FOUND", [(lit "Location", lit "http://localhost/next"); (lit "set-cookie", lit "sid=1; Path=/"); (lit "Set-Cookie", lit "x=y; HttpOnly")])
  else Ok (lit "200 OK", [(lit "Set-Cookie", lit "sid=; Expires=Thu, 01-Jan-1970 00:00:00 GMT; Max-Age=0; Path=/")]).
Notation toy_open := (open_j no_guess (@Ok str) (@Ok str) (fun _ => false) (fun _ => true) (list (str * option str)) (fun j => j) toy_store toy_app).
Definition start : dict str := [(lit "REQUEST_METHOD", lit "GET"); (lit "wsgi.url_scheme", lit "http"); (lit "HTTP_HOST", lit "localhost"); (lit "PATH_INFO", lit "/")].
Example C112_example_session :
  match toy_open 5 false true (Some [(lit "a", Some (lit "b"))]) (start, fresh [] []) with
  | (Some (Ok (e, response)), chain, [v; w], jo) =>
      fst response = lit "200 OK" /\ e = v_sent w /\ chain = [(lit "http://localhost/next", 302%Z)] /\
      jo = Some [(lit "a", Some (lit "b")); (lit "x", Some (lit "y"))] /\
      dget (v_sent v) (lit "HTTP_COOKIE") = Some (lit "a=b") /\ dget (v_sent w) (lit "HTTP_COOKIE") = Some (lit "a=b; sid=1; x=y")
  | _ => False
  end.
Proof. vm_compute. repeat split. Qed.
Example C112_example_seen :
  let l := [(lit "k", Some (lit "a;b")); (lit "x", Some (lit "1")); (lit "k", Some (lit "a b""" ++ [233])); (lit "x", None)] in
  plain_host (lit "localhost") (lit "localhost:80") /\ path_argument (lit "/p") (lit "/p") /\ Forall proper l /\
  current l (lit "k") = Some (lit "a b""" ++ [233]) /\ current l (lit "x") = None /\
  exists j, tell no_guess (@Ok str) (@Ok str) (fun _ => false) (fun _ => true) (fun _ => []) _ toy_store [] (lit "localhost:80") (lit "/p") l = Ok j /\
    inject j start = dset start (lit "HTTP_COOKIE") (lit "k=""a b\""\303\251""").
Proof.
  cbv zeta. split; [|split; [|split; [|split; [|split]]]].
  - apply (ph_port (lit "localhost") 80); try discriminate; [|lia].
    intros c Hc. unfold SpecRequest.name_char. repeat (destruct Hc as [<-|Hc]; [cbn; lia|]). destruct Hc.
  - split; [exists (lit "p"); split; auto; intros r; discriminate|].
    split; [intros X; repeat (destruct X as [X|X]; [discriminate|]); destruct X|].
    split; [intros X; repeat (destruct X as [X|X]; [discriminate|]); destruct X|].
    split; [repeat split; intros X; repeat (destruct X as [X|X]; [discriminate|]); destruct X|].
    split; [|exists (lit "p"); split; auto; intros r; discriminate].
    exists (lit "/p"). split; [|reflexivity]. exists (lit "/p"). split; [reflexivity|]. apply (safe_unquote_spec []).
  - assert (L : forall n, n = lit "k" \/ n = lit "x" -> legal_name n).
    { intros n Hn. split; [destruct Hn as [->| ->]; discriminate|]. split.
      - intros c Hc. destruct Hn as [->| ->]; destruct Hc as [<-|[]]; unfold SpecCookie.name_char; right; right; left; split; discriminate.
      - intros (t & Ht & Hi). assert (length t = 1%nat) as Lt by (destruct Hn as [->| ->]; inversion Ht as [|? ? ? ? _ Y]; subst; inversion Y; reflexivity).
        cbn in Hi. repeat (destruct Hi as [<-|Hi]; [discriminate|]). destruct Hi. }
    repeat apply Forall_cons; try apply Forall_nil; (split; [apply L; auto|]); cbn [snd]; auto; eexists; vm_compute; reflexivity.
  - reflexivity.
  - reflexivity.
  - eexists. split; [vm_compute; reflexivity|]. vm_compute. reflexivity.
Qed.
(** Findings.  The cookies sent are not always those of the jar: an environ passed twice
    still carries the cookies of the first time when the jar has none left. *)
Theorem C112_stale_refuted : ~ (forall fuel (j j' : list (str * option str)) r x c v jo x' c' v' jo',
  toy_open fuel false false (Some j) r = (x, c, [v], jo) ->
  toy_open fuel false false (Some j') (v_sent v, snd r) = (x', c', [v'], jo') ->
  forall n w, In (n, Some w) j -> ~ In (n, Some w) j' -> dget (v_sent v') (lit "HTTP_COOKIE") <> Some (n ++ [61] ++ w)).
Proof.
  intros H.
  destruct (toy_open 0 false false (Some [(lit "sid", Some (lit "1"))]) (start, fresh [] [])) as [[[x c] t] jo] eqn:E. vm_compute in E. inversion E; subst.
  destruct (toy_open 0 false false (Some []) (dset start (lit "HTTP_COOKIE") (lit "sid=1"), fresh [] [])) as [[[x c] t] jo] eqn:E'. vm_compute in E'. inversion E'; subst.
  refine (H 0%nat [(lit "sid", Some (lit "1"))] [] (start, fresh [] []) _ _ _ _ _ _ _ _ E E' (lit "sid") (lit "1") _ _ _);
    [left; reflexivity|intros []|vm_compute; reflexivity].
Qed.
(** A cookie without a value is sent with the value None. *)
Theorem C112_none_refuted : exists e, dget (inject [(lit "flag", None)] e) (lit "HTTP_COOKIE") = Some (lit "flag=None").
Proof. exists []. reflexivity. Qed.
Print Assumptions C112_stale_refuted.
Print Assumptions C112_none_refuted.
