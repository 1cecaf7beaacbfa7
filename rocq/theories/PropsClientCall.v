(** * C131: what a call of the test client sends and returns *)
From Coq Require Import Arith List NArith ZArith Bool Lia.
From Verif Require Import PyStr PyStrFacts ModelHeaders ModelTest ModelClientCall SpecClientCall ProofClientCall.
Import ListNotations.
Open Scope N_scope.

(** In all of this builders, environs, responses and the state of the application are
    arbitrary, and so are the functions that build environs and run requests.  The call of
    open is [c_open]; it ends if it returns [Some]. *)
Section client.
  Context {B E V R X T : Type}.
  Variable environ_of : B -> res E.
  Variable build : list (carg B E V) -> dict V -> res E.
  Variable run : T -> E -> option V -> T * res R.
  Variable truth : V -> bool.
  Variable true_value : V.
  Variable text : str -> V.
  Variable code_of : R -> res Z.
  Variable location_of : R -> res str.
  Variable redirect_to : R -> str -> E -> res (dict V).
  Notation c_open := (c_open (X := X) environ_of build run truth true_value code_of location_of redirect_to).
  Notation c_method := (c_method (X := X) environ_of build run truth true_value text code_of location_of redirect_to).

(** The client has the same response wrapper after a call, also after one that fails. *)
Theorem C131_kept : forall fuel t w args kw t' w' q,
  c_open fuel t w args kw = Some (t', w', q) -> w' = w.
Proof. intros fuel. exact (proj1 (kept environ_of build run truth true_value code_of location_of redirect_to fuel)). Qed.
(** The wrapper changes nothing but the answer: it is called once, with the response that a
    client without a wrapper would return, and its result takes the place of that response. *)
Theorem C131_once : forall fuel t f args kw,
  match c_open fuel t None args kw with
  | None => c_open fuel t (Some f) args kw = None
  | Some (t', _, Raise e) => c_open fuel t (Some f) args kw = Some (t', Some f, Raise e)
  | Some (t', _, Ok o) => exists r, (o = OAlone (Raw r) \/ exists e, o = OTuple e (Raw r)) /\
      match f r with
      | Raise e => c_open fuel t (Some f) args kw = Some (t', Some f, Raise e)
      | Ok x => exists o', c_open fuel t (Some f) args kw = Some (t', Some f, Ok o') /\ wrapped_as r x o o'
      end
  end.
Proof. exact (once environ_of build run truth true_value code_of location_of redirect_to). Qed.
(** Every call is that of opening one environ with the options given.  The environ is that
    of a builder, or a dict, given alone; otherwise it is built of all arguments but the options. *)
Theorem C131_environ : forall fuel t w args kw e,
  environ_asked environ_of build args (others kw) (Ok e) ->
  c_open fuel t w args kw = c_open fuel t w [AEnviron e] (options kw).
Proof. exact (asked environ_of build run truth true_value code_of location_of redirect_to). Qed.
Theorem C131_no_environ : forall fuel t w args kw x,
  environ_asked environ_of build args (others kw) (Raise x) ->
  c_open (S fuel) t w args kw = Some (t, w, Raise x).
Proof. exact (not_asked environ_of build run truth true_value code_of location_of redirect_to). Qed.
(** What is returned for an environ: the answer to it, or, if redirects are followed, the
    answer at the end of a chain of redirects that leads from there; with the environ of that
    answer if it is asked for.  That the arguments of a redirected request are not options
    of the client is so in the program: they are path, base_url, query_string and method. *)
Theorem C131_answer : truth true_value = true ->
  (forall r l e kw, redirect_to r l e = Ok kw -> forall k v, In (k, v) kw -> ~ In k option_names) ->
  forall fuel t w e kw t' w' o, c_open fuel t w [AEnviron e] (options kw) = Some (t', w', Ok o) ->
  let asked_for k := exists v, dget kw k = Some v /\ truth v = true in
  exists t1 r1 e' r', run t e (dget kw (lit "buffered")) = (t1, Ok r1) /\
    (asked_for (lit "follow_redirects") -> leads build run code_of location_of redirect_to (dget kw (lit "buffered")) [] t1 e r1 t' e' r') /\
    (~ asked_for (lit "follow_redirects") -> t' = t1 /\ e' = e /\ r' = r1) /\
    exists a, match w with None => a = Raw r' | Some f => exists x, f r' = Ok x /\ a = Wrapped x end /\
      ((asked_for (lit "as_tuple") /\ o = OTuple e' a) \/ (~ asked_for (lit "as_tuple") /\ o = OAlone a)).
Proof.
  intros Tt No fuel t w e kw t' w' o H asked_for.
  assert (F : forall k, (flag truth k kw = true <-> asked_for k)).
  { intros k. unfold asked_for, flag. destruct (dget kw k) as [v|]; split.
    - eauto.
    - intros (v' & Hv & Ht). congruence.
    - discriminate.
    - intros (v' & Hv & _). discriminate. }
  destruct (followed_open environ_of build run truth true_value code_of location_of redirect_to Tt No _ _ _ _ _ _ _ _ H)
    as (t1 & r1 & e' & r' & H1 & H2 & H3 & a & H4 & H5).
  exists t1, r1, e', r'. split; [exact H1|]. split; [|split].
  - intros A. apply H2, F, A.
  - intros A. apply H3. destruct (flag truth (lit "follow_redirects") kw) eqn:Q; [|reflexivity]. exfalso. apply A, F, Q.
  - exists a. split; [exact H4|]. destruct (flag truth (lit "as_tuple") kw) eqn:Q.
    + left. split; [apply F, Q|exact H5].
    + right. split; [|exact H5]. intros A. apply F in A. congruence.
Qed.
(** get, post and so on: the request is built of the arguments with this method, whichever
    method was given.  Nothing but the method changes. *)
Theorem C131_method : forall m fuel t w args kw, exists kw', c_method m fuel t w args kw = c_open fuel t w args kw' /\
  dget (others kw') (lit "method") = Some (text m) /\ options kw' = options kw /\
  forall k, k <> lit "method" -> dget kw' k = dget kw k.
Proof.
  intros m fuel t w args kw. exists (dset kw (lit "method") (text m)). split; [reflexivity|].
  induction kw as [|[k v] kw (I1 & I2 & I3)]; [|change (dset ((k, v) :: kw) (lit "method") (text m)) with (if eqs (lit "method") k then (k, text m) :: kw else (k, v) :: dset kw (lit "method") (text m)); destruct (eqs (lit "method") k) eqn:Ek].
  - split; [reflexivity|]. split; [reflexivity|]. intros k Hk. cbn [dset dget]. destruct (eqs k (lit "method")) eqn:F; [apply eqs_eq in F; contradiction|reflexivity].
  - apply eqs_eq in Ek. subst k. split; [reflexivity|]. split; [reflexivity|]. intros k Hk. cbn [dget]. destruct (eqs k (lit "method")) eqn:F; [apply eqs_eq in F; contradiction|reflexivity].
  - split; [|split].
    + unfold others in *. cbn [filter]. destruct (negb (is_option (k, v))); [cbn [dget]; rewrite Ek|]; exact I1.
    + unfold options in *. cbn [filter]. destruct (is_option (k, v)); [f_equal|]; exact I2.
    + intros k' Hk. cbn [dget]. destruct (eqs k' k); [reflexivity|apply I3, Hk].
Qed.
End client.
Print Assumptions C131_kept.
Print Assumptions C131_once.
Print Assumptions C131_environ.
Print Assumptions C131_no_environ.
Print Assumptions C131_answer.
Print Assumptions C131_method.

(** Builders and environs are texts, each the address asked for; the application redirects
    from one address to another; EnvironBuilder does not take a builder as path
    (TypeError, test.py:324). *)
Definition builds (args : list (carg str str str)) (kw : dict str) : res str :=
  match args with
  | [] => match dget kw (lit "path") with Some p => Ok p | None => Ok (lit "/") end
  | AOther p :: _ => Ok p
  | _ => Raise TypeError
  end.
Definition site (t : nat) (e : str) (b : option str) : nat * res (Z * str) :=
  (S t, Ok (if eqs e (lit "/old") then (302%Z, lit "/new") else (200%Z, e))).
Definition site_open := c_open (X := str) (fun b => Ok b) builds site (fun v => eqs v (lit "yes")) (lit "yes")
  (fun r : Z * str => Ok (fst r)) (fun r => Ok (snd r)) (fun _ l _ => Ok [(lit "path", l); (lit "method", lit "GET")]).
Example C131_example :
  let f (r : Z * str) := Ok (lit "page " ++ snd r) in let kw := [(lit "follow_redirects", lit "yes"); (lit "as_tuple", lit "yes")] in
  site_open 9 0 None [AOther (lit "/old")] kw = Some (2%nat, None, Ok (OTuple (lit "/new") (Raw (200%Z, lit "/new")))) /\
  site_open 9 0 (Some f) [AOther (lit "/old")] kw = Some (2%nat, Some f, Ok (OTuple (lit "/new") (Wrapped (lit "page /new")))) /\
  site_open 9 0 None [ABuilder (lit "/old")] [] = Some (1%nat, None, Ok (OAlone (Raw (302%Z, lit "/new")))).
Proof. vm_compute. auto. Qed.
(** Finding: get and its like cannot be called with a builder or an environ, as open can: the
    method they add makes the builder an argument among others. *)
Theorem C131_method_builder_refuted : exists b e,
  site_open 9 0 None [ABuilder b] [] = Some (1%nat, None, Ok (OAlone (Raw (200%Z, b)))) /\
  c_method (X := str) (fun b => Ok b) builds site (fun v => eqs v (lit "yes")) (lit "yes") (fun s => s)
    (fun r : Z * str => Ok (fst r)) (fun r => Ok (snd r)) (fun _ l _ => Ok [(lit "path", l)])
    (lit "GET") 9 0%nat None [ABuilder b] [] = Some (0%nat, None, Raise e).
Proof. exists (lit "/x"), TypeError. vm_compute. auto. Qed.
Print Assumptions C131_method_builder_refuted.
