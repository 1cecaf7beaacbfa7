(** More about claims C106 and C113: exactly when an uploaded file cannot be made, what is
    shown of any content type, and exactly which multi dicts equal their pickles. *)
From Coq Require Import Arith List NArith ZArith Bool Lia.
From Verif Require Import PyStr PyStrFacts Utf8 ModelQuote SpecQuote ModelHeaders SpecHeaders ModelFile SpecFile ProofFile.
From Verif Require ProofOptions ModelMultiDict ModelCombined SpecCombined ModelFrozen SpecFrozen ProofFrozen PropsFrozen.
Import ListNotations.
Open Scope N_scope.

(** Making one fails exactly if no file name is given and the stream is known by a number
    only, with TypeError, or otherwise if the type has a line break, with ValueError.  The
    number 0, with which the file is named by it, is not modelled. *)
Theorem C106_total_exact : forall stream filename name ct cl hs e,
  (forall f, stream <> Some (f, NNumber 0)) ->
  (new_storage stream filename name ct cl hs = Raise e <->
   let numbered := filename = None /\ exists f n, stream = Some (f, NNumber n) in
   (numbered /\ e = TypeError) \/ (~ numbered /\ e = ValueError /\ exists t, ct = Some t /\ ~ one_line t)).
Proof.
  intros stream filename name ct cl hs e Z. cbv zeta.
  assert (D : (filename = None /\ exists f n, stream = Some (f, NNumber n)) \/
              (filename <> None \/ match stream with Some (_, NNumber _) => False | _ => True end)).
  { destruct filename as [x|]; [right; left; discriminate|].
    destruct stream as [[f [|t|b|z]]|]; auto. left. eauto. }
  destruct D as [D|D].
  - assert (E : new_storage stream filename name ct cl hs = Raise TypeError).
    { destruct D as (-> & f & n & ->). unfold new_storage. cbn. destruct (Z.eqb_spec n 0) as [->|]; auto. destruct (Z f eq_refl). }
    rewrite E. split; [intros [= <-]; auto|]. intros [[_ ->]|[N _]]; [auto|tauto].
  - assert (N : ~ (filename = None /\ exists f n, stream = Some (f, NNumber n))).
    { intros (A & f & n & B). rewrite A, B in D. destruct D; auto. }
    destruct (match ct with Some t => validate_value t | None => true end) eqn:T.
    + destruct (storage_total stream filename name ct cl hs D) as [s E].
      { destruct ct; [apply ProofHeaders.validate_spec, T|exact I]. }
      rewrite E. split; [discriminate|]. intros [[M _]|(_ & _ & t & -> & L)]; [tauto|].
      apply ProofHeaders.validate_spec in T. tauto.
    + destruct ct as [t|]; [|discriminate]. apply ProofHeaders.validate_false in T.
      assert (E : new_storage stream filename name (Some t) cl hs = Raise ValueError).
      { destruct (storage_total stream filename name None cl hs D I) as [s E]. unfold new_storage in *. cbv zeta in *.
        destruct (match filename with Some x => Ok (Some x) | None => _ end); [|discriminate E]. cbn [bind].
        rewrite set_refuses by exact T. reflexivity. }
      rewrite E. split; [intros [= <-]; right; eauto|]. intros [[M _]|(_ & -> & _)]; [tauto|auto].
Qed.
Print Assumptions C106_total_exact.

(** What is shown of a content type made of a name and options, whatever they are: the name
    in small letters, and of each option what comes back of it when a header is read (C13). *)
Theorem C106_type_exact : forall s h opts,
  option_name h -> Forall (fun kv => option_name (fst kv)) opts -> NoDup (map fst opts) ->
  sg_parsed s = None -> sg_content_type s = Some (dump_options_header (Some h) opts) ->
  (exists s', sg_mimetype s = Ok (lower h, s')) /\ (exists s', sg_mimetype_params s = Ok (map comes_back opts, s')).
Proof.
  intros s h opts A B C P T. unfold sg_mimetype, sg_mimetype_params, parse_type. rewrite P, T.
  rewrite (ProofOptions.options_header_exact h opts A B C). split; eexists; reflexivity.
Qed.
Print Assumptions C106_type_exact.

Example C106_exact_example :
  new_storage (Some (File [] 0 true false, NNumber 7)) None None (Some [10]) None None = Raise TypeError /\
  new_storage (Some (File [] 0 true false, NNumber 7)) (Some (lit "f")) None (Some [10]) None None = Raise ValueError /\
  match new_storage None None None (Some (dump_options_header (Some (lit "text/Plain")) [(lit "charset", Some []); (lit "x", Some (lit "a b"))])) None None with
  | Ok s => sg_parsed s = None /\
            match sg_mimetype_params s with Ok (p, _) => p = map comes_back [(lit "charset", Some []); (lit "x", Some (lit "a b"))] | Raise _ => False end
  | Raise _ => False
  end.
Proof. vm_compute. auto. Qed.

(** ** C113: pickles of multi dicts *)
Section C113.
Import ModelMultiDict ModelCombined SpecCombined ModelFrozen SpecFrozen ProofFrozen.
(** The pickle of a multi dict equals it exactly if it has no key without values, provided
    that the pickles of its values equal them. *)
Theorem C113_pickle_equal_exact : forall (V : Type) (dup : V -> V) (veq : V -> V -> bool) (d : mdict V),
  (forall v, veq (dup v) v = true) -> NoDup (map fst d) ->
  (md_eq veq (imd_pickle dup d) d = true <-> forall k, ~ In (k, []) d).
Proof.
  intros V dup veq d E N. rewrite (imd_pickled dup d N). split.
  - intros H k I. unfold md_eq in H. apply andb_true_iff in H as [H _]. apply Nat.eqb_eq in H. rewrite map_length in H.
    clear -H I. revert H. assert (L : forall l : mdict V, (length (filter some_values l) <= length l)%nat).
    { induction l as [|x l IH]; cbn; auto. destruct (some_values x); cbn; lia. }
    induction d as [|[k' l] d IH]; [destruct I|]. destruct I as [I|I].
    + injection I as -> ->. cbn. specialize (L d). lia.
    + cbn [filter]. destruct (some_values (k', l)); cbn [length]; intros H; [apply IH; auto; lia|]. specialize (L d). lia.
  - intros H. replace (filter some_values d) with d; [apply md_eq_dup; auto|].
    clear -H. induction d as [|[k l] d IH]; auto. cbn [filter]. destruct l as [|v l].
    + destruct (H k). left. auto.
    + cbn. f_equal. apply IH. intros k' I. apply (H k'). right. auto.
Qed.
Example C113_pickle_exact_example :
  let d := [(lit "a", [1; 2]); (lit "b", [3])] in
  NoDup (map fst d) /\ md_eq N.eqb (imd_pickle (fun v => v) d) d = true /\
  md_eq N.eqb (imd_pickle (fun v => v) (d ++ [(lit "c", [])])) (d ++ [(lit "c", [])]) = false.
Proof. cbv zeta. split; [repeat constructor; cbn; intuition discriminate|]. vm_compute. auto. Qed.
End C113.
Print Assumptions C113_pickle_equal_exact.
