(** * Theorems: exception handlers after any call of [add_exception_handlers] (C54) *)
From Coq Require Import Arith List NArith ZArith QArith Bool Lia.
From Verif Require Import PyStr PyStrFacts ModelAccept SpecAccept ProofAccept PropsAccept
  ModelDispatch SpecDispatch ProofDispatch PropsDispatch.
Import ListNotations.
Open Scope N_scope.

(** A factory whose handlers can be added: a handler, or a dispatcher without any. *)
Definition can_be_added (f : hfactory) : Prop :=
  match f with HHandler _ => True | HDispatcher d => d = [] end.

Lemma add_splits fs : forall d0,
  exists fs1 d,
    Forall can_be_added fs1 /\ add_exception_handlers d0 fs1 = (d, None) /\
    ((fs = fs1 /\ add_exception_handlers d0 fs = (d, None)) \/
     (exists n fs2, fs = fs1 ++ HDispatcher n :: fs2 /\ n <> [] /\
        add_exception_handlers d0 fs = (d, Some AttributeError))).
Proof.
  induction fs as [|f fs IH]; intros d0.
  - exists [], d0. split; [constructor|]. split; [reflexivity|]. left. split; reflexivity.
  - destruct f as [h|[|p q]].
    + destruct (IH (hs_add d0 (h_class h) (h_repr h))) as (fs1 & d & F & A & H).
      exists (HHandler h :: fs1), d. split; [constructor; [exact I|exact F]|]. split; [exact A|].
      destruct H as [[-> H]|(n & fs2 & -> & N & H)]; [left; split; [reflexivity|exact H]|].
      right. exists n, fs2. split; [reflexivity|]. split; [exact N|exact H].
    + destruct (IH d0) as (fs1 & d & F & A & H).
      exists (HDispatcher [] :: fs1), d. split; [constructor; [reflexivity|exact F]|]. split; [exact A|].
      destruct H as [[-> H]|(n & fs2 & -> & N & H)]; [left; split; [reflexivity|exact H]|].
      right. exists n, fs2. split; [reflexivity|]. split; [exact N|exact H].
    + exists [], d0. split; [constructor|]. split; [reflexivity|]. right. exists (p :: q), fs.
      split; [reflexivity|]. split; [discriminate|reflexivity].
Qed.

Lemma add_exact fs d0 : snd (add_exception_handlers d0 fs) = None <-> Forall can_be_added fs.
Proof.
  revert d0. induction fs as [|f fs IH]; intros d0; cbn [add_exception_handlers].
  - split; [constructor|reflexivity].
  - destruct f as [h|[|p q]]; cbn [add_handler].
    + rewrite IH. split; [intros H; constructor; [exact I|exact H]|intros H; inversion H; assumption].
    + rewrite IH. split; [intros H; constructor; [reflexivity|exact H]|intros H; inversion H; assumption].
    + split; [discriminate|]. intros H. inversion H as [|x l K _]. discriminate K.
Qed.

(** C54: exactly when handlers can be added to a dispatcher, whatever it holds. *)
Theorem C54_add_exact : forall (d0 : handlers) (fs : list hfactory),
  snd (add_exception_handlers d0 fs) = None <-> Forall can_be_added fs.
Proof. exact (fun d0 fs => add_exact fs d0). Qed.
Print Assumptions C54_add_exact.

(** C54: a dispatcher made by a call that may fail looks up exactly among the
    handlers before the first dispatcher that has handlers; those after it are not
    there, and the call has failed with an AttributeError exactly if there is such
    a dispatcher. *)
Theorem C54_any_call : forall float_of fmul fs accept language charset a,
  good_headers float_of accept language charset a ->
  (forall h, In h (handlers_of fs) -> good_offer (h_repr h)) ->
  exists fs1 d e,
    add_exception_handlers [] fs = (d, e) /\ Forall can_be_added fs1 /\
    ((fs = fs1 /\ e = None) \/
     (exists n fs2, fs = fs1 ++ HDispatcher n :: fs2 /\ n <> [] /\ e = Some AttributeError)) /\
    forall mro,
      (exists r, exception_lookup float_of fmul d mro accept language charset = Ok (Some r)
                 /\ right_handler (handlers_of fs1) mro a r)
      \/ (exception_lookup float_of fmul d mro accept language charset = Ok None
          /\ no_handler (handlers_of fs1) mro a).
Proof.
  intros float_of fmul fs accept language charset a GH GO.
  destruct (add_splits fs []) as (fs1 & d & F & A & H).
  assert (G : forall h, In h (handlers_of fs1) -> good_offer (h_repr h)).
  { intros h Hh. apply GO. destruct H as [[-> _]|(n & fs2 & -> & _)]; [exact Hh|].
    unfold handlers_of in *. rewrite flat_map_app. apply in_or_app. left. exact Hh. }
  pose proof (exception_lookup_ok float_of fmul fs1 d accept language charset a A GH G) as L.
  destruct H as [[E H]|(n & fs2 & E & N & H)].
  - exists fs1, d, None. split; [exact H|]. split; [exact F|]. split; [left; auto|exact L].
  - exists fs1, d, (Some AttributeError). split; [exact H|]. split; [exact F|].
    split; [right; exists n, fs2; auto|exact L].
Qed.
Print Assumptions C54_any_call.

(** The handler before the nested dispatcher is there, the one after it is not. *)
Example C54_any_call_example :
  let r := add_exception_handlers []
             [HHandler (mk_handler 0 (act 10 html)); HDispatcher ex_hs; HHandler (mk_handler 2 (act 12 html))] in
  snd r = Some AttributeError /\
  match exception_lookup ex_float ex_mul (fst r) [2; 1; 0]%nat (Some (lit "text/html")) None None with
  | Ok (Some h) => r_self h = 10%nat | _ => False end.
Proof. vm_compute. split; reflexivity. Qed.
