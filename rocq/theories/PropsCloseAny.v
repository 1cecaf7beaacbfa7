(** More about claim C39: closing functions that may raise.  What has to be closed is run in
    order until one function raises; the request is closed in any case. *)
From Coq Require Import Arith List NArith ZArith Bool Lia.
From Verif Require Import PyStr PyStrFacts ModelHeaders ModelResponse ModelClose SpecClose SpecCloseAny ProofCloseAny.
Import ListNotations.
Open Scope N_scope.

(** For any functions there is exactly one way to do that. *)
Theorem C39_until : forall fails l, exists got x, until fails l got x /\
  forall got' x', until fails l got' x' -> got' = got /\ x' = x.
Proof.
  intros fails l. destruct (until_ex fails l) as (got & x & U). exists got, x. split; auto.
  intros got' x' U'. apply until_run in U, U'. rewrite U in U'. injection U' as E <-. split; auto. clear U.
  revert got' E. induction got as [|c got IH]; intros [|d got'] E; try discriminate; auto. cbn in E. injection E as <- E. f_equal. auto.
Qed.
Print Assumptions C39_until.

(** A server that asks for more chunks than there are: all chunks, then the functions, then
    the request is closed, then the server learns of the end, of the failure of the body or,
    if a function raised, of that. *)
Theorem C39_finished_exact : forall fails method r got x n cs e, until fails (to_close r) got x ->
  chunks (get_app_iter method r) = (cs, e) -> (length cs < n)%nat ->
  app_trace fails r (Ok (get_app_iter method r)) n =
    map EChunk cs ++ map ERun got ++ [ERequestClosed; outcome (last_of e x)] ++ repeat EStop (n - length cs - 1).
Proof. intros fails method r got x n cs e U. apply (trace_any_full fails r got x U). Qed.
Print Assumptions C39_finished_exact.

(** A server that stops after some chunks and closes: the functions run twice, or in
    pass-through mode those of the body twice and the others once; the request is closed and
    the server gets the exception of the last function that raised. *)
Theorem C39_stopped_exact : forall fails method r got x n cs e, until fails (to_close r) got x ->
  chunks (get_app_iter method r) = (cs, e) -> (0 < n <= length cs)%nat ->
  exists first y, app_trace fails r (Ok (get_app_iter method r)) n =
    map EChunk (firstn n cs) ++ map ERun first ++ map ERun got ++ ERequestClosed :: raised (last_of y x) /\
    ((first = got /\ y = x) \/ (rs_passthrough r = true /\ until fails (body_closer (rs_body r)) first y)).
Proof. intros fails method r got x n cs e U. apply (trace_any_stopped fails r got x U). Qed.
Print Assumptions C39_stopped_exact.

(** Calling the response fails. *)
Theorem C39_refused_exact : forall fails r got x n e, until fails (to_close r) got x -> (0 < n)%nat ->
  app_trace fails r (Raise e) n = map ERun got ++ [ERequestClosed; outcome (last_of (Some e) x)] ++ repeat EStop (n - 1).
Proof. intros fails r got x n e U. apply (trace_any_refused fails r got x U). Qed.
Print Assumptions C39_refused_exact.

(** A response used as application itself, not in pass-through mode. *)
Theorem C39_direct_exact : forall fails method r got x n cs e, until fails (to_close r) got x ->
  chunks (get_app_iter method r) = (cs, e) -> rs_passthrough r = false ->
  direct_trace fails r (get_app_iter method r) n =
    map EChunk (firstn n cs) ++ (if (length cs <? n)%nat then [outcome e] else []) ++ map ERun got ++ raised x.
Proof. intros fails method r got x n cs e U. apply (direct_any fails r got x U). Qed.
Print Assumptions C39_direct_exact.

Example C39_exact_example :
  let fails c := match c with CUser 2 => Some ValueError | _ => None end in
  let r pass := Response [] (set_status_code 200) (BIter [IBytes [1]; IBytes [2]] (Some RuntimeError) (Some 1%nat)) pass [CUser 2; CUser 3] true true true in
  let t pass := app_trace fails (r pass) (Ok (get_app_iter (lit "GET") (r pass))) in
  until fails (to_close (r false)) [CIter 1; CUser 2] (Some ValueError) /\
  t false 4%nat = [EChunk [1]; EChunk [2]; ERun (CIter 1); ERun (CUser 2); ERequestClosed; ERaise ValueError; EStop] /\
  t false 1%nat = [EChunk [1]; ERun (CIter 1); ERun (CUser 2); ERun (CIter 1); ERun (CUser 2); ERequestClosed; ERaise ValueError] /\
  t true 1%nat = [EChunk [1]; ERun (CIter 1); ERun (CIter 1); ERun (CUser 2); ERequestClosed; ERaise ValueError] /\
  app_trace fails (r false) (Raise TypeError) 1 = [ERun (CIter 1); ERun (CUser 2); ERequestClosed; ERaise ValueError] /\
  direct_trace fails (r false) (get_app_iter (lit "GET") (r false)) 1 = [EChunk [1]; ERun (CIter 1); ERun (CUser 2); ERaise ValueError].
Proof.
  cbv zeta. split; [|vm_compute; repeat split; reflexivity].
  exists [CIter 1], (CUser 2), [CUser 3]. repeat split; auto. intros d [<-|[]]. reflexivity.
Qed.
