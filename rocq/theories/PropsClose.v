(** C39: responses are closed whatever happens. *)
From Coq Require Import Arith List NArith ZArith Bool Permutation.
From Verif Require Import PyStr PyStrFacts ModelHeaders ModelResponse ModelClose SpecClose ProofClose.
Import ListNotations.
Open Scope N_scope.

(** C39, for closing functions that do not raise (missing: functions that raise, see below).
    [app_trace] is what happens when a server asks the application for [n] chunks and then
    closes it.  If it asks for more chunks than there are, the end or the body's failure is
    reached: everything that has to be closed runs exactly once and in order, after the last
    chunk and before the server learns of the end; the request is closed after it. *)
Theorem C39_finished_partial : forall (fails : callback -> option exn) (method : str) (r : response) (n : nat) (cs : list str) (e : option exn),
  (forall c, In c (to_close r) -> fails c = None) ->
  chunks (get_app_iter method r) = (cs, e) -> (length cs < n)%nat ->
  let t := app_trace fails r (Ok (get_app_iter method r)) n in
  ran t = to_close r /\ arrived t = cs /\ exists t', t = map EChunk cs ++ map ERun (to_close r) ++ ERequestClosed :: result e :: t'.
Proof. exact closed_full. Qed.
(** C39: a server that stops after some chunks: at least once. *)
Theorem C39_stopped_partial : forall (fails : callback -> option exn) (method : str) (r : response) (n : nat) (cs : list str) (e : option exn),
  (forall c, In c (to_close r) -> fails c = None) ->
  chunks (get_app_iter method r) = (cs, e) -> (0 < n <= length cs)%nat ->
  let t := app_trace fails r (Ok (get_app_iter method r)) n in
  arrived t = firstn n cs /\ exists again, ran t = again ++ to_close r /\ incl again (to_close r).
Proof. exact closed_stopped. Qed.
(** C39: calling the response fails (bad header, start_response raises). *)
Theorem C39_refused_partial : forall (fails : callback -> option exn) (r : response) (n : nat) (e : exn),
  (forall c, In c (to_close r) -> fails c = None) -> (0 < n)%nat ->
  ran (app_trace fails r (Raise e) n) = to_close r /\ In (ERaise e) (app_trace fails r (Raise e) n).
Proof. exact closed_refused. Qed.
(** C39: calls that do not replace the body keep all that has to be closed. *)
Theorem C39_kept : forall (ops : list rop) (r : response),
  Forall keeps_body ops -> Permutation (to_close r) (to_close (r_run r ops)).
Proof. exact run_kept. Qed.
(** C39: a response used directly as WSGI application: exactly once. *)
Theorem C39_direct : forall (fails : callback -> option exn) (method : str) (r : response) (n : nat),
  (forall c, In c (to_close r) -> fails c = None) -> rs_passthrough r = false ->
  ran (direct_trace fails r (get_app_iter method r) n) = to_close r.
Proof. exact closed_direct. Qed.
(** C39: if a closing function raises, the functions up to it run, the request is closed
    and the server gets the exception; what comes after it does not run. *)
Theorem C39_failing : forall (fails : callback -> option exn) (method : str) (r : response) (n : nat)
    (l1 : list callback) (c : callback) (l2 : list callback) (x : exn) (cs : list str) (e : option exn),
  to_close r = l1 ++ c :: l2 -> (forall d, In d l1 -> fails d = None) -> fails c = Some x ->
  chunks (get_app_iter method r) = (cs, e) -> (length cs < n)%nat ->
  let t := app_trace fails r (Ok (get_app_iter method r)) n in
  ran t = l1 ++ [c] /\ In ERequestClosed t /\ In (ERaise x) t.
Proof. exact closed_failing. Qed.
Definition streamed (pass : bool) : response :=
  Response [] (set_status_code 200) (BIter [IBytes [1]; IText [233]] (Some RuntimeError) (Some 1%nat)) pass [CUser 2; CUser 3] true true true.
(** Finding: functions registered after one that raises never run. *)
Theorem C39_failing_refuted : exists (fails : callback -> option exn) (r : response) (n : nat),
  In (CUser 3) (to_close r) /\ fails (CUser 3) = None /\
  ~ In (CUser 3) (ran (app_trace fails r (Ok (get_app_iter (lit "GET") r)) n)) /\
  arrived (app_trace fails r (Ok (get_app_iter (lit "GET") r)) n) = fst (chunks (get_app_iter (lit "GET") r)).
Proof.
  exists (fun c => match c with CUser 2 => Some ValueError | _ => None end), (streamed false), 5%nat.
  vm_compute. repeat split; auto. intros [H|[H|[]]]; discriminate.
Qed.
Print Assumptions C39_finished_partial.
Print Assumptions C39_stopped_partial.
Print Assumptions C39_refused_partial.
Print Assumptions C39_kept.
Print Assumptions C39_direct.
Print Assumptions C39_failing.
Print Assumptions C39_failing_refuted.

Example C39_example :
  let none := fun _ : callback => None : option exn in
  let t pass n := app_trace none (streamed pass) (Ok (get_app_iter (lit "GET") (streamed pass))) n in
  t false 3%nat = [EChunk [1]; EChunk [195; 169]; ERun (CIter 1); ERun (CUser 2); ERun (CUser 3); ERequestClosed; ERaise RuntimeError] /\
  t false 1%nat = [EChunk [1]; ERun (CIter 1); ERun (CUser 2); ERun (CUser 3); ERun (CIter 1); ERun (CUser 2); ERun (CUser 3); ERequestClosed] /\
  t true 1%nat = [EChunk [1]; ERun (CIter 1); ERun (CIter 1); ERun (CUser 2); ERun (CUser 3); ERequestClosed] /\
  t false 0%nat = [] /\
  to_close (r_run (streamed false) [RWrite (IBytes [2])]) = to_close (streamed false).
Proof. vm_compute. repeat split; auto. Qed.
(** Findings: freezing a response or setting its data forgets to close the iterator; in
    pass-through mode a response that is used directly never runs its callbacks. *)
Example C39_finding_freeze :
  to_close (r_run (Response [] (set_status_code 200) (BIter [IBytes [1]] None (Some 1%nat)) false [] true true true) [RFreeze]) = [].
Proof. vm_compute. auto. Qed.
Example C39_finding_passthrough :
  ran (direct_trace (fun _ => None) (streamed true) (get_app_iter (lit "GET") (streamed true)) 5) = [CIter 1].
Proof. vm_compute. auto. Qed.
