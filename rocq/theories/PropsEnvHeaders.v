(** More about claim C41: exactly which headers of an environment are found, and under
    which names. *)
From Coq Require Import Arith List NArith ZArith Bool Lia.
From Verif Require Import PyStr PyStrFacts ModelWsgi SpecWsgi SpecEnvHeaders ProofEnvHeaders.
Import ListNotations.
Open Scope N_scope.

(** A name is found with a value exactly if the variable for it has that value, and is
    missing exactly if there is no such variable. *)
Theorem C41_getitem_exact : forall environ n v, NoDup (map fst environ) ->
  env_getitem environ n = Ok v <-> exists k, variable_of n k /\ In (k, v) environ.
Proof. exact env_getitem_exact. Qed.
Print Assumptions C41_getitem_exact.
Theorem C41_missing_exact : forall environ n,
  (forall k v, variable_of n k -> ~ In (k, v) environ) <-> env_getitem environ n = Raise KeyError.
Proof. exact env_getitem_missing. Qed.
Print Assumptions C41_missing_exact.

(** Whatever is found is also listed, under a name that has the same variable. *)
Theorem C41_found_listed : forall environ n v, env_getitem environ n = Ok v ->
  exists m r, In (m, v) (env_iter environ) /\ as_variable n r /\ as_variable m r.
Proof. exact env_found_listed. Qed.
Print Assumptions C41_found_listed.

(** What is listed for a variable is found under the name it is listed with if the variable
    has no small letters and no hyphens; otherwise only another variable's value can be.
    The other variables do not matter. *)
Theorem C41_listed_found_exact : forall environ k v, NoDup (map fst environ) -> In (k, v) environ -> header_var k ->
  exists n, In (n, v) (env_iter environ) /\
    (no_small k -> env_getitem environ n = Ok v) /\
    (~ no_small k -> forall w, env_getitem environ n = Ok w -> exists k', k' <> k /\ In (k', w) environ).
Proof.
  intros environ k v D H E. apply ProofWsgi.header_var_spec in E. destruct E as [n E]. exists n.
  split; [eapply env_iter_intro; eauto|]. split; [eapply env_listed_found|eapply env_lost]; eauto.
Qed.
Print Assumptions C41_listed_found_exact.

Example C41_exact_example :
  let environ := [(lit "HTTP_X_FOO", lit "1"); (lit "HTTP_x_bar", lit "2"); (lit "CONTENT_TYPE", lit "t");
                  (lit "HTTP_CONTENT_TYPE", lit "u"); (lit "PATH_INFO", lit "/")] in
  NoDup (map fst environ) /\
  env_iter environ = [(lit "X-Foo", lit "1"); (lit "X-Bar", lit "2"); (lit "Content-Type", lit "t")] /\
  env_getitem environ (lit "x-fOO") = Ok (lit "1") /\ env_getitem environ (lit "X_Foo") = Ok (lit "1") /\
  env_getitem environ (lit "X-Bar") = Raise KeyError /\ env_getitem environ (lit "content-type") = Ok (lit "t") /\
  variable_of (lit "x-f") (lit "HTTP_X_F") /\ header_var (lit "HTTP_x_bar") /\ ~ no_small (lit "HTTP_x_bar").
Proof.
  cbv zeta. split; [repeat constructor; cbn; intuition discriminate|]. repeat split; try (vm_compute; reflexivity).
  - exists (lit "X_F"). split.
    + cbn. repeat constructor; unfold var_char; lia.
    + right. split; [intros [H|H]; discriminate H|reflexivity].
  - left. exists (lit "x_bar"). repeat split; discriminate.
  - intros H. destruct (H 120) as [A _]; [cbn; tauto|]. lia.
Qed.
