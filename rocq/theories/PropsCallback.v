(** C05: immutable containers; C06: change callbacks and the mirrored header. *)
From Coq Require Import Arith List NArith ZArith Bool.
From Verif Require Import PyStr PyStrFacts ModelQuote ModelHeaders ModelRange ModelCallback SpecHeaders SpecCallback ProofCallback.
Import ListNotations.
Open Scope N_scope.

(** C05: whatever the class without the mixin would do, any sequence of mutating calls raises
    TypeError each time and leaves the content as it was.  Missing: one method of each
    container, see the refutation. *)
Theorem C05_unchanged_partial : forall (S A R : Type) (base : str -> A -> S -> S * res R) (c : container) (s : S) (calls : list (str * A)),
  Forall (fun call => In (fst call) (mutators c) /\ fst call <> open_mutator c) calls ->
  imm_run base c s calls = (s, map (fun _ => Raise TypeError) calls).
Proof. exact @imm_unchanged. Qed.
Example C05_example :
  let calls := [(lit "append", 1); (lit "pop", 2); (lit "__setitem__", 3)] in
  Forall (fun call => In (fst call) (mutators ImmList) /\ fst call <> open_mutator ImmList) calls /\
  imm_run (fun _ (a : N) (s : list N) => (a :: s, Ok a)) ImmList [7] calls = ([7], [Raise TypeError; Raise TypeError; Raise TypeError]).
Proof. cbv zeta. split; [|reflexivity]. repeat constructor; cbn; auto 20; discriminate. Qed.
(** Finding: ImmutableList and the immutable headers do not override clear, the dict-like
    containers do not override the in-place union: there the underlying class acts. *)
Theorem C05_open_refuted : forall (S A R : Type) (base : str -> A -> S -> S * res R) (c : container) (s : S) (a : A),
  In (open_mutator c) (mutators c) /\ imm_call base c s (open_mutator c, a) = base (open_mutator c) a s.
Proof. exact @imm_open. Qed.
Theorem C05_clear_refuted :
  let list_base := fun (name : str) (_ : unit) (s : list N) => if eqs name (lit "clear") then ([], Ok tt) else (s, Raise AttributeError) in
  imm_call list_base ImmList [1; 2] (lit "clear", tt) = ([], Ok tt).
Proof. reflexivity. Qed.
Print Assumptions C05_unchanged_partial.
Print Assumptions C05_open_refuted.
Print Assumptions C05_clear_refuted.

(** C06, one call: the content becomes what a plain dict would hold; either nothing changed
    and nobody was called, or the plain call succeeded and the callback ran once, on the
    content after the change.  Missing: updates that fail half way and in-place unions. *)
Theorem C06_call_partial : forall (V X : Type) (on_update : X -> dict V -> X * option exn) (d : dict V) (x : X) (o : dop V),
  covered o ->
  let '(d', x', r) := cb_step on_update d x o in
  d' = fst (plain d o) /\
  ((d' = d /\ x' = x /\ r = snd (plain d o)) \/
   (exists y, snd (plain d o) = Ok y /\ x' = fst (on_update x d') /\
      r = match snd (on_update x d') with None => Ok y | Some e => Raise e end)).
Proof. exact @step_cb. Qed.
(** C06, histories: what the callback writes from the dict is in step with it after any
    sequence of calls. *)
Theorem C06_mirror_partial : forall (V X : Type) (f : dict V -> X) (ops : list (dop V)) (d : dict V) (x : X),
  Forall covered ops ->
  let (d', x') := cb_run (fun _ d => (f d, None)) d x ops in (d' = d /\ x' = x) \/ x' = f d'.
Proof. intros V X f ops d x H. exact (run_cb (fun _ d => (f d, None)) f (fun _ _ => eq_refl) ops d x H). Qed.
(** C06, Response.cache_control: after any attribute and dict calls with texts that fit on
    one line, the response has the Cache-Control line written from the final content, or no
    call had any effect; no other header changed. *)
Theorem C06_cache_control_partial : forall (l : list ccall) (d : ccdict) (h : headers),
  Forall tidy_pair d -> Forall tidy_call l ->
  let (d', h') := cc_calls d h l in
  (forall k, ~ same_name k (lit "cache-control") -> h_getlist h' k = h_getlist h k) /\
  ((d' = d /\ h' = h) \/ mirrors h' d').
Proof. exact cc_calls_mirror. Qed.
(** The attributes act on the content as C20 describes. *)
Theorem C06_attributes : forall (d : ccdict) (h : headers) (p : cc_prop) (v : pyval),
  (forall d', cc_set p v d = Ok d' -> fst (cc_call d h (CAttr (CCSet p v))) = d') /\
  fst (cc_call d h (CAttr (CCDel p))) = cc_del p d.
Proof. exact attr_same. Qed.
Example C06_example :
  let p := CP (lit "max-age") (PInt (-1)) TInt in
  let q := CP (lit "no-store") PNone TBool in
  let l := [CAttr (CCSet p (PInt 60)); CAttr (CCSet q PTrue); CDict (DPop (lit "x") None); CAttr (CCDel p)] in
  Forall tidy_call l /\
  cc_calls [] [(lit "ETag", lit "a")] l = ([(lit "no-store", PNone)], [(lit "ETag", lit "a"); (lit "Cache-Control", lit "no-store")]) /\
  cc_calls [] [(lit "ETag", lit "a")] (l ++ [CDict DClear]) = ([], [(lit "ETag", lit "a")]).
Proof.
  cbv zeta. split; [|vm_compute; auto]. repeat constructor; cbn; auto; intros X; repeat (destruct X as [X|X]; [discriminate|]); exact X.
Qed.
(** Findings: an update that fails half way, and an in-place union, change the dict without a
    call; a value with a line break changes the dict although the header cannot be written. *)
Theorem C06_refuted : exists (d : dict N) (o1 o2 : dop N),
  cb_step (fun _ d => (d, None)) d d o1 = ([(lit "a", 1)], [], Raise TypeError) /\
  cb_step (fun _ d => (d, None)) d d o2 = ([(lit "a", 1)], [], Ok RNone).
Proof. exists [], (DUpdate [(lit "a", 1)] (Some TypeError)), (DIor [(lit "a", 1)]). vm_compute. auto. Qed.
Theorem C06_line_break_refuted : exists (h : headers) (o : dop pyval),
  cb_step cc_on_update [] h o = ([(lit "a", PStr [10])], h, Raise ValueError) /\ h_getlist h (lit "cache-control") = [].
Proof. exists [], (DSet (lit "a") (PStr [10])). vm_compute. auto. Qed.
Print Assumptions C06_call_partial.
Print Assumptions C06_mirror_partial.
Print Assumptions C06_cache_control_partial.
Print Assumptions C06_attributes.
Print Assumptions C06_refuted.
Print Assumptions C06_line_break_refuted.
