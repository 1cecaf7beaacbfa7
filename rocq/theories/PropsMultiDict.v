(** C01: MultiDict; C07: typed lookup. *)
From Coq Require Import Arith List NArith ZArith Bool.
From Verif Require Import PyStr PyStrFacts ModelMultiDict SpecMultiDict ProofMultiDict.
Import ListNotations.
Open Scope N_scope.

(** C01, for histories that store no empty list (missing: those, see the refutations).  The
    dict is built from pairs, a dict or another MultiDict; then come any calls; every call
    returns or raises what the reference does, and all reads afterwards agree. *)
Theorem C01_refines_partial : forall (V : Type) (s : source V) (ops : list (mop V)),
  full_source s -> Forall full_call ops ->
  let m0 := fold_left append (pairs_of s) mm_empty in
  snd (m_run (m_init s) ops) = snd (mm_run m0 ops) /\ reads_agree (fst (m_run (m_init s) ops)) (fst (mm_run m0 ops)).
Proof. exact @multidict_refines. Qed.
Print Assumptions C01_refines_partial.
Example C01_example :
  let s := SDict [(lit "a", Many [1; 2]); (lit "b", One 3)] : source N in
  let ops := [MAdd (lit "c") 4; MAdd (lit "a") 5; MSet (lit "b") 6; MPopItem; MUpdate (SPairs [(lit "d", 7); (lit "a", 8)]);
              MPop (lit "x") None; MPop (lit "x") (Some 9); MSetDefault (lit "a") 0; MDel (lit "b")] in
  full_source s /\ Forall full_call ops /\
  m_run (m_init s) ops =
    ([(lit "a", [1; 2; 5; 8]); (lit "d", [7])],
     [Ok RetNone; Ok RetNone; Ok RetNone; Ok (RetItem (lit "c") 4); Ok RetNone; Raise KeyError; Ok (RetVal 9); Ok (RetVal 1); Ok RetNone]) /\
  m_items (fst (m_run (m_init s) ops)) = Ok [(lit "a", 1); (lit "d", 7)].
Proof.
  cbv zeta. split; [split; [|repeat constructor]|split; [repeat constructor|vm_compute; auto]].
  constructor; [intros [H|[]]; discriminate|]. constructor; [auto|constructor].
Qed.
(** Finding: a key with an empty list is there but has no value: reads raise IndexError, and
    pop removes the key before it raises. *)
Theorem C01_empty_list_refuted : exists (ops : list (mop N)) (k : str),
  let d := fst (m_run [] ops) in
  m_contains d k = true /\ m_getitem d k = Raise IndexError /\ m_items d = Raise IndexError /\
  m_get d k (fun v => Ok v) 0 = Raise IndexError /\
  m_step d (MPop k (Some 1)) = ([], Raise IndexError).
Proof. exists [MSetList (lit "a") []], (lit "a"). vm_compute. auto. Qed.
(** Finding: updating a MultiDict with itself never ends, whatever non-empty content. *)
Theorem C01_update_self_refuted : forall (V : Type) (d : mdict V),
  NoDup (map fst d) -> Forall (fun kl => snd kl <> []) d -> d <> [] -> forall fuel, update_self fuel d 0 0 = None.
Proof. exact @update_self_never. Qed.
(** Exactly: it ends if there is no value at all, and then changes nothing. *)
Theorem C01_update_self_exact_refuted : forall (V : Type) (d : mdict V), NoDup (map fst d) ->
  ((exists k vs, In (k, vs) d /\ vs <> []) -> forall fuel, update_self fuel d 0 0 = None)
  /\ ((forall k vs, In (k, vs) d -> vs = []) -> forall fuel, (length d < fuel)%nat -> update_self fuel d 0 0 = Some d).
Proof. exact @update_self_exact. Qed.
Print Assumptions C01_update_self_exact_refuted.
Example C01_update_self_example : update_self 3 [(lit "a", []); (lit "b", [])] 0 0 = Some [(lit "a", @nil N); (lit "b", [])]
  /\ update_self 100 [(lit "a", []); (lit "b", [1])] 0 0 = None.
Proof. vm_compute. auto. Qed.
Print Assumptions C01_empty_list_refuted.
Print Assumptions C01_update_self_refuted.

(** C07 for plain dicts; missing: conversions that raise KeyError, see the refutation. *)
Theorem C07_dict_partial : forall (V W : Type) (d : dict V) (k : str) (conv : V -> res W) (default : W),
  (forall v, conv v <> Raise KeyError) ->
  match dget d k with
  | None => t_get d k conv default = Ok default
  | Some v =>
      match conv v with
      | Ok w => t_get d k conv default = Ok w
      | Raise ValueError | Raise UnicodeError => t_get d k conv default = Ok default
      | Raise e => t_get d k conv default = Raise e
      end
  end.
Proof.
  intros V W d k conv default H. unfold t_get.
  pose proof (get_typed_spec (match dget d k with Some v => Ok v | None => Raise KeyError end) conv default _ eq_refl (fun v _ => H v)) as S.
  destruct (dget d k) as [v|]; [|exact S]. destruct (conv v) as [w|[]]; exact S.
Qed.
(** C07 for multi dicts without empty lists: the first value counts. *)
Theorem C07_multidict_partial : forall (V W : Type) (d : mdict V) (k : str) (conv : V -> res W) (default : W),
  (forall v, conv v <> Raise KeyError) -> dget d k <> Some [] ->
  match m_getlist d k with
  | [] => m_get d k conv default = Ok default
  | v :: _ =>
      match conv v with
      | Ok w => m_get d k conv default = Ok w
      | Raise ValueError | Raise UnicodeError => m_get d k conv default = Ok default
      | Raise e => m_get d k conv default = Raise e
      end
  end.
Proof.
  intros V W d k conv default H Hl. unfold m_get, m_getlist.
  pose proof (get_typed_spec (m_getitem d k) conv default _ eq_refl (fun v _ => H v)) as S.
  unfold m_getitem in *. destruct (dget d k) as [[|v l]|]; [contradiction Hl; reflexivity| |exact S]. cbn [first] in *.
  destruct (conv v) as [w|[]]; exact S.
Qed.
(** C07: getlist keeps the values that can be converted, in order; the first other error
    propagates. *)
Theorem C07_getlist : forall (V W : Type) (d : mdict V) (k : str) (conv : V -> res W),
  (forall v e, In v (m_getlist d k) -> conv v = Raise e -> e = ValueError \/ e = UnicodeError) ->
  m_getlist_typed d k conv = Ok (flat_map (fun v => match conv v with Ok w => [w] | Raise _ => [] end) (m_getlist d k)).
Proof.
  intros V W d k conv H. unfold m_getlist_typed, m_getlist in *. destruct (dget d k) as [l|]; auto. apply convert_all_spec.
  intros v e Hi He. destruct (H v e Hi He); subst; reflexivity.
Qed.
Theorem C07_getlist_raises : forall (V W : Type) (d : mdict V) (k : str) (conv : V -> res W) (a : list V) (v : V) (b : list V) (e : exn),
  m_getlist d k = a ++ v :: b ->
  (forall u x, In u a -> conv u = Raise x -> x = ValueError \/ x = UnicodeError) ->
  conv v = Raise e -> e <> ValueError -> e <> UnicodeError -> m_getlist_typed d k conv = Raise e.
Proof.
  intros V W d k conv a v b e Hl Ha Hv H1 H2. unfold m_getlist_typed, m_getlist in *.
  destruct (dget d k) as [l|]; [subst l|destruct a; discriminate]. apply convert_all_raise; auto.
  - intros u x Hi Hx. destruct (Ha u x Hi Hx); subst; reflexivity.
  - destruct e; auto; contradiction.
Qed.
(** Finding: a KeyError of the conversion function is taken for a missing key. *)
Theorem C07_key_error_refuted : exists (d : dict N) (k : str) (conv : N -> res N),
  dget d k = Some 1 /\ conv 1 = Raise KeyError /\ t_get d k conv 5 = Ok 5.
Proof. exists [(lit "a", 1)], (lit "a"), (fun _ => Raise KeyError). vm_compute. auto. Qed.
Print Assumptions C07_dict_partial.
Print Assumptions C07_multidict_partial.
Print Assumptions C07_getlist.
Print Assumptions C07_getlist_raises.
Print Assumptions C07_key_error_refuted.
Definition to_int (s : str) : res Z := match py_int s with Some z => Ok z | None => Raise ValueError end.
(** C07, with all conversions and empty lists: the default comes exactly for a missing
    key and for a conversion that raises ValueError, UnicodeError or, against the claim,
    KeyError; every other error of the conversion goes out, and an empty list is an
    IndexError. *)
Theorem C07_multidict_exact : forall (V W : Type) (d : mdict V) (k : str) (conv : V -> res W) (default w : W),
  (m_get d k conv default = Ok w <->
     (w = default /\ dget d k = None) \/
     (exists v l, dget d k = Some (v :: l) /\
       (conv v = Ok w \/ (w = default /\ exists e, conv v = Raise e /\ In e [KeyError; ValueError; UnicodeError])))) /\
  (forall e, m_get d k conv default = Raise e <->
     (e = IndexError /\ dget d k = Some []) \/
     (exists v l, dget d k = Some (v :: l) /\ conv v = Raise e /\ ~ In e [KeyError; ValueError; UnicodeError])).
Proof.
  intros V W d k conv default w. unfold m_get, m_getitem, get_typed. destruct (dget d k) as [[|v l]|]; cbn [first bind is_key_error is_value_error orb].
  - split.
    + split; [discriminate|]. intros [[_ X]|(v & l & X & _)]; discriminate.
    + intros e. split; [intros H; left; split; [congruence|reflexivity]|]. intros [[-> _]|(v & l & X & _)]; [reflexivity|discriminate].
  - destruct (conv v) as [x|e0] eqn:C.
    + split.
      * split; [intros H; right; exists v, l; split; [reflexivity|left; congruence]|].
        intros [[_ X]|(v' & l' & X & [H|(-> & e & H & _)])]; [discriminate| |]; assert (v' = v) by congruence; subst v'; congruence.
      * intros e. split; [discriminate|]. intros [[_ X]|(v' & l' & X & H & _)]; [discriminate|]. assert (v' = v) by congruence; subst v'; congruence.
    + assert (B : is_key_error e0 || is_value_error e0 = true <-> In e0 [KeyError; ValueError; UnicodeError]).
      { destruct e0; cbn; intuition (discriminate || auto). }
      destruct (is_key_error e0 || is_value_error e0) eqn:E.
      * split.
        -- split; [intros H; right; exists v, l; split; [reflexivity|]; right; split; [congruence|]; exists e0; split; [exact C|apply B; reflexivity]|].
           intros [[-> _]|(v' & l' & X & [H|(-> & _)])]; [reflexivity| |reflexivity]. assert (v' = v) by congruence; subst v'; congruence.
        -- intros e. split; [discriminate|]. intros [[_ X]|(v' & l' & X & H & N)]; [discriminate|]. assert (v' = v) by congruence; subst v'.
           assert (e = e0) by congruence. subst. exfalso. apply N. apply B. reflexivity.
      * assert (N : ~ In e0 [KeyError; ValueError; UnicodeError]) by (intros X; apply B in X; discriminate). split.
        -- split; [discriminate|]. intros [[_ X]|(v' & l' & X & [H|(-> & e & H & I)])]; [discriminate| |]; assert (v' = v) by congruence; subst v'; [congruence|].
           assert (e = e0) by congruence. subst. contradiction.
        -- intros e. split.
           ++ intros H. right. exists v, l. split; [reflexivity|]. assert (e0 = e) by congruence. subst. auto.
           ++ intros [[_ X]|(v' & l' & X & H & _)]; [discriminate|]. assert (v' = v) by congruence; subst v'. congruence.
  - split.
    + split; [intros H; left; split; [congruence|reflexivity]|]. intros [[-> _]|(v & l & X & _)]; [reflexivity|discriminate].
    + intros e. split; [discriminate|]. intros [[_ X]|(v & l & X & _)]; discriminate.
Qed.
Print Assumptions C07_multidict_exact.
Example C07_example :
  let d := [(lit "foo", [lit "42"; lit "x"; lit "7"]); (lit "bar", [lit "blub"])] in
  m_get d (lit "foo") to_int 0%Z = Ok 42%Z /\ m_get d (lit "bar") to_int (-1)%Z = Ok (-1)%Z /\ m_get d (lit "no") to_int 3%Z = Ok 3%Z /\
  m_getlist_typed d (lit "foo") to_int = Ok [42%Z; 7%Z] /\
  m_get d (lit "bar") (fun _ => Raise TypeError) 0%Z = Raise TypeError.
Proof. vm_compute. auto. Qed.
