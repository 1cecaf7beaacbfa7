(** More about claims C20, C64, C65 and C120: the words of the cache control attributes, url_for,
    JSON views, the width of integers. *)
From Coq Require Import Arith List NArith ZArith Bool Lia Permutation Sorted.
From Verif Require Import PyStr PyStrFacts.
From Verif Require ModelRange ModelAccept ModelDispatch ModelFactory SpecFactory ModelRoute SpecRoute ModelUrlMap SpecUrlMap ProofUrlMap PropsUrlMap ModelApplication.
Import ListNotations.
Open Scope N_scope.

(** ** C20: the attributes of response cache control *)
Section C20.
Import ModelRange.
Definition flag_words : list str := [lit "no-store"; lit "public"; lit "must-revalidate"; lit "proxy-revalidate"].
Definition value_words : list str := [lit "no-cache"; lit "max-age"; lit "no-transform"; lit "private"; lit "s-maxage"].
(** There is an attribute for each of these words and no other; the flags are those that
    stand alone: switched on, the word is the header, switched off again, nothing is. *)
Theorem C20_words :
  (forall w, In w (flag_words ++ value_words) <-> exists p, In p response_props /\ cp_key p = w) /\
  (forall p, In p response_props -> In (cp_key p) flag_words ->
     exists d, cc_set p PTrue [] = Ok d /\ cc_to_header d = cp_key p /\ cc_set p PFalse d = Ok []).
Proof.
  split.
  - intros w. assert (M : (exists p, In p response_props /\ cp_key p = w) <-> In w (map cp_key response_props)).
    { rewrite in_map_iff. split; intros (p & A & B); exists p; auto. }
    rewrite M. unfold response_props, flag_words, value_words. cbn [map cp_key app In]. tauto.
  - intros p Hp Hw. cbn [response_props In] in Hp.
    repeat (destruct Hp as [<-|Hp]; [first [eexists; split; [reflexivity|]; split; vm_compute; reflexivity
      |exfalso; cbn [flag_words In cp_key] in Hw; repeat (destruct Hw as [Hw|Hw]; [discriminate Hw|]); exact Hw]|]). destruct Hp.
Qed.
End C20.
Print Assumptions C20_words.
Example C20_words_example : exists p, In p ModelRange.response_props /\ ModelRange.cp_key p = lit "must-revalidate" /\
  In (ModelRange.cp_key p) flag_words.
Proof. eexists. split; [cbn [ModelRange.response_props In]; do 6 right; left; reflexivity|]. split; [reflexivity|]. cbn. auto. Qed.

(** ** C120: JSON views *)
Section C120.
Import ModelAccept ModelDispatch ModelFactory SpecFactory.
Definition asked_methods (m : methods) (x : str) : Prop :=
  match m with MNone => x = lit "GET" | MStr s => x = s | MList l => In x l end.
(** A JSON view is bound for each of its methods, once, to its action, as application/json
    in no language and no charset. *)
Theorem C120_json : forall order name action m qs, some_order order ->
  let l := view_yields order (new_json_view name action m qs) in
  NoDup (map b_method l) /\ (forall x, In x (map b_method l) <-> asked_methods m x) /\
  forall b, In b l -> b_name b = name /\ r_self (b_repr b) = action /\
    option_map v_text (r_content_type (b_repr b)) = Some (lit "application/json") /\
    r_language (b_repr b) = None /\ r_charset (b_repr b) = None.
Proof.
  intros order name action m qs O l.
  assert (E : map b_method l = order (method_set m)).
  { unfold l, view_yields, new_json_view, new_view. cbn [w_methods]. rewrite map_map. cbn [b_method]. apply map_id. }
  assert (S : forall ms x, In x (to_set ms) <-> In x ms).
  { induction ms as [|y ms IH]; intros x; [reflexivity|]. cbn [to_set]. destruct (existsb (eqs y) (to_set ms)) eqn:D; cbn [In].
    - rewrite IH. split; [auto|]. intros [<-|H]; [|exact H]. apply existsb_exists in D as (z & Hz & D). apply eqs_eq in D. subst z. apply IH. exact Hz.
    - rewrite IH. reflexivity. }
  assert (N : forall ms, NoDup (to_set ms)).
  { induction ms as [|y ms IH]; [constructor|]. cbn [to_set]. destruct (existsb (eqs y) (to_set ms)) eqn:D; [exact IH|]. constructor; [|exact IH].
    intros H. apply not_true_iff_false in D. apply D. apply existsb_exists. exists y. split; [exact H|apply eqs_refl]. }
  rewrite E. split; [|split].
  - apply (Permutation_NoDup (Permutation_sym (O (method_set m)))). destruct m; cbn [method_set]; [repeat constructor; auto|repeat constructor; auto|apply N].
  - intros x. transitivity (In x (method_set m)).
    + split; apply Permutation_in; [apply O|apply Permutation_sym, O].
    + destruct m as [|s|ms]; cbn [method_set asked_methods]; [cbn [In]; intuition congruence|cbn [In]; intuition congruence|apply S].
  - intros b Hb. unfold l, view_yields in Hb. apply in_map_iff in Hb as (x & <- & _). repeat split.
Qed.
End C120.
Print Assumptions C120_json.
Example C120_json_example :
  let l := ModelFactory.view_yields (@rev str) (ModelFactory.new_json_view (lit "api") 7 (ModelFactory.MList [lit "PUT"; lit "GET"; lit "PUT"]) None) in
  SpecFactory.some_order (@rev str) /\ map ModelDispatch.b_method l = [lit "PUT"; lit "GET"].
Proof. split; [intros l; apply Permutation_sym, Permutation_rev|vm_compute; reflexivity]. Qed.

(** ** C65: url_for of an application *)
Section C65.
Import ModelRoute SpecRoute ModelUrlMap SpecUrlMap ProofUrlMap ModelApplication.
(** Values without a place in the route are not lost: routes are asked as in C65_build, with
    append_unknown on and force_external off. *)
Theorem C65_url_for : forall ip_ok nfkc_ok mk g p e vals values, made mk g (a_map (p_adapter p)) -> given vals values ->
  exists l, Permutation l (filter (fun b => eqs (r_endpoint (b_route b)) e) (m_routes (a_map (p_adapter p)))) /\
    ((snd (url_for ip_ok nfkc_ok p e vals) = Raise BuildError /\ forall b, In b l -> refused values true b) \/
     exists l1 b l2, l = l1 ++ b :: l2 /\ (forall x, In x l1 -> refused values true x) /\ suits (b_route b) values /\
       ((exists d path, route_build (b_route b) values true = Ok (Some (d, path)) /\
          (a_scheme (p_adapter p) <> [] -> ends [47] (a_script (p_adapter p)) = true -> get_host (p_adapter p) (Some d) <> [] ->
           (g_host_matching (m_config (a_map (p_adapter p))) = false -> a_subdomain (p_adapter p) <> None) ->
           addressed ip_ok nfkc_ok (p_adapter p) false d path (snd (url_for ip_ok nfkc_ok p e vals)))) \/
        (exists x, route_build (b_route b) values true = Raise x /\ snd (url_for ip_ok nfkc_ok p e vals) = Raise x))).
Proof.
  intros ip_ok nfkc_ok mk g p e vals values M G.
  assert (E : snd (url_for ip_ok nfkc_ok p e vals) = snd (build ip_ok nfkc_ok (p_adapter p) e vals false true)).
  { unfold url_for. destruct (build ip_ok nfkc_ok (p_adapter p) e vals false true). reflexivity. }
  rewrite E. destruct (PropsUrlMap.C65_build_partial ip_ok nfkc_ok mk g (p_adapter p) e vals values false true M G) as (l & H1 & _ & H2).
  exists l. split; [exact H1|exact H2].
Qed.
End C65.
Print Assumptions C65_url_for.
Example C65_url_for_example :
  let p := ModelApplication.mk_application (PropsUrlMap.ex_adapter (PropsUrlMap.ex_map PropsUrlMap.ex_build_map)) ModelDispatch.new_dispatcher [] in
  SpecUrlMap.made PropsUrlMap.ex_mk PropsUrlMap.ex_config (ModelUrlMap.a_map (ModelApplication.p_adapter p)) /\
  snd (ModelApplication.url_for PropsUrlMap.yes PropsUrlMap.yes p (lit "blog") [(lit "year", Some (ModelRoute.VInt 2014)); (lit "q", Some (ModelRoute.VStr (lit "a b")))]) =
    Ok (lit "/2014/?q=a+b").
Proof. split; [apply PropsUrlMap.made_first; vm_compute; reflexivity|]. vm_compute. reflexivity. Qed.

(** ** C64: what is written for an integer *)
Section C64.
Import ModelRoute.
(** Every integer is written as its sign, zeros and its digits; there are no more zeros than
    the fixed width asks for, and the sign counts as a digit. *)
Theorem C64_written : forall fixed mn mx z, exists k,
  let sign := if (z <? 0)%Z then lit "-" else [] in
  let plain := sign ++ dec (Z.abs_N z) in
  c_to_url (conv_int fixed mn mx) (VInt z) = Ok (Some (sign ++ repeat 48 k ++ dec (Z.abs_N z))) /\
  (k + length plain = Nat.max fixed (length plain))%nat.
Proof.
  intros fixed mn mx z. cbn [conv_int c_to_url]. unfold int_to_url. cbn [int_of_value bind].
  assert (A : (z <? 0)%Z = true -> Z.to_N (- z) = Z.abs_N z) by lia. assert (B : (z <? 0)%Z = false -> Z.to_N z = Z.abs_N z) by lia.
  destruct (Nat.eqb_spec fixed 0) as [->|F].
  - exists 0%nat. cbv zeta. split; [|lia]. destruct z as [|p|p]; reflexivity.
  - unfold zero_pad. destruct (z <? 0)%Z eqn:E.
    + rewrite (A eq_refl). eexists. cbv zeta. split; [reflexivity|]. rewrite app_length. change (length (lit "-")) with 1%nat. lia.
    + rewrite (B eq_refl). eexists. cbv zeta. split; [reflexivity|]. cbn [app]. lia.
Qed.
End C64.
Print Assumptions C64_written.
Example C64_written_example :
  ModelRoute.c_to_url (ModelRoute.conv_int 4 None None) (ModelRoute.VInt (-7)) = Ok (Some (lit "-007")) /\
  ModelRoute.c_to_url (ModelRoute.conv_int 2 None None) (ModelRoute.VInt 1234) = Ok (Some (lit "1234")).
Proof. vm_compute. auto. Qed.
