(** Proofs about JSON. *)
From Coq Require Import Arith List NArith ZArith Bool Lia ZifyBool ZifyN ZifyNat.
From Verif Require Import PyStr PyStrFacts ModelQuote ModelHeaders SpecHeaders ModelResponse SpecResponse ModelRespond SpecRespond ProofRespond
  ModelJson SpecJson.
Import ListNotations.
Open Scope N_scope.
Ltac Zify.zify_post_hook ::= Z.div_mod_to_equations.

Scheme received_m := Induction for received Sort Prop
  with receiveds_m := Induction for receiveds Sort Prop
  with receivedd_m := Induction for receivedd Sort Prop.
Combined Scheme received_ind3 from received_m, receiveds_m, receivedd_m.

(** ** Texts *)
Lemma hex_value_digit n : n < 16 -> hex_value (hex_digit n) = Some n.
Proof.
  intros H. unfold hex_digit, hex_value. destruct (n <? 10) eqn:E.
  - replace ((48 <=? 48 + n) && (48 + n <=? 57)) with true by lia. f_equal. lia.
  - replace ((48 <=? 87 + n) && (87 + n <=? 57)) with false by lia.
    replace ((97 <=? 87 + n) && (87 + n <=? 102)) with true by lia. f_equal. lia.
Qed.
Lemma hex4_digits n : n < 65536 ->
  hex4 (hex_digit (n / 4096)) (hex_digit (n / 256 mod 16)) (hex_digit (n / 16 mod 16)) (hex_digit (n mod 16)) = Some n.
Proof. intros H. unfold hex4. rewrite !hex_value_digit by lia. f_equal. lia. Qed.
Lemma scan_u n t : n < 65536 -> high n = false -> scan_text (u_escape n ++ t) = put n (scan_text t).
Proof.
  intros H Hh. unfold u_escape. cbn [app].
  assert (E : forall a b c d, scan_text (92 :: 117 :: a :: b :: c :: d :: t) =
    match hex4 a b c d with
     | None => None
     | Some n => match t with
                 | x :: u :: g1 :: g2 :: g3 :: g4 :: r2 =>
                    if high n && (x =? 92) && (u =? 117) then
                      match hex4 g1 g2 g3 g4 with
                      | None => None
                      | Some m => if low m then put (65536 + (n - 55296) * 1024 + (m - 56320)) (scan_text r2) else put n (scan_text t)
                      end
                    else put n (scan_text t)
                 | _ => put n (scan_text t)
                 end
     end) by reflexivity.
  rewrite E, hex4_digits, Hh by auto. cbn [andb]. destruct t as [|? [|? [|? [|? [|? [|? ?]]]]]]; reflexivity.
Qed.
Lemma scan_pair n m t : 55296 <= n <= 56319 -> 56320 <= m <= 57343 ->
  scan_text (u_escape n ++ u_escape m ++ t) = put (65536 + (n - 55296) * 1024 + (m - 56320)) (scan_text t).
Proof.
  intros Hn Hm. unfold u_escape. cbn [app].
  assert (E : forall a b c d e f g h, scan_text (92 :: 117 :: a :: b :: c :: d :: 92 :: 117 :: e :: f :: g :: h :: t) =
    match hex4 a b c d with
     | None => None
     | Some n => if high n && true && true then
                      match hex4 e f g h with
                      | None => None
                      | Some m => if low m then put (65536 + (n - 55296) * 1024 + (m - 56320)) (scan_text t)
                                  else put n (scan_text (92 :: 117 :: e :: f :: g :: h :: t))
                      end
                    else put n (scan_text (92 :: 117 :: e :: f :: g :: h :: t))
     end) by reflexivity.
  rewrite E, !hex4_digits by lia. unfold high, low.
  replace ((55296 <=? n) && (n <=? 56319) && true && true) with true by lia.
  replace ((56320 <=? m) && (m <=? 57343)) with true by lia. reflexivity.
Qed.
Lemma scan_char c t : c < 1114112 /\ ~ (55296 <= c <= 57343) -> scan_text (escape_char c ++ t) = put c (scan_text t).
Proof.
  intros [H1 H2]. unfold escape_char.
  destruct (c =? 34) eqn:E; [apply N.eqb_eq in E; subst; reflexivity|].
  destruct (c =? 92) eqn:E1; [apply N.eqb_eq in E1; subst; reflexivity|].
  destruct (c =? 10) eqn:E2; [apply N.eqb_eq in E2; subst; reflexivity|].
  destruct (c =? 13) eqn:E3; [apply N.eqb_eq in E3; subst; reflexivity|].
  destruct (c =? 9) eqn:E4; [apply N.eqb_eq in E4; subst; reflexivity|].
  destruct (c =? 12) eqn:E5; [apply N.eqb_eq in E5; subst; reflexivity|].
  destruct (c =? 8) eqn:E6; [apply N.eqb_eq in E6; subst; reflexivity|].
  destruct ((32 <=? c) && (c <=? 126)) eqn:E7.
  - cbn [app scan_text]. rewrite E, E1. replace (c <? 32) with false by lia. reflexivity.
  - destruct (c <? 65536) eqn:E8.
    + apply scan_u; [lia|]. unfold high. lia.
    + cbv zeta. rewrite <- app_assoc, scan_pair by lia. f_equal. lia.
Qed.
Lemma scan_encoded s : unicode s -> forall t, scan_text (flat_map escape_char s ++ 34 :: t) = Some (s, t).
Proof.
  induction 1 as [|c s H F IH]; intros t; [reflexivity|]. cbn [flat_map]. rewrite <- app_assoc, scan_char by auto. rewrite IH. reflexivity.
Qed.

(** ** Numbers *)
Definition stop (r : str) : Prop := match r with [] => True | c :: _ => In c [10; 44; 93; 125] end.
Lemma stop_digit r : stop r -> match r with [] => True | c :: _ => is_dig c = false end.
Proof. destruct r as [|c r]; auto. cbn. intros [<-|[<-|[<-|[<-|[]]]]]; reflexivity. Qed.
Lemma stop_fraction r : stop r -> fraction r = false.
Proof. destruct r as [|c r]; auto. cbn [stop In]. intros [<-|[<-|[<-|[<-|[]]]]]; destruct r; reflexivity. Qed.
Lemma span_all d r : forallb is_ascii_digit d = true -> stop r -> span_digits (d ++ r) = (d, r).
Proof.
  intros H S. induction d as [|c d IH]; cbn [app span_digits].
  - apply stop_digit in S. destruct r as [|c r]; auto. cbn [span_digits]. rewrite S. reflexivity.
  - cbn [forallb] in H. apply andb_true_iff in H as [Hc H].
    assert (E : is_dig c = true) by (unfold is_ascii_digit, between in Hc; unfold is_dig; lia). rewrite E, IH by auto. reflexivity.
Qed.
Lemma natural_dec n r : stop r -> natural (dec n ++ r) = Some (Z.of_N n, r).
Proof.
  intros S. unfold natural. rewrite span_all by auto using dec_digits. pose proof (dec_nonnil n) as N. pose proof (py_int_dec n) as P.
  pose proof (dec_nozero n) as Z. pose proof (dec_val n) as V. destruct (dec n) as [|c ds]; [contradiction|].
  destruct (c =? 48) eqn:E; [|rewrite P; reflexivity]. apply N.eqb_eq in E. subst c. rewrite (Z ds eq_refl) in *. cbn in V |- *. subst n. reflexivity.
Qed.
Lemma scan_dec n r : stop r -> scan_number (dec n ++ r) = Some (Z.of_N n, r).
Proof.
  intros S. pose proof (natural_dec n r S) as D. pose proof (dec_digits n) as G.
  pose proof (dec_nonnil n) as N. destruct (dec n) as [|c ds]; [contradiction|].
  cbn [app scan_number] in *. cbn [forallb] in G. apply andb_true_iff in G as [G _]. unfold is_ascii_digit, between in G.
  replace (c =? 45) with false by lia. rewrite D, stop_fraction by auto. reflexivity.
Qed.
Lemma scan_zdec z r : stop r -> scan_number (zdec z ++ r) = Some (z, r).
Proof.
  intros S. unfold zdec. destruct z as [|p|p].
  - apply (scan_dec 0), S.
  - rewrite scan_dec by auto. reflexivity.
  - cbn [app scan_number]. change (45 =? 45) with true. cbv iota. rewrite natural_dec, stop_fraction by auto. reflexivity.
Qed.

(** ** Lists and dictionaries *)
Definition dumps_all (ind : option nat) (lvl : nat) : list json -> res (list str) := each (dumps ind lvl).
Definition dumps_pair (ind : option nat) (lvl : nat) (kx : key * json) : res str :=
  match kx with
  | (k, x) => do t <- key_text k; do s <- dumps ind lvl x; Ok (encode_text t ++ colon ind ++ s)
  end.
Definition dumps_pairs (ind : option nat) (lvl : nat) : list (key * json) -> res (list str) := each (dumps_pair ind lvl).
Lemma dumps_list ind lvl x l : dumps ind lvl (JList (x :: l)) =
  do xs <- dumps_all ind (S lvl) (x :: l);
  Ok ([91] ++ newline ind (S lvl) ++ join ([44] ++ newline ind (S lvl)) xs ++ newline ind lvl ++ [93]).
Proof. reflexivity. Qed.
Lemma dumps_dict ind lvl x l : dumps ind lvl (JDict (x :: l)) =
  do xs <- dumps_pairs ind (S lvl) (x :: l);
  Ok ([123] ++ newline ind (S lvl) ++ join ([44] ++ newline ind (S lvl)) xs ++ newline ind lvl ++ [125]).
Proof. reflexivity. Qed.
Lemma skip_newline ind lvl s : skip (newline ind lvl ++ s) = skip s.
Proof.
  unfold newline. destruct ind as [w|]; [|reflexivity]. cbn [app skip is_ws]. change (is_ws 10) with true. cbv iota.
  induction (w * lvl)%nat as [|n IH]; [reflexivity|]. cbn [repeat app skip]. exact IH.
Qed.
Lemma stop_newline ind lvl c s : In c [44; 93; 125] -> stop (newline ind lvl ++ c :: s).
Proof. intros H. destruct ind as [w|]; cbn in *; tauto. Qed.
(** What a value begins with *)
Definition begins (s : str) : Prop := match s with [] => False | c :: _ => is_ws c = false /\ c <> 93 /\ c <> 125 end.
Lemma zdec_begins z : begins (zdec z).
Proof.
  unfold zdec. destruct z as [|p|p]; [cbn; split; [reflexivity|split; discriminate]| |cbn; split; [reflexivity|split; discriminate]].
  pose proof (dec_digits (Z.to_N (Z.pos p))) as G. pose proof (dec_nonnil (Z.to_N (Z.pos p))) as N.
  destruct (dec (Z.to_N (Z.pos p))) as [|c ds]; [contradiction|]. cbn [forallb] in G. apply andb_true_iff in G as [G _].
  unfold is_ascii_digit, between in G. cbn. unfold is_ws. lia.
Qed.
Lemma dumps_begins ind lvl v s : dumps ind lvl v = Ok s -> begins s.
Proof.
  destruct v as [|b|z|t|[|x l]|[|x d]|]; try (intros [= <-]).
  - cbn. split; [reflexivity|split; discriminate].
  - destruct b; cbn; (split; [reflexivity|split; discriminate]).
  - apply zdec_begins.
  - cbn. split; [reflexivity|split; discriminate].
  - cbn. split; [reflexivity|split; discriminate].
  - rewrite dumps_list. destruct (dumps_all _ _ _); [|discriminate]. cbn [bind]. intros [= <-]. cbn. split; [reflexivity|split; discriminate].
  - cbn. split; [reflexivity|split; discriminate].
  - rewrite dumps_dict. destruct (dumps_pairs _ _ _); [|discriminate]. cbn [bind]. intros [= <-]. cbn. split; [reflexivity|split; discriminate].
Qed.
Lemma skip_begins s r : begins s -> skip (s ++ r) = s ++ r.
Proof. destruct s as [|c s]; [intros []|]. intros (H & _). cbn [app skip]. rewrite H. reflexivity. Qed.

(** ** Reading what has been written *)
Lemma scan_word fuel b r : scan_value (S fuel) (word b ++ r) = Some (JBool b, r).
Proof. destruct b; reflexivity. Qed.
Lemma scan_int fuel z r : stop r -> scan_value (S fuel) (zdec z ++ r) = Some (JInt z, r).
Proof.
  intros S. pose proof (scan_zdec z r S) as E.
  assert (F : exists c s, zdec z = c :: s /\ (c = 45 \/ 48 <= c <= 57)).
  { unfold zdec. assert (D : forall n, exists c s, dec n = c :: s /\ (c = 45 \/ 48 <= c <= 57)).
    { intros n. pose proof (dec_digits n) as G. pose proof (dec_nonnil n) as N. destruct (dec n) as [|c ds]; [contradiction|].
      cbn [forallb] in G. apply andb_true_iff in G as [G _]. unfold is_ascii_digit, between in G. exists c, ds. split; auto. lia. }
    destruct z as [|p|p]; auto. exists 45. eexists. split; auto. }
  destruct F as (c & s & F & C). rewrite F in *. cbn [app] in *. cbn [scan_value].
  replace (c =? 34) with false by lia. replace (c =? 123) with false by lia. replace (c =? 91) with false by lia.
  change (lit "null") with [110; 117; 108; 108]. change (lit "true") with [116; 114; 117; 101]. change (lit "false") with [102; 97; 108; 115; 101].
  cbn [starts]. replace (110 =? c) with false by lia. replace (116 =? c) with false by lia. replace (102 =? c) with false by lia. cbn [andb].
  rewrite E. reflexivity.
Qed.
Lemma encode_text_app t r : encode_text t ++ r = 34 :: flat_map escape_char t ++ 34 :: r.
Proof. unfold encode_text. cbn [app]. rewrite <- app_assoc. reflexivity. Qed.
Lemma scan_str fuel t r : unicode t -> scan_value (S fuel) (encode_text t ++ r) = Some (JStr t, r).
Proof. intros U. rewrite encode_text_app. cbn [scan_value]. change (34 =? 34) with true. cbv iota. rewrite scan_encoded by auto. reflexivity. Qed.
Lemma key_named k s : named k s -> key_text k = Ok s /\ unicode s.
Proof.
  assert (A : forall l, Forall (fun c => c < 128) l -> unicode l) by (intros l H; eapply Forall_impl; [|exact H]; cbn; intros; lia).
  assert (D : forall n, Forall (fun c => c < 128) (dec n)).
  { intros n. apply Forall_forall. intros c Hc. pose proof (dec_digits n) as G. rewrite forallb_forall in G. specialize (G c Hc).
    unfold is_ascii_digit, between in G. lia. }
  intros H. destruct H as [s U|z| | |]; (split; [reflexivity|]).
  - exact U.
  - apply A. unfold zdec. destruct z; auto. constructor; auto. lia.
  - apply A. repeat (apply Forall_cons; [reflexivity|]). apply Forall_nil.
  - apply A. repeat (apply Forall_cons; [reflexivity|]). apply Forall_nil.
  - apply A. repeat (apply Forall_cons; [reflexivity|]). apply Forall_nil.
Qed.
Lemma join_cons (sep x y : str) (l : list str) : join sep (x :: y :: l) = x ++ sep ++ join sep (y :: l).
Proof. reflexivity. Qed.
Definition weight (xs : list str) : nat := fold_right (fun s n => S (length s) + n)%nat O xs.
Lemma join_weight sep xs : sep <> [] -> xs <> [] -> (weight xs <= S (length (join sep xs)))%nat.
Proof.
  intros N. induction xs as [|x xs IH]; [contradiction|]. intros _. destruct xs as [|y xs]; [cbn; lia|].
  rewrite join_cons, !app_length. cbn [weight fold_right] in *. assert (y :: xs <> []) by discriminate. specialize (IH H).
  destruct sep; [contradiction|]. cbn [length]. lia.
Qed.
Definition reads (v w : json) : Prop := forall ind lvl s fuel rest, dumps ind lvl v = Ok s -> (length s <= fuel)%nat -> stop rest ->
  scan_value fuel (s ++ rest) = Some (w, rest).
Lemma begins_eat s r c : begins s -> c = 93 \/ c = 125 -> eat c (s ++ r) = None.
Proof.
  destruct s as [|x s]; [intros []|]. intros (_ & H1 & H2) H. cbn [app eat]. replace (x =? c) with false; [reflexivity|].
  destruct H; subst; lia.
Qed.
Lemma items_read ind lvl l m : Forall2 reads l m -> l <> [] -> forall xs fuel rest, dumps_all ind (S lvl) l = Ok xs ->
  (weight xs <= fuel)%nat ->
  scan_items fuel (join ([44] ++ newline ind (S lvl)) xs ++ newline ind lvl ++ 93 :: rest) = Some (m, rest).
Proof.
  intros F. induction F as [|x y l m R F IH]; [contradiction|]. intros _ xs fuel rest E W. unfold dumps_all in E. cbn [each] in E. fold (dumps_all ind (S lvl)) in E.
  destruct (dumps ind (S lvl) x) as [s|] eqn:Ex; [|discriminate]. cbn [bind] in E.
  destruct (dumps_all ind (S lvl) l) as [xs'|] eqn:El; [|discriminate]. cbn [bind] in E. injection E as <-.
  cbn [weight fold_right] in W. destruct fuel as [|fuel]; [lia|]. cbn [scan_items].
  destruct l as [|x' l].
  - cbn [dumps_all each] in El. injection El as <-. inversion F; subst. cbn [join].
    rewrite (R ind (S lvl) s fuel (newline ind lvl ++ 93 :: rest)); auto; [|lia|apply stop_newline; cbn; auto].
    rewrite skip_newline. reflexivity.
  - destruct xs' as [|s' xs']; [cbn [dumps_all each] in El; destruct (dumps ind (S lvl) x'); [|discriminate]; cbn [bind] in El; destruct (dumps_all ind (S lvl) l); discriminate|].
    rewrite join_cons, <- !app_assoc.
    rewrite (R ind (S lvl) s fuel); auto; [|lia|cbn; auto]. cbn [app skip]. change (is_ws 44) with false. cbv iota. change (eat 93 (44 :: ?x)) with (@None str). change (eat 44 (44 :: ?x)) with (Some x). cbv iota.
    rewrite skip_newline.
    assert (B : begins (join ([44] ++ newline ind (S lvl)) (s' :: xs'))).
    { cbn [dumps_all each] in El. destruct (dumps ind (S lvl) x') as [q|] eqn:Eq; [|discriminate]. cbn [bind] in El.
      destruct (dumps_all ind (S lvl) l) as [l0|]; [|discriminate]. cbn [bind] in El. injection El as <- <-. apply dumps_begins in Eq.
      destruct q as [|c q]; [destruct Eq|]. destruct l0; exact Eq. }
    rewrite skip_begins by exact B. change (44 :: newline ind (S lvl)) with ([44] ++ newline ind (S lvl)).
    rewrite (IH ltac:(discriminate) _ fuel rest eq_refl); [reflexivity|]. cbn [weight fold_right] in *. lia.
Qed.
Lemma pairs_read ind lvl d e names : receivedd d e names -> Forall2 (fun kx ky => reads (snd kx) (snd ky)) d e -> d <> [] ->
  forall xs fuel rest, dumps_pairs ind (S lvl) d = Ok xs -> (weight xs <= fuel)%nat ->
  exists l, scan_pairs fuel (join ([44] ++ newline ind (S lvl)) xs ++ newline ind lvl ++ 125 :: rest) = Some (l, rest)
    /\ map fst l = names /\ map (fun kv => (KStr (fst kv), snd kv)) l = e.
Proof.
  intros H. induction H as [|k t x y d e names Nm Rx H IH]; [contradiction|]. intros F _ xs fuel rest E W.
  inversion F as [|? ? ? ? R F' ]; subst. cbn [snd] in R.
  unfold dumps_pairs in E. cbn [each] in E. fold (dumps_pairs ind (S lvl)) in E. cbn [dumps_pair] in E.
  destruct (key_named _ _ Nm) as [Ek Ut]. rewrite Ek in E. cbn [bind] in E.
  destruct (dumps ind (S lvl) x) as [s|] eqn:Ex; [|discriminate]. cbn [bind] in E.
  destruct (dumps_pairs ind (S lvl) d) as [xs'|] eqn:El; [|discriminate]. cbn [bind] in E. injection E as <-.
  cbn [weight fold_right] in W. destruct fuel as [|fuel]; [lia|].
  assert (Step : forall r, stop r ->
     scan_pairs (S fuel) ((encode_text t ++ colon ind ++ s) ++ r) =
     match eat 125 (skip r), eat 44 (skip r) with
     | Some r, _ => Some ([(t, y)], r)
     | _, Some r => match scan_pairs fuel (skip r) with Some (l, r) => Some ((t, y) :: l, r) | None => None end
     | None, None => None
     end).
  { intros r Sr. rewrite <- !app_assoc, encode_text_app. cbn [scan_pairs eat]. change (34 =? 34) with true. cbv iota.
    rewrite scan_encoded by auto.
    assert (Ec : match eat 58 (skip (colon ind ++ s ++ r)) with Some r => scan_value fuel (skip r) | None => None end = scan_value fuel (s ++ r)).
    { assert (B : skip (s ++ r) = s ++ r) by (apply skip_begins; eapply dumps_begins; eauto).
      destruct ind; cbn [colon app skip]; change (is_ws 58) with false; cbv iota; cbn [eat]; change (58 =? 58) with true; cbv iota; cbn [skip].
      - change (is_ws 32) with true. cbv iota. rewrite B. reflexivity.
      - rewrite B. reflexivity. }
    rewrite Ec, (R ind (S lvl) s fuel r); auto.
    cbn [length] in W. rewrite !app_length in W. lia. }
  destruct d as [|[k' x'] d].
  - cbn in El. injection El as <-. inversion H; subst. cbn [join]. rewrite Step by (apply stop_newline; cbn; auto).
    rewrite skip_newline. cbn [skip]. change (is_ws 125) with false. cbv iota. cbn [eat]. exists [(t, y)]. repeat split.
  - destruct (IH F' ltac:(discriminate) _ fuel rest eq_refl) as (l & E & N1 & N2); [unfold weight; lia|].
    destruct xs' as [|s' xs'].
    { exfalso. unfold dumps_pairs in El. cbn [each] in El. destruct (dumps_pair ind (S lvl) (k', x')); [|discriminate].
      cbn [bind] in El. destruct (each _ d); discriminate. }
    rewrite join_cons, <- (app_assoc (encode_text t ++ colon ind ++ s)). rewrite Step by (cbn; auto).
    rewrite <- !app_assoc. cbn [app skip]. change (is_ws 44) with false. cbv iota. cbn [eat]. change (44 =? 125) with false. change (44 =? 44) with true. cbv iota.
    rewrite skip_newline.
    assert (B : begins (join ([44] ++ newline ind (S lvl)) (s' :: xs'))).
    { unfold dumps_pairs in El. cbn [each] in El. destruct (dumps_pair ind (S lvl) (k', x')) as [q|] eqn:Eq; [|discriminate].
      cbn [bind] in El. destruct (each _ d) as [l0|]; [|discriminate]. cbn [bind] in El. injection El as <- <-.
      cbn [dumps_pair] in Eq. destruct (key_text k'); [|discriminate]. cbn [bind] in Eq. destruct (dumps ind (S lvl) x'); [|discriminate].
      cbn [bind] in Eq. injection Eq as <-. destruct l0; cbn; (split; [reflexivity|split; discriminate]). }
    rewrite skip_begins by exact B. change (44 :: newline ind (S lvl)) with ([44] ++ newline ind (S lvl)).
    rewrite E. exists ((t, y) :: l). cbn [map fst snd]. rewrite N1, N2. repeat split.
Qed.
Lemma put_key_new d k v : (forall x, In (KStr k, x) d -> False) -> put_key d k v = d ++ [(KStr k, v)].
Proof.
  induction d as [|[k' v'] d IH]; intros H; [reflexivity|]. cbn [put_key]. assert (E : key_is k' k = false).
  { destruct k' as [s| | | |]; try reflexivity. cbn. destruct (eqs s k) eqn:Es; auto. apply eqs_eq in Es. subst. exfalso. apply (H v'). left. reflexivity. }
  rewrite E, IH; [reflexivity|]. intros x Hx. apply (H x). right. exact Hx.
Qed.
Lemma of_pairs_nodup l : NoDup (map fst l) -> of_pairs l = map (fun kv => (KStr (fst kv), snd kv)) l.
Proof.
  unfold of_pairs. intros N.
  assert (G : forall acc : list (key * json), (forall k x, In k (map fst l) -> In (KStr k, x) acc -> False) ->
    fold_left (fun d kv => put_key d (fst kv) (snd kv)) l acc = acc ++ map (fun kv => (KStr (fst kv), snd kv)) l).
  { induction l as [|[k v] l IH]; intros acc H; [rewrite app_nil_r; reflexivity|]. inversion N; subst. cbn [fold_left fst snd map].
    rewrite put_key_new by (intros x Hx; apply (H k x); [left; reflexivity|exact Hx]). rewrite IH; auto.
    - rewrite <- app_assoc. reflexivity.
    - intros k' x Hk Hx. apply in_app_iff in Hx as [Hx|[Hx|[]]]; [eapply H; eauto; right; exact Hk|]. injection Hx as -> ->. contradiction. }
  apply (G []). intros ? ? _ [].
Qed.
Lemma all_read : (forall v w, received v w -> reads v w) /\ (forall l m, receiveds l m -> Forall2 reads l m)
  /\ (forall d e names, receivedd d e names -> Forall2 (fun kx ky => reads (snd kx) (snd ky)) d e).
Proof.
  apply received_ind3; try (intros; constructor; auto; fail).
  - intros ind lvl s fuel rest [= <-] L S. destruct fuel; [cbn in L; lia|]. reflexivity.
  - intros b ind lvl s fuel rest [= <-] L S. destruct fuel; [destruct b; cbn in L; lia|]. apply scan_word.
  - intros z ind lvl s fuel rest [= <-] L S. destruct fuel; [|apply scan_int, S].
    pose proof (zdec_begins z) as B. destruct (zdec z); [destruct B|]. cbn in L. lia.
  - intros t U ind lvl s fuel rest [= <-] L S. destruct fuel; [unfold encode_text in L; cbn in L; lia|]. apply scan_str, U.
  - intros l m Hl F ind lvl s fuel rest E L St. destruct l as [|x l].
    + injection E as <-. inversion F; subst. destruct fuel; [cbn in L; lia|]. reflexivity.
    + rewrite dumps_list in E. destruct (dumps_all ind (S lvl) (x :: l)) as [xs|] eqn:El; [|discriminate]. cbn [bind] in E. injection E as <-.
      destruct fuel as [|fuel]; [cbn in L; lia|]. cbn [app]. rewrite <- !app_assoc. cbn [scan_value].
      change (91 =? 34) with false. change (91 =? 123) with false. change (91 =? 91) with true. cbv iota.
      rewrite skip_newline.
      assert (Nx : xs <> []).
      { intros ->. unfold dumps_all in El. cbn [each] in El. destruct (dumps ind (S lvl) x); [|discriminate]. cbn [bind] in El. destruct (each _ l); discriminate. }
      assert (B : begins (join ([44] ++ newline ind (S lvl)) xs)).
      { unfold dumps_all in El. cbn [each] in El. destruct (dumps ind (S lvl) x) as [q|] eqn:Eq; [|discriminate]. cbn [bind] in El.
        destruct (each _ l) as [l0|]; [|discriminate]. cbn [bind] in El. injection El as <-. apply dumps_begins in Eq.
        destruct q as [|c q]; [destruct Eq|]. destruct l0; exact Eq. }
      cbn [app] in *. rewrite (skip_begins _ _ B), (begins_eat _ _ _ B) by auto.
      enough (X : (weight xs <= fuel)%nat).
      { pose proof (items_read ind lvl (x :: l) m F ltac:(discriminate) xs fuel rest El X) as Y. cbn [app] in Y. rewrite Y. reflexivity. }
      pose proof (join_weight (44 :: newline ind (S lvl)) xs ltac:(discriminate) Nx) as Wj.
      cbn [length] in L. rewrite !app_length in L. cbn [length] in L. lia.
  - intros d e names Hd F Nd ind lvl s fuel rest E L St. destruct d as [|x d].
    + injection E as <-. inversion F; subst. destruct fuel; [cbn in L; lia|]. reflexivity.
    + rewrite dumps_dict in E. destruct (dumps_pairs ind (S lvl) (x :: d)) as [xs|] eqn:El; [|discriminate]. cbn [bind] in E. injection E as <-.
      destruct fuel as [|fuel]; [cbn in L; lia|]. cbn [app]. rewrite <- !app_assoc. cbn [scan_value].
      change (123 =? 34) with false. change (123 =? 123) with true. cbv iota.
      rewrite skip_newline.
      assert (Nx : xs <> []).
      { intros ->. unfold dumps_pairs in El. cbn [each] in El. destruct (dumps_pair ind (S lvl) x); [|discriminate]. cbn [bind] in El. destruct (each _ d); discriminate. }
      assert (B : begins (join ([44] ++ newline ind (S lvl)) xs)).
      { unfold dumps_pairs in El. cbn [each] in El. destruct x as [k x]. cbn [dumps_pair] in El. destruct (key_text k); [|discriminate]. cbn [bind] in El.
        destruct (dumps ind (S lvl) x); [|discriminate]. cbn [bind] in El. destruct (each _ d) as [l0|]; [|discriminate]. cbn [bind] in El. injection El as <-.
        destruct l0; cbn; (split; [reflexivity|split; discriminate]). }
      cbn [app] in *. rewrite (skip_begins _ _ B), (begins_eat _ _ _ B) by auto.
      destruct (pairs_read ind lvl (x :: d) e names Hd F ltac:(discriminate) xs fuel rest El) as (l & E & N1 & N2).
      * pose proof (join_weight (44 :: newline ind (S lvl)) xs ltac:(discriminate) Nx) as Wj.
        cbn [length] in L. rewrite !app_length in L. cbn [length] in L. lia.
      * cbn [app] in E. rewrite E. rewrite of_pairs_nodup, N2; [reflexivity|]. rewrite N1. exact Nd.
Qed.
Lemma read_back v w ind s : received v w -> dumps ind 0 v = Ok s -> loads s = Some w.
Proof.
  intros R E. unfold loads. pose proof (dumps_begins _ _ _ _ E) as B. pose proof (skip_begins s [] B) as K. rewrite app_nil_r in K. rewrite K.
  destruct all_read as (A & _). pose proof (A v w R ind 0%nat s (length s) [] E (Nat.le_refl _) I) as X. rewrite app_nil_r in X. rewrite X. reflexivity.
Qed.

(** ** What is written is ASCII *)
Definition ascii (s : str) : Prop := Forall (fun c => c < 128) s.
Lemma ascii_app a b : ascii a -> ascii b -> ascii (a ++ b).
Proof. intros. apply Forall_app. auto. Qed.
Lemma hex_ascii n : n < 16 -> hex_digit n < 128.
Proof. unfold hex_digit. destruct (n <? 10) eqn:E; lia. Qed.
Lemma u_ascii n : n < 65536 -> ascii (u_escape n).
Proof. intros H. unfold u_escape. repeat (apply Forall_cons; [first [reflexivity|apply hex_ascii; lia]|]). apply Forall_nil. Qed.
Lemma escape_ascii c : c < 1114112 -> ascii (escape_char c).
Proof.
  intros H. unfold escape_char.
  destruct (c =? 34); [repeat constructor|]. destruct (c =? 92); [repeat constructor|]. destruct (c =? 10); [repeat constructor|].
  destruct (c =? 13); [repeat constructor|]. destruct (c =? 9); [repeat constructor|]. destruct (c =? 12); [repeat constructor|].
  destruct (c =? 8); [repeat constructor|]. destruct ((32 <=? c) && (c <=? 126)) eqn:E; [constructor; [lia|constructor]|].
  destruct (c <? 65536) eqn:F; [apply u_ascii; lia|].
  cbv zeta. apply ascii_app; apply u_ascii; lia.
Qed.
Lemma text_ascii t : unicode t -> ascii (encode_text t).
Proof.
  intros U. unfold encode_text. apply ascii_app; [repeat constructor|]. apply ascii_app; [|repeat constructor].
  induction U as [|c t [H _] U IH]; [constructor|]. cbn [flat_map]. apply ascii_app; auto using escape_ascii.
Qed.
Lemma zdec_ascii z : ascii (zdec z).
Proof.
  assert (D : forall n, ascii (dec n)).
  { intros n. apply Forall_forall. intros c Hc. pose proof (dec_digits n) as G. rewrite forallb_forall in G. specialize (G c Hc).
    unfold is_ascii_digit, between in G. lia. }
  unfold zdec. destruct z; [apply D|apply D|]. apply Forall_cons; [reflexivity|apply D].
Qed.
Lemma newline_ascii ind lvl : ascii (newline ind lvl).
Proof.
  destruct ind as [w|]; [|constructor]. constructor; [reflexivity|]. apply Forall_forall. intros c Hc. apply repeat_spec in Hc. subst. reflexivity.
Qed.
Lemma join_ascii sep xs : ascii sep -> Forall ascii xs -> ascii (join sep xs).
Proof.
  intros S F. induction F as [|x xs H F IH]; [constructor|]. destruct xs as [|y xs]; [exact H|]. rewrite join_cons. auto using ascii_app.
Qed.
Definition writes (v : json) : Prop := forall ind lvl, exists s, dumps ind lvl v = Ok s /\ ascii s.
Lemma each_writes {A} (f : A -> res str) l : Forall (fun x => exists s, f x = Ok s /\ ascii s) l -> exists xs, each f l = Ok xs /\ Forall ascii xs.
Proof.
  induction 1 as [|x l (s & E & S) F (xs & IH & G)]; [exists []; auto|]. cbn [each]. rewrite E. cbn [bind].
  fold (each f). rewrite IH. cbn [bind]. eauto.
Qed.
Lemma all_written : (forall v w, received v w -> writes v) /\ (forall l m, receiveds l m -> Forall writes l)
  /\ (forall d e names, receivedd d e names -> Forall (fun kx => (exists t, key_text (fst kx) = Ok t /\ unicode t) /\ writes (snd kx)) d).
Proof.
  apply received_ind3; try (intros; constructor; auto; fail).
  - intros ind lvl. eexists. split; [reflexivity|]. repeat (apply Forall_cons; [reflexivity|]). apply Forall_nil.
  - intros b ind lvl. eexists. split; [reflexivity|]. destruct b; repeat (apply Forall_cons; [reflexivity|]); apply Forall_nil.
  - intros z ind lvl. eexists. split; [reflexivity|]. apply zdec_ascii.
  - intros t U ind lvl. eexists. split; [reflexivity|]. apply text_ascii, U.
  - intros l m _ F ind lvl. destruct l as [|x l].
    + eexists. split; [reflexivity|]. repeat (apply Forall_cons; [reflexivity|]). apply Forall_nil.
    + rewrite dumps_list. destruct (each_writes (dumps ind (S lvl)) (x :: l)) as (xs & E & G).
      { eapply Forall_impl; [|exact F]. cbn. intros v H. apply H. }
      unfold dumps_all. rewrite E. cbn [bind]. eexists. split; [reflexivity|].
      repeat apply ascii_app; auto using newline_ascii, join_ascii; try (repeat constructor). apply join_ascii; auto. constructor; [reflexivity|apply newline_ascii].
  - intros d e names _ F _ ind lvl. destruct d as [|x d].
    + eexists. split; [reflexivity|]. repeat (apply Forall_cons; [reflexivity|]). apply Forall_nil.
    + rewrite dumps_dict. destruct (each_writes (dumps_pair ind (S lvl)) (x :: d)) as (xs & E & G).
      { eapply Forall_impl; [|exact F]. cbn. intros [k v] ((t & Ek & U) & W). cbn [fst snd] in *. destruct (W ind (S lvl)) as (s & Es & As).
        cbn [dumps_pair]. rewrite Ek. cbn [bind]. rewrite Es. cbn [bind]. eexists. split; [reflexivity|].
        apply ascii_app; [apply text_ascii, U|]. apply ascii_app; [|exact As]. destruct ind; repeat constructor. }
      unfold dumps_pairs. rewrite E. cbn [bind]. eexists. split; [reflexivity|].
      repeat apply ascii_app; auto using newline_ascii, join_ascii; try (repeat constructor). apply join_ascii; auto. constructor; [reflexivity|apply newline_ascii].
  - intros k s x y d e names Nm _ W _ F. constructor; auto. cbn [fst snd]. split; auto. apply key_named in Nm. eauto.
Qed.

(** ** What is refused *)
Section json_induction.
  Variable P : json -> Prop.
  Hypotheses (Pnull : P JNull) (Pbool : forall b, P (JBool b)) (Pint : forall z, P (JInt z)) (Pstr : forall s, P (JStr s))
    (Plist : forall l, Forall P l -> P (JList l)) (Pdict : forall d, Forall (fun kx => P (snd kx)) d -> P (JDict d)) (Pother : P JOther).
  Fixpoint json_all (v : json) : P v :=
    match v with
    | JNull => Pnull
    | JBool b => Pbool b
    | JInt z => Pint z
    | JStr s => Pstr s
    | JList l => Plist l ((fix go l := match l return Forall P l with [] => Forall_nil _ | x :: l' => Forall_cons x (json_all x) (go l') end) l)
    | JDict d => Pdict d ((fix go d := match d return Forall (fun kx => P (snd kx)) d with
                                       | [] => Forall_nil _
                                       | kx :: d' => Forall_cons kx (json_all (snd kx)) (go d')
                                       end) d)
    | JOther => Pother
    end.
End json_induction.
Lemma each_cases {A} (f : A -> res str) (bad : A -> Prop) l :
  Forall (fun x => (exists s, f x = Ok s) /\ ~ bad x \/ f x = Raise TypeError /\ bad x) l ->
  (exists xs, each f l = Ok xs) /\ (forall x, In x l -> ~ bad x) \/ each f l = Raise TypeError /\ exists x, In x l /\ bad x.
Proof.
  induction 1 as [|x l [[(s & E) N]|[E B]] F IH].
  - left. split; [exists []; reflexivity|intros ? []].
  - cbn [each]. rewrite E. cbn [bind]. fold (each f). destruct IH as [[(xs & IH) G]|[IH (y & I & B)]]; rewrite IH; cbn [bind].
    + left. split; [eauto|]. intros y [<-|I]; auto.
    + right. split; [reflexivity|]. exists y. split; [right; exact I|exact B].
  - cbn [each]. rewrite E. right. split; [reflexivity|]. exists x. split; [left; reflexivity|exact B].
Qed.
Lemma dumps_cases v : forall ind lvl, (exists s, dumps ind lvl v = Ok s) /\ ~ foreign v \/ dumps ind lvl v = Raise TypeError /\ foreign v.
Proof.
  induction v as [|b|z|t|l H|d H|] using json_all; intros ind lvl;
    try (left; split; [eexists; reflexivity|intros X; inversion X; fail]).
  - destruct l as [|x l]; [left; split; [eexists; reflexivity|intros X; inversion X; subst; contradiction]|].
    rewrite dumps_list. destruct (each_cases (dumps ind (S lvl)) foreign (x :: l)) as [[(xs & E) N]|[E (y & I & B)]].
    { eapply Forall_impl; [|exact H]. cbn. auto. }
    + left. unfold dumps_all. rewrite E. cbn [bind]. split; [eauto|]. intros X. inversion X; subst. eapply N; eauto.
    + right. unfold dumps_all. rewrite E. split; [reflexivity|]. econstructor; eauto.
  - destruct d as [|x d]; [left; split; [eexists; reflexivity|intros X; inversion X; subst; contradiction]|].
    rewrite dumps_dict. destruct (each_cases (dumps_pair ind (S lvl)) (fun kx => fst kx = KOther \/ foreign (snd kx)) (x :: d)) as [[(xs & E) N]|[E (y & I & B)]].
    { eapply Forall_impl; [|exact H]. cbn. intros [k v] G. cbn [fst snd dumps_pair] in *.
      destruct (G ind (S lvl)) as [[(s & E) N]|[E B]].
      - destruct k; cbn [key_text bind]; try (left; rewrite E; cbn [bind]; split; [eauto|intros [X|X]; [discriminate|contradiction]]). right. auto.
      - right. split; [|auto]. destruct k; cbn [key_text bind]; try rewrite E; reflexivity. }
    + left. unfold dumps_pairs. rewrite E. cbn [bind]. split; [eauto|]. intros X. inversion X; subst.
      * eapply (N (KOther, x0)); eauto.
      * eapply (N (k, x0)); eauto.
    + right. unfold dumps_pairs. rewrite E. split; [reflexivity|]. destruct y as [k v]. cbn [fst snd] in B. destruct B as [->|B]; [eapply fo_key|eapply fo_value]; eauto.
  - right. split; [reflexivity|constructor].
Qed.

(** ** The view *)
Lemma ascii_bytes s b : ascii s -> Utf8.utf8_encode s = Ok b -> b = s.
Proof.
  intros A E. rewrite Utf8Facts.utf8_ascii in E; [injection E as <-; reflexivity|]. apply forallb_forall. intros c Hc.
  unfold ascii in A. rewrite Forall_forall in A. specialize (A c Hc). lia.
Qed.
Lemma given_type c b st h m x p t : typed c (RArgs b st h m (Some x) p) t -> t = Some x.
Proof. intros T. inversion T; subst; cbn [ra_content_type] in *; try discriminate. congruence. Qed.
Lemma view_value v w d : received v w -> v <> JNull -> exists r b,
  json_view (Some d) (Ok (RValue v)) = Ok r /\ st_code (rs_status r) = 200%Z /\ rs_body r = BSeq [IBytes b]
  /\ loads b = Some w
  /\ values_of (lit "Content-Type") (rs_headers r) [lit "application/json"]
  /\ values_of (lit "Content-Length") (rs_headers r) [zdec (Z.of_nat (length b))].
Proof.
  intros R N. destruct all_written as (W & _). destruct (W v w R (if d then Some 4%nat else None) 0%nat) as (s & E & A).
  pose proof (read_back _ _ _ _ R E) as L.
  destruct (response_total base_class (RArgs (AData (IText s)) SNone [] None (Some (lit "application/json")) false)) as (r & Er).
  - intros t T. apply given_type in T. injection T as ->. split; apply mem_not_In; reflexivity.
  - intros x [=].
  - intros i [= <-]. exists s. cbn. apply Utf8Facts.utf8_ascii. apply forallb_forall. intros c Hc. unfold ascii in A. rewrite Forall_forall in A. specialize (A c Hc). lia.
  - exists r, s. assert (Ej : json_view (Some d) (Ok (RValue v)) = Ok r).
    { unfold json_view. cbn [bind]. destruct v; try contradiction; rewrite E; cbn [bind]; exact Er. }
    split; [exact Ej|]. destruct (response_made _ _ _ Er) as ((t & T & V) & _ & (S1 & _) & (b & Y & B & Lb) & _).
    cbn [ra_status ra_body] in *. cbn in Y. apply ascii_bytes in Y; auto. subst b.
    split; [exact S1|]. split; [exact B|]. split; [exact L|]. split; [|apply Lb; reflexivity].
    apply given_type in T. subst t. exact V.
Qed.
Lemma view_foreign v d : foreign v -> json_view (Some d) (Ok (RValue v)) = Raise TypeError.
Proof.
  intros F. unfold json_view. cbn [bind]. destruct (dumps_cases v (if d then Some 4%nat else None) 0) as [[_ N]|[E _]]; [contradiction|].
  destruct v; try rewrite E; try reflexivity. inversion F.
Qed.
Lemma response_no_type s :
  new_response base_class (RArgs (AData (IText s)) SNone [] None (Some (lit "application/json")) false) <> Raise TypeError.
Proof.
  destruct (Utf8.utf8_encode s) as [b|e] eqn:E.
  - destruct (response_total base_class (RArgs (AData (IText s)) SNone [] None (Some (lit "application/json")) false)) as (r & Er).
    + intros t T. apply given_type in T. injection T as ->. split; apply mem_not_In; reflexivity.
    + intros x [=].
    + intros i [= <-]. exists b. exact E.
    + rewrite Er. discriminate.
  - assert (X : e = UnicodeError). { unfold Utf8.utf8_encode in E. destruct (forallb Utf8.scalar s); congruence. } subst e.
    unfold new_response. cbn [ra_body ra_status]. unfold set_data, encode_item. rewrite E.
    destruct (match type_to_set _ _ with Some _ => _ | None => _ end) eqn:Eh; cbn [bind]; [discriminate|].
    vm_compute in Eh. discriminate.
Qed.
Lemma view_refused v d : v <> JNull -> (json_view (Some d) (Ok (RValue v)) = Raise TypeError <-> foreign v).
Proof.
  intros N. split; [|apply view_foreign]. unfold json_view. cbn [bind].
  destruct (dumps_cases v (if d then Some 4%nat else None) 0) as [[(s & E) _]|[_ X]]; [|auto].
  intros H. exfalso. destruct v; try contradiction; rewrite E in H; cbn [bind] in H; apply response_no_type in H; exact H.
Qed.
