(** The lines of a limited stream (C33). *)
From Coq Require Import Arith List NArith ZArith Bool Lia ZifyBool ZifyN ZifyNat.
From Verif Require Import PyStr PyStrFacts ModelStream SpecStream.
Import ListNotations.
Open Scope N_scope.
Ltac inv H := inversion H; subst; clear H.

Lemma line_len_bound s : (line_len s <= length s)%nat.
Proof. induction s as [|c s IH]; cbn [line_len length]; [lia|]. destruct (c =? 10); lia. Qed.
Lemma line_len_pos s : s <> [] -> (0 < line_len s)%nat.
Proof. destruct s as [|c s]; [congruence|]. cbn [line_len]. destruct (c =? 10); lia. Qed.
Lemma line_len_firstn n s : line_len (firstn n s) = Nat.min n (line_len s).
Proof.
  revert n; induction s as [|c s IH]; intros [|n]; cbn [firstn line_len]; try lia.
  destruct (c =? 10); [lia|]. rewrite IH. lia.
Qed.
Lemma line_shape s : ~ In 10 s /\ line_len s = length s \/ exists body rest, s = body ++ 10 :: rest /\ ~ In 10 body /\ line_len s = S (length body).
Proof.
  induction s as [|c s IH]; [left; split; auto|]. cbn [line_len]. destruct (c =? 10) eqn:E.
  - right. exists [], s. split; [|auto]. apply N.eqb_eq in E. subst c. auto.
  - destruct IH as [[H1 H2]|(body & rest & -> & H1 & H2)].
    + left. split; [intros [X|X]; [lia|auto]|cbn [length]; lia].
    + right. exists (c :: body), rest. split; auto. split; [intros [X|X]; [lia|auto]|cbn [length]; lia].
Qed.
Lemma lf_step t ls : t <> [] -> lf_lines (skipn (line_len t) t) ls -> lf_lines t (firstn (line_len t) t :: ls).
Proof.
  intros Hn H. destruct (line_shape t) as [[H1 H2]|(body & rest & -> & H1 & H2)].
  - rewrite H2 in *. rewrite skipn_all in H. inv H; [|congruence|destruct body; discriminate]. rewrite firstn_all. constructor; auto.
  - rewrite H2 in *. replace (body ++ 10 :: rest) with ((body ++ [10]) ++ rest) in H |- * by (rewrite <- app_assoc; auto).
    assert (L : S (length body) = length (body ++ [10])) by (rewrite app_length; cbn [length]; lia).
    rewrite L in *. rewrite skipn_app, skipn_all, Nat.sub_diag in H. cbn [app skipn] in H.
    rewrite firstn_app, firstn_all, Nat.sub_diag. cbn [firstn]. rewrite app_nil_r, <- app_assoc. cbn [app]. constructor; auto.
Qed.

(** The state in which [t] is still to be read. *)
Definition waiting (t : str) (s : limited) : Prop :=
  u_plan (l_under s) = [] /\ (0 <= l_limit s - l_pos s)%Z /\
  t = firstn (Z.to_nat (l_limit s - l_pos s)) (u_left (l_under s)) /\ Z.of_nat (length t) = (l_limit s - l_pos s)%Z.

Lemma readline_step t s : waiting t s -> t <> [] ->
  exists s', readline None s = (Ok (firstn (line_len t) t), s') /\ waiting (skipn (line_len t) t) s'.
Proof.
  intros (Hp & Hl & Ht & Hn) Hne. unfold readline.
  assert (0 < length t)%nat by (destruct t; [congruence|cbn [length]; lia]).
  replace (l_limit s <=? l_pos s)%Z with false by lia.
  unfold u_readline, u_call. rewrite Hp. set (n := Z.to_nat (l_limit s - l_pos s)) in *.
  assert (Ec : u_cap (l_limit s - l_pos s) (line_len (u_left (l_under s))) = line_len t).
  { unfold u_cap. replace (l_limit s - l_pos s <? 0)%Z with false by lia. rewrite Ht, line_len_firstn. fold n. auto. }
  rewrite Ec.
  assert (Lb := line_len_bound t).
  assert (Ef : firstn (line_len t) (u_left (l_under s)) = firstn (line_len t) t).
  { rewrite Ht at 3. rewrite firstn_firstn. f_equal. lia. }
  assert (Lp := line_len_pos t Hne).
  rewrite Ef. destruct (firstn (line_len t) t) as [|c l] eqn:E.
  { exfalso. apply (f_equal (@length N)) in E. rewrite firstn_length in E. cbn [length] in E. lia. }
  rewrite andb_false_r. rewrite <- E. eexists. split; [reflexivity|].
  unfold waiting, u_take. cbn [l_under u_plan l_limit l_pos u_left]. split; auto.
  rewrite firstn_length, skipn_length, Nat.min_l by lia. split; [lia|]. split; [|lia].
  rewrite Ht at 2. rewrite skipn_firstn_comm. f_equal. lia.
Qed.

Lemma waiting_end s : waiting [] s -> (l_limit s <= l_pos s)%Z.
Proof. intros (_ & H1 & _ & H2). cbn [length] in H2. lia. Qed.
Lemma next_end s : waiting [] s -> exists s', next_line s = (Raise StopIteration, s').
Proof.
  intros W. pose proof (waiting_end s W) as H. destruct W as (Hp & _). unfold next_line, readline.
  replace (l_limit s <=? l_pos s)%Z with true by lia. unfold on_exhausted, u_read, u_call. rewrite Hp.
  cbn [u_cap Z.ltb Z.compare Z.to_nat Nat.min firstn]. eexists. reflexivity.
Qed.

Lemma readlines_lines n : forall t s fuel acc, (length t <= n)%nat -> (length t < fuel)%nat -> waiting t s ->
  exists ls s', lf_lines t ls /\ readlines_loop fuel None (l_pos s) (l_limit s) acc s = Some (Ok (acc ++ ls), s') /\
  forall f, exists s'', do_calls f (repeat Next (length ls) ++ [Next]) s = Some (map (fun l => Ok [l]) ls ++ [Raise StopIteration], s'').
Proof.
  assert (E : forall fuel p q acc s, readlines_loop fuel None p (l_limit s) acc s = readlines_loop fuel None q (l_limit s) acc s).
  { induction fuel as [|fuel IH]; intros; auto. cbn [readlines_loop option_map]. destruct (l_limit s <=? l_pos s)%Z; auto.
    destruct (readline None s) as [[l|e] s'] eqn:R; auto.
    assert (L : l_limit s' = l_limit s).
    { revert R. unfold readline, on_exhausted, on_disconnect, with_under.
      destruct (l_limit s <=? l_pos s)%Z; [destruct (u_read 0 (l_under s)); intros X; inv X; auto|].
      destruct (u_readline _ _) as [[d|e] u]; [|destruct (is_caught e); intros X; inv X; auto].
      destruct (negb _ && _); intros X; inv X; auto. }
    rewrite <- L. apply IH. }
  induction n as [|n IH]; intros t s fuel acc Hn Hf W.
  - destruct t; [|cbn [length] in Hn; lia]. exists [], s. split; [constructor|].
    destruct fuel as [|fuel]; [lia|]. cbn [readlines_loop]. pose proof (waiting_end s W).
    replace (l_limit s <=? l_pos s)%Z with true by lia. rewrite app_nil_r. split; auto.
    intros f. destruct (next_end s W) as [s' En]. exists s'. cbn [length repeat app do_calls do_call map]. rewrite En. reflexivity.
  - destruct t as [|c t]; [apply (IH [] s fuel acc); auto; cbn [length]; lia|].
    destruct (readline_step _ _ W) as (s1 & R & W1); [discriminate|]. set (t0 := c :: t) in *.
    assert (Lp : (0 < line_len t0)%nat) by (apply line_len_pos; discriminate).
    assert (Lb := line_len_bound t0).
    destruct fuel as [|fuel]; [lia|].
    assert (Lim : l_limit s1 = l_limit s).
    { revert R. unfold readline, on_exhausted, on_disconnect, with_under.
      destruct (l_limit s <=? l_pos s)%Z; [destruct (u_read 0 (l_under s)); intros X; inv X; auto|].
      destruct (u_readline _ _) as [[d|e] u]; [|destruct (is_caught e); intros X; inv X; auto].
      destruct (negb _ && _); intros X; inv X; auto. }
    destruct (IH (skipn (line_len t0) t0) s1 fuel (acc ++ [firstn (line_len t0) t0])) as (ls & s' & H1 & H2 & H3); auto.
    { rewrite skipn_length. lia. }
    { rewrite skipn_length. lia. }
    exists (firstn (line_len t0) t0 :: ls), s'. split; [apply lf_step; [discriminate|auto]|]. split.
    + cbn [readlines_loop option_map]. destruct W as (_ & _ & _ & W). unfold t0 in W at 1. cbn [length] in W.
      replace (l_limit s <=? l_pos s)%Z with false by lia. rewrite R. rewrite <- Lim. rewrite (E fuel (l_pos s) (l_pos s1)).
      rewrite H2. rewrite <- app_assoc. auto.
    + intros f. destruct (H3 f) as [s'' H4]. exists s''. cbn [length repeat app do_calls do_call map].
      assert (En : next_line s = (Ok (firstn (line_len t0) t0), s1)).
      { unfold next_line. rewrite R. destruct (firstn (line_len t0) t0) eqn:F; auto. exfalso.
        apply (f_equal (@length N)) in F. rewrite firstn_length in F. cbn [length] in F. lia. }
      rewrite En. cbn [one fst snd bind]. rewrite H4. auto.
Qed.

Lemma limited_lines limit data fuel : (0 <= limit <= Z.of_nat (length data))%Z -> (Z.to_nat limit < fuel)%nat ->
  exists ls s', lf_lines (firstn (Z.to_nat limit) data) ls /\
  do_call fuel (ReadLines None) (limited_stream (fresh data []) limit) = Some (Ok ls, s') /\
  exists s'', do_calls fuel (repeat Next (length ls) ++ [Next]) (limited_stream (fresh data []) limit) =
    Some (map (fun l => Ok [l]) ls ++ [Raise StopIteration], s'').
Proof.
  intros H Hf. set (s := limited_stream (fresh data []) limit).
  assert (Hl : length (firstn (Z.to_nat limit) data) = Z.to_nat limit) by (rewrite firstn_length; lia).
  destruct (readlines_lines _ (firstn (Z.to_nat limit) data) s fuel [] (Nat.le_refl _)) as (ls & s' & H1 & H2 & H3); [lia| |].
  - split; [auto|]. cbn [s limited_stream l_limit l_pos l_under fresh u_left]. rewrite Z.sub_0_r. split; [lia|]. split; [auto|lia].
  - exists ls, s'. split; auto.
Qed.
Lemma lf_unique t l1 : lf_lines t l1 -> forall l2, lf_lines t l2 -> l1 = l2.
Proof.
  induction 1 as [|l Hn Hl|body rest ls Hb H IH]; intros l2 H2.
  - inv H2; [auto|congruence|destruct body; discriminate].
  - inv H2; [congruence|auto|]. exfalso. apply Hl. apply in_app_iff. right; left; auto.
  - inv H2.
    + destruct body; discriminate.
    + exfalso. apply H1. apply in_app_iff. right; left; auto.
    + assert (split1 10 (body ++ 10 :: rest) = split1 10 (body0 ++ 10 :: rest0)) by congruence.
      rewrite !split1_app in H2 by auto. inv H2. f_equal. auto.
Qed.
