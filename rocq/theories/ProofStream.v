(** Proofs about LimitedStream, the input stream and FileWrapper. *)
From Coq Require Import Arith List NArith ZArith Bool Lia ZifyBool ZifyN ZifyNat.
From Verif Require Import PyStr PyStrFacts ModelStream SpecStream.
Import ListNotations.
Open Scope Z_scope.

(** [d] was taken between [u] and [u']. *)
Definition grew (u u' : under) (d : str) : Prop :=
  u_taken u' = u_taken u ++ d /\ u_left u = d ++ u_left u'.

Lemma grew_refl u p : grew u (mkUnder (u_taken u) (u_left u) p) [].
Proof. split; cbn; [rewrite app_nil_r|]; reflexivity. Qed.
Lemma grew_trans u v w a b : grew u v a -> grew v w b -> grew u w (a ++ b).
Proof. intros [A B] [C D]. split; [rewrite C, A, app_assoc; auto | rewrite B, D, <- app_assoc; auto]. Qed.

Lemma u_take_grew n p u : grew u (u_take n p u) (firstn n (u_left u)).
Proof. split; cbn; [reflexivity | symmetry; apply firstn_skipn]. Qed.

Lemma u_call_spec cap u r u' : u_call cap u = (r, u') ->
  exists d, grew u u' d /\ (length d <= cap)%nat /\
    (forall x, r = Ok x -> x = d) /\
    (forall e, r = Raise e -> exists k f, In (Fails k f) (u_plan u) /\ e = failure_exn f) /\
    incl (u_plan u') (u_plan u).
Proof.
  unfold u_call. intros H. destruct (u_plan u) as [|[k|k f] p] eqn:E; inversion H; subst r u'; clear H.
  - exists (firstn cap (u_left u)). split; [apply u_take_grew|]. split; [apply firstn_le_length|].
    repeat split; try congruence. cbn. intros x [].
  - exists (firstn (Nat.min k cap) (u_left u)). split; [apply u_take_grew|].
    split; [rewrite firstn_length; lia|]. repeat split; try congruence. cbn. intros x Hx. right; auto.
  - exists (firstn (Nat.min k cap) (u_left u)). split; [apply u_take_grew|].
    split; [rewrite firstn_length; lia|]. repeat split; try congruence.
    + intros e [= <-]. exists k, f. split; [left|]; auto.
    + cbn. intros x Hx. right; auto.
Qed.

Lemma u_cap_le z n : 0 <= z -> Z.of_nat (u_cap z n) <= z.
Proof. intros H. unfold u_cap. destruct (Z.ltb_spec z 0); lia. Qed.

Definition taken (s : limited) : str := u_taken (l_under s).
Definition room (s : limited) : Z := Z.max 0 (l_limit s).
(** The position is the number of bytes taken. *)
Definition good (s : limited) : Prop :=
  Z.of_nat (length (taken s)) = l_pos s /\ l_pos s <= room s.

(** What a single call does: [d] is taken, nothing else changes, and the room is kept. *)
Definition moved (s s' : limited) (d : str) : Prop :=
  grew (l_under s) (l_under s') d /\ l_limit s' = l_limit s /\
  incl (u_plan (l_under s')) (u_plan (l_under s)) /\
  Z.of_nat (length (taken s')) <= room s.

Lemma moved_trans s s' s'' a b : moved s s' a -> moved s' s'' b -> moved s s'' (a ++ b).
Proof.
  intros (A & B & C & D) (E & F & G & H). split; [eapply grew_trans; eauto|].
  split; [congruence|]. split; [eapply incl_tran; eauto|]. unfold room in *. rewrite B in H. auto.
Qed.
Lemma moved_refl s : good s -> moved s s [].
Proof.
  intros [A B]. split; [split; [rewrite app_nil_r|]; auto|]. repeat split; auto.
  apply incl_refl. lia.
Qed.

Definition raised (s : limited) (e : exn) : Prop :=
  e = ClientDisconnected \/ exists k f, In (Fails k f) (u_plan (l_under s)) /\ e = failure_exn f.

Lemma on_exhausted_spec s r s' : good s -> on_exhausted s = (r, s') -> exists d,
  moved s s' d /\ l_pos s' = l_pos s /\ good s' /\
  match r with
  | Ok x => x = [] /\ d = []
  | Raise e => exists k f, In (Fails k f) (u_plan (l_under s)) /\ e = failure_exn f
  end.
Proof.
  unfold on_exhausted, u_read. intros G H. destruct (u_call _ _) as [r0 u] eqn:E. inversion H; subst; clear H.
  destruct (u_call_spec _ _ _ _ E) as (d & Hd & L & X & Y & P).
  assert (d = []) as ->.
  { destruct d; auto. exfalso. unfold u_cap in L. change (0 <? 0) with false in L. cbn in L. lia. }
  exists []. destruct G as [G1 G2]. destruct Hd as [T1 T2].
  assert (u_taken u = taken s) as Q by (rewrite T1, app_nil_r; auto).
  split; [split; [split; auto|repeat split; auto; cbn; rewrite ?Q; unfold taken, with_under in *; cbn in *; rewrite ?Q; lia]|].
  split; [reflexivity|]. split.
  { unfold good, taken, with_under, room in *; cbn in *. rewrite Q. auto. }
  destruct r; [split; auto | apply (Y e eq_refl)].
Qed.

Lemma taken_len s s' d : grew (l_under s) (l_under s') d -> (length (taken s') = length (taken s) + length d)%nat.
Proof. intros [A _]. unfold taken. rewrite A, app_length. auto. Qed.

Definition read_amount (s : limited) (z : option Z) : Z :=
  match z with
  | None => l_limit s - l_pos s
  | Some z => if z =? -1 then l_limit s - l_pos s else Z.min z (l_limit s - l_pos s)
  end.

Lemma read_spec s z r s' : good s -> sane (Read z) -> read z s = (r, s') -> exists d,
  moved s s' d /\ l_pos s <= l_pos s' /\
  match r with
  | Ok x => x = d /\ good s' /\
            (l_limit s <= l_pos s /\ x = [] \/
             l_pos s < l_limit s /\ Z.of_nat (length x) = read_amount s z)
  | Raise e => raised s e
  end.
Proof.
  intros G Hz. unfold read. destruct (Z.leb_spec (l_limit s) (l_pos s)) as [Hl|Hl].
  - intros H. destruct (on_exhausted_spec _ _ _ G H) as (d & M & Hp & G' & R).
    exists d. split; auto. split; [lia|]. destruct r.
    + destruct R as [-> ->]. split; auto.
    + right. auto.
  - set (size := match z with None => _ | Some z => _ end).
    set (n := Z.min (l_limit s - l_pos s) size).
    assert (0 <= l_pos s) as P0 by (destruct G; lia).
    assert (n = read_amount s z) as Ha.
    { unfold n, size, read_amount. destruct z as [z|]; cbn in Hz; [destruct (Z.eqb_spec z (-1))|]; lia. }
    assert (0 <= n <= l_limit s - l_pos s) as Hn.
    { unfold n, size. destruct z as [z|]; cbn in Hz; [destruct (Z.eqb_spec z (-1))|]; lia. }
    unfold u_read. destruct (u_call _ _) as [r0 u] eqn:E. intros H.
    destruct (u_call_spec _ _ _ _ E) as (d & Hd & L & X & Y & P).
    assert (Z.of_nat (length d) <= n) as Ld.
    { pose proof (u_cap_le n (length (u_left (l_under s))) ltac:(lia)). lia. }
    assert (T : forall p, moved s (mkLimited p (l_limit s) u) d).
    { intros p. split; [exact Hd|]. repeat split; auto.
      rewrite (taken_len s (mkLimited p (l_limit s) u) d Hd). destruct G. unfold room in *. lia. }
    exists d. destruct r0 as [x|e].
    + specialize (X x eq_refl). subst x.
      destruct (_ && _) eqn:Q; inversion H; subst r s'; clear H.
      * split; [apply T|]. split; [cbn; lia|]. left. reflexivity.
      * split; [apply T|]. split; [cbn; lia|]. split; auto. split.
        { destruct G as [G1 G2]. split.
          - rewrite (taken_len s (mkLimited (l_pos s + Z.of_nat (length d)) (l_limit s) u) d Hd). cbn. lia.
          - unfold room in *. cbn. lia. }
        right. split; auto. rewrite <- Ha.
        destruct (Z.eqb_spec n 0); [lia|]. destruct (Z.eqb_spec (Z.of_nat (length d)) n); [auto|discriminate].
    + destruct (is_caught e); inversion H; subst r s'; clear H.
      * split; [apply T|]. split; [cbn; lia|]. left. auto.
      * split; [apply T|]. split; [cbn; lia|]. right. apply (Y e eq_refl).
Qed.

Definition line_amount (s : limited) (z : option Z) : Z :=
  match z with None => l_limit s - l_pos s | Some z => Z.min z (l_limit s - l_pos s) end.

Lemma readline_spec s z r s' : good s -> sane (ReadLine z) -> readline z s = (r, s') -> exists d,
  moved s s' d /\ l_pos s <= l_pos s' /\
  match r with
  | Ok x => x = d /\ good s' /\
            (l_limit s <= l_pos s /\ x = [] \/
             l_pos s < l_limit s /\ (x = [] -> line_amount s z = 0))
  | Raise e => raised s e
  end.
Proof.
  intros G Hz. unfold readline. destruct (Z.leb_spec (l_limit s) (l_pos s)) as [Hl|Hl].
  - intros H. destruct (on_exhausted_spec _ _ _ G H) as (d & M & Hp & G' & R).
    exists d. split; auto. split; [lia|]. destruct r.
    + destruct R as [-> ->]. split; auto.
    + right. auto.
  - fold (line_amount s z). set (n := line_amount s z).
    assert (0 <= l_pos s) as P0 by (destruct G; lia).
    assert (0 <= n <= l_limit s - l_pos s) as Hn.
    { unfold n, line_amount. destruct z as [z|]; cbn in Hz; lia. }
    unfold u_readline. destruct (u_call _ _) as [r0 u] eqn:E. intros H.
    destruct (u_call_spec _ _ _ _ E) as (d & Hd & L & X & Y & P).
    assert (Z.of_nat (length d) <= n) as Ld.
    { pose proof (u_cap_le n (line_len (u_left (l_under s))) ltac:(lia)). lia. }
    assert (T : forall p, moved s (mkLimited p (l_limit s) u) d).
    { intros p. split; [exact Hd|]. repeat split; auto.
      rewrite (taken_len s (mkLimited p (l_limit s) u) d Hd). destruct G. unfold room in *. lia. }
    exists d. destruct r0 as [x|e].
    + specialize (X x eq_refl). subst x.
      destruct (_ && _) eqn:Q; inversion H; subst r s'; clear H.
      * split; [apply T|]. split; [cbn; lia|]. left. reflexivity.
      * split; [apply T|]. split; [cbn; lia|]. split; auto. split.
        { destruct G as [G1 G2]. split.
          - rewrite (taken_len s (mkLimited (l_pos s + Z.of_nat (length d)) (l_limit s) u) d Hd). cbn. lia.
          - unfold room in *. cbn. lia. }
        right. split; auto. intros ->. destruct (Z.eqb_spec n 0); [auto|discriminate].
    + destruct (is_caught e); inversion H; subst r s'; clear H.
      * split; [apply T|]. split; [cbn; lia|]. left. auto.
      * split; [apply T|]. split; [cbn; lia|]. right. apply (Y e eq_refl).
Qed.

Lemma raised_mono s s' d e : moved s s' d -> raised s' e -> raised s e.
Proof.
  intros (_ & _ & I & _) [H|(k & f & H1 & H2)]; [left; auto|right].
  exists k, f. split; auto.
Qed.

Lemma readlines_loop_spec fuel : forall size last stop acc s r s',
  good s -> (forall z, size = Some z -> last = l_pos s /\ (stop <= l_pos s \/ 0 < z)) ->
  readlines_loop fuel size last stop acc s = Some (r, s') -> exists d,
  moved s s' d /\ l_pos s <= l_pos s' /\
  match r with
  | Ok ls => good s' /\ exists ls', ls = acc ++ ls' /\ concat ls' = d /\ stop <= l_pos s' /\
               (stop <= l_pos s -> ls' = [])
  | Raise e => raised s e
  end.
Proof.
  induction fuel as [|f IH]; intros size last stop acc s r s' G Hs; cbn [readlines_loop]; [discriminate|].
  replace (option_map (fun z => z - (last - l_pos s)) size) with size.
  2: { destruct size as [z|]; auto. destruct (Hs z eq_refl) as [-> _]. cbn. f_equal. lia. }
  destruct (Z.leb_spec stop (l_pos s)) as [Hl|Hl].
  - intros [= <- <-]. exists []. split; [apply moved_refl; auto|]. split; [lia|]. split; auto.
    exists []. rewrite app_nil_r. auto.
  - destruct (readline size s) as [[l|e] s1] eqn:E.
    + assert (Z1 : sane (ReadLine size)).
      { destruct size as [z|]; cbn; auto. destruct (Hs z eq_refl). lia. }
      destruct (readline_spec s size (Ok l) s1 G Z1 E) as (d1 & M1 & P1 & -> & G1 & _).
      intros H. apply IH in H; auto.
      * destruct H as (d2 & M2 & P2 & R). exists (d1 ++ d2). split; [eapply moved_trans; eauto|]. split; [lia|].
        destruct r as [ls|e].
        -- destruct R as (G2 & ls' & -> & <- & Q & _). split; auto. exists (d1 :: ls').
           rewrite <- app_assoc. split; auto. split; auto. split; auto. lia.
        -- eapply raised_mono; eauto.
      * intros z ->. destruct (Hs z eq_refl). split; auto. right. lia.
    + assert (Z1 : sane (ReadLine size)).
      { destruct size as [z|]; cbn; auto. destruct (Hs z eq_refl). lia. }
      destruct (readline_spec s size (Raise e) s1 G Z1 E) as (d1 & M1 & P1 & R).
      intros [= <- <-]. exists d1. auto.
Qed.

Lemma readlines_spec fuel size s r s' : good s -> readlines fuel size s = Some (r, s') -> exists d,
  moved s s' d /\ l_pos s <= l_pos s' /\
  match r with
  | Ok ls => good s' /\ concat ls = d /\ (l_limit s <= l_pos s -> ls = [])
  | Raise e => raised s e
  end.
Proof.
  intros G H. unfold readlines in H. apply readlines_loop_spec in H; auto.
  - destruct H as (d & M & P & R). exists d. split; auto. split; auto. destruct r; auto.
    destruct R as (G' & ls' & -> & Q & Q' & Q''). split; auto. split; auto.
    intros Hl. rewrite Q''; auto. destruct size as [z|]; lia.
  - intros z ->. split; auto. lia.
Qed.

Lemma exhaust_loop_spec fuel : forall to_read chunk s r s',
  good s -> (to_read <= 0 /\ l_limit s <= l_pos s \/ to_read = l_limit s - l_pos s) -> 0 < chunk ->
  exhaust_loop fuel to_read chunk s = Some (r, s') -> exists d,
  moved s s' d /\ l_pos s <= l_pos s' /\
  match r with
  | Ok _ => good s' /\ l_limit s <= l_pos s' /\ (l_limit s <= l_pos s -> d = [])
  | Raise e => raised s e
  end.
Proof.
  induction fuel as [|f IH]; intros to_read chunk s r s' G Ht Hc; cbn [exhaust_loop]; [discriminate|].
  destruct (Z.leb_spec to_read 0) as [Hl|Hl].
  - intros [= <- <-]. exists []. split; [apply moved_refl; auto|]. split; [lia|]. split; auto. split; [lia|auto].
  - set (c := Z.min to_read chunk).
    destruct (read (Some c) s) as [[l|e] s1] eqn:E.
    + destruct (read_spec s (Some c) (Ok l) s1 G ltac:(cbn; lia) E) as (d1 & M1 & P1 & -> & G1 & A).
      assert (l_pos s1 = l_pos s + c) as Hp.
      { destruct A as [A|[A1 A2]]; [lia|]. unfold read_amount in A2.
        destruct (Z.eqb_spec c (-1)); [lia|].
        destruct G as [GA GB], G1 as [GC GD].
        rewrite (taken_len s s1 d1 (proj1 M1)) in GC. lia. }
      intros H. apply IH in H; auto; try lia.
      * destruct H as (d2 & M2 & P2 & R). exists (d1 ++ d2). split; [eapply moved_trans; eauto|]. split; [lia|].
        destruct r as [u|e].
        -- destruct R as (G2 & Q & _). split; auto. split; [|lia].
           destruct M1 as (_ & Ml & _). lia.
        -- eapply raised_mono; eauto.
      * right. destruct M1 as (_ & Ml & _). rewrite Ml, Hp. lia.
    + destruct (read_spec s (Some c) (Raise e) s1 G ltac:(cbn; lia) E) as (d1 & M1 & P1 & R).
      intros [= <- <-]. exists d1. auto.
Qed.

Lemma failure_not_stop f : failure_exn f <> StopIteration.
Proof. destruct f; discriminate. Qed.
Lemma raised_not_stop s e : raised s e -> e <> StopIteration.
Proof. intros [->|(k & f & _ & ->)]; [discriminate | apply failure_not_stop]. Qed.

(** One call of any kind. *)
Lemma do_call_spec fuel c s r s' : good s -> sane c -> do_call fuel c s = Some (r, s') -> exists d,
  moved s s' d /\ l_pos s <= l_pos s' /\
  match r with
  | Ok ds => good s' /\ exists x, d = concat ds ++ x /\ (x = [] \/ l_limit s <= l_pos s')
  | Raise e => e = StopIteration /\ good s' /\ d = [] /\ l_limit s <= l_pos s \/ raised s e
  end.
Proof.
  intros G Hs. destruct c as [z|z|z| |k]; cbn [do_call]; unfold one.
  - intros [= <- <-]. destruct (read z s) as [r0 s0] eqn:E.
    destruct (read_spec _ _ _ _ G Hs E) as (d & M & P & R). exists d. split; auto. split; auto. cbn.
    destruct r0; cbn; auto. destruct R as (-> & G' & _). split; auto. exists []. rewrite !app_nil_r. auto.
  - intros [= <- <-]. destruct (readline z s) as [r0 s0] eqn:E.
    destruct (readline_spec _ _ _ _ G Hs E) as (d & M & P & R). exists d. split; auto. split; auto. cbn.
    destruct r0; cbn; auto. destruct R as (-> & G' & _). split; auto. exists []. rewrite !app_nil_r. auto.
  - intros H. destruct (readlines_spec _ _ _ _ _ G H) as (d & M & P & R). exists d. split; auto. split; auto.
    destruct r; auto. destruct R as (G' & <- & _). split; auto. exists []. rewrite app_nil_r. auto.
  - unfold next_line. destruct (readline None s) as [r0 s0] eqn:E.
    destruct (readline_spec s None r0 s0 G I E) as (d & M & P & R).
    destruct r0 as [[|a l]|e]; intros [= <- <-]; exists d; (split; [exact M|]); (split; [exact P|]).
    + destruct R as (<- & G' & R). left. split; auto. split; auto. split; auto.
      destruct R as [[R _]|[R R']]; auto. specialize (R' eq_refl). cbn in R'. lia.
    + destruct R as (<- & G' & _). split; auto. exists []. cbn. rewrite !app_nil_r. auto.
    + right. auto.
  - destruct (exhaust fuel k s) as [[r0 s0]|] eqn:E; [|discriminate]. intros [= <- <-].
    unfold exhaust in E. apply exhaust_loop_spec in E; auto.
    destruct E as (d & M & P & R). exists d. split; auto. split; auto. destruct r0; cbn; auto.
    destruct R as (G' & L & _). split; auto. exists d. auto.
Qed.

Lemma do_calls_spec fuel : forall cs s rs s', good s -> Forall sane cs ->
  do_calls fuel cs s = Some (rs, s') -> Forall normal (removelast rs) -> exists d,
  moved s s' d /\ l_pos s <= l_pos s' /\ exists x, d = handed rs ++ x /\
  (Forall normal rs -> good s' /\ (x = [] \/ l_limit s <= l_pos s')).
Proof.
  induction cs as [|c cs IH]; intros s rs s' G Hc; cbn [do_calls].
  - intros [= <- <-] _. exists []. split; [apply moved_refl; auto|]. split; [lia|].
    exists []. split; auto.
  - destruct (do_call fuel c s) as [[r s1]|] eqn:E; [|discriminate].
    destruct (do_calls fuel cs s1) as [[rs1 s2]|] eqn:E2; [|discriminate]. intros [= <- <-] Hn.
    inversion Hc as [|? ? Hc1 Hc2]; subst.
    destruct (do_call_spec _ _ _ _ _ G Hc1 E) as (d & M & P & R).
    destruct cs as [|c2 cs].
    + cbn in E2. injection E2 as <- <-. exists d. split; auto. split; auto.
      unfold handed. cbn [map concat]. rewrite app_nil_r.
      destruct r as [ds|e].
      * destruct R as (G' & x & -> & Hx). exists x. auto.
      * exists d. split; auto. intros N. inversion N as [|? ? N1 _]; subst. cbn in N1. subst e.
        destruct R as [(_ & G' & -> & L)|R]; [split; auto|].
        exfalso. exact (raised_not_stop _ _ R eq_refl).
    + assert (rs1 <> []) as Hne.
      { cbn [do_calls] in E2. destruct (do_call fuel c2 s1) as [[? ?]|]; [|discriminate].
        destruct (do_calls fuel cs _) as [[? ?]|]; [|discriminate]. injection E2 as <- _. discriminate. }
      assert (removelast (r :: rs1) = r :: removelast rs1) as Hrl by (destruct rs1; [easy|reflexivity]).
      rewrite Hrl in Hn. inversion Hn as [|? ? N1 N2]; subst.
      assert (good s1 /\ exists x, d = (match r with Ok ds => concat ds | Raise _ => [] end) ++ x /\ (x = [] \/ l_limit s <= l_pos s1)) as (G1 & x & Hd & Hx).
      { destruct r as [ds|e]; [exact R|]. cbn in N1. subst e.
        destruct R as [(_ & G' & -> & L)|R]; [split; auto; exists []; auto|].
        exfalso. exact (raised_not_stop _ _ R eq_refl). }
      destruct (IH s1 rs1 s2 G1 Hc2 E2 N2) as (d2 & M2 & P2 & x2 & Hd2 & Hx2).
      exists (d ++ d2). split; [eapply moved_trans; eauto|]. split; [lia|].
      unfold handed in *. cbn [map concat].
      set (a := match r with Ok ds => concat ds | Raise _ => [] end) in *.
      pose proof M as (Mg & Ml & _ & _). pose proof M2 as (Mg2 & _ & _ & Mr2).
      assert (l_limit s <= l_pos s1 -> d2 = []) as Hz.
      { intros L. destruct G1 as [GA GB]. unfold room in *. rewrite Ml in *.
        assert (length d2 = 0)%nat; [|destruct d2; auto; discriminate].
        rewrite (taken_len s1 s2 d2 Mg2) in Mr2. 
        pose proof (Zle_0_nat (length (taken s1))). lia. }
      destruct Hx as [-> | L].
      * exists x2. split; [subst d d2; rewrite app_nil_r, app_assoc; auto|].
        intros N. inversion N as [|? ? Na Nb]; subst. specialize (Hx2 Nb).
        rewrite Ml in Hx2. exact Hx2.
      * specialize (Hz L). assert (concat (map (fun r0 => match r0 with Ok ds => concat ds | Raise _ => [] end) rs1) = [] /\ x2 = []) as [Hh ->].
        { rewrite Hz in Hd2. symmetry in Hd2. apply app_eq_nil in Hd2. auto. }
        exists x. split; [subst d; rewrite Hz, Hh, !app_nil_r; auto|].
        intros N. inversion N as [|? ? Na Nb]; subst. destruct (Hx2 Nb) as [Hg _].
        split; auto. right. lia.
Qed.

Lemma good_start u limit : u_taken u = [] -> good (limited_stream u limit).
Proof. intros H. split; cbn; unfold taken, room; cbn; rewrite ?H; cbn; lia. Qed.

(** C33 *)
Lemma limited_bound : forall fuel limit data plan cs rs s',
  Forall sane cs ->
  do_calls fuel cs (limited_stream (fresh data plan) limit) = Some (rs, s') ->
  Forall normal (removelast rs) ->
  Z.of_nat (length (u_taken (l_under s'))) <= Z.max 0 limit /\
  data = u_taken (l_under s') ++ u_left (l_under s') /\
  exists rest, u_taken (l_under s') = handed rs ++ rest.
Proof.
  intros fuel limit data plan cs rs s' Hc H Hn.
  destruct (do_calls_spec fuel cs _ rs s' (good_start (fresh data plan) limit eq_refl) Hc H Hn)
    as (d & ([M1 M2] & Ml & _ & Mr) & _ & x & Hd & _).
  cbn in M1, M2. split; [exact Mr|]. split; [rewrite M1; exact M2|]. exists x. rewrite M1. auto.
Qed.

(** ** Every call returns *)
Definition nonneg (s : limited) : Prop := 0 <= l_pos s.
Lemma on_exhausted_pos s : l_pos (snd (on_exhausted s)) = l_pos s /\ l_limit (snd (on_exhausted s)) = l_limit s.
Proof. unfold on_exhausted. destruct (u_read 0 _). auto. Qed.
Lemma read_pos z s : l_pos s <= l_pos (snd (read z s)) /\ l_limit (snd (read z s)) = l_limit s.
Proof.
  unfold read. destruct (_ <=? _).
  - destruct (on_exhausted_pos s). lia.
  - destruct (u_read _ _) as [[d|e] u]; [destruct (_ && _) | destruct (is_caught e)]; cbn; lia.
Qed.
Lemma readline_pos z s : l_pos s <= l_pos (snd (readline z s)) /\ l_limit (snd (readline z s)) = l_limit s.
Proof.
  unfold readline. destruct (_ <=? _).
  - destruct (on_exhausted_pos s). lia.
  - destruct (u_readline _ _) as [[d|e] u]; [destruct (_ && _) | destruct (is_caught e)]; cbn; lia.
Qed.
Lemma readline_progress z s l s' : l_pos s < l_limit s -> (forall n, z = Some n -> n <> 0) ->
  readline z s = (Ok l, s') -> l_pos s < l_pos s'.
Proof.
  intros Hl Hz. unfold readline. destruct (Z.leb_spec (l_limit s) (l_pos s)); [lia|].
  fold (line_amount s z). destruct (u_readline _ _) as [[d|e] u].
  - destruct (_ && _) eqn:E; [discriminate|]. intros [= <- <-]. cbn.
    destruct (Z.eqb_spec (line_amount s z) 0) as [E0|].
    + exfalso. unfold line_amount in E0. destruct z as [n|]; [|lia]. specialize (Hz n eq_refl). lia.
    + destruct d; [discriminate|]. cbn. lia.
  - destruct (is_caught e); discriminate.
Qed.
Lemma readlines_loop_ends fuel : forall size last stop acc s,
  stop <= l_limit s -> (forall z, size = Some z -> last = l_pos s /\ (stop <= l_pos s \/ 0 < z)) ->
  (Z.to_nat (stop - l_pos s) < fuel)%nat ->
  readlines_loop fuel size last stop acc s <> None.
Proof.
  induction fuel as [|f IH]; intros size last stop acc s Hst Hs Hf; [lia|]. cbn [readlines_loop].
  replace (option_map (fun z => z - (last - l_pos s)) size) with size.
  2: { destruct size as [z|]; auto. destruct (Hs z eq_refl) as [-> _]. cbn. f_equal. lia. }
  destruct (Z.leb_spec stop (l_pos s)) as [Hl|Hl]; [discriminate|].
  pose proof (readline_pos size s) as [_ Hlim].
  destruct (readline size s) as [[l|e] s1] eqn:E; [|discriminate]. cbn in Hlim.
  assert (l_pos s < l_pos s1).
  { eapply readline_progress; eauto; [lia|]. intros n ->. destruct (Hs n eq_refl). lia. }
  apply IH; [lia| |lia]. intros z ->. destruct (Hs z eq_refl). split; auto. right. lia.
Qed.
Lemma exhaust_loop_ends fuel : forall to_read chunk s,
  0 < chunk -> (Z.to_nat to_read < fuel)%nat -> exhaust_loop fuel to_read chunk s <> None.
Proof.
  induction fuel as [|f IH]; intros to_read chunk s Hc Hf; [lia|]. cbn [exhaust_loop].
  destruct (Z.leb_spec to_read 0) as [Hl|Hl]; [discriminate|].
  destruct (read _ s) as [[l|e] s1]; [|discriminate]. apply IH; lia.
Qed.
Lemma do_call_ends fuel c s : 0 <= l_pos s -> sane c -> (Z.to_nat (l_limit s) < fuel)%nat ->
  exists r s', do_call fuel c s = Some (r, s') /\ 0 <= l_pos s' /\ l_limit s' = l_limit s.
Proof.
  intros P Hs Hf.
  assert (RL : forall n z last stop acc s0, 0 <= l_pos s0 -> forall r s', readlines_loop n z last stop acc s0 = Some (r, s') -> 0 <= l_pos s' /\ l_limit s' = l_limit s0).
  { induction n as [|n IH]; cbn [readlines_loop]; intros z last stop acc s0 P0 r s'; [discriminate|].
    destruct (_ <=? _); [intros [= <- <-]; auto|].
    set (z' := option_map _ _). pose proof (readline_pos z' s0) as [Q1 Q2].
    destruct (readline z' s0) as [[l|e] s1]; cbn in Q1, Q2.
    - intros H. apply IH in H; [|lia]. destruct H. split; [auto|congruence].
    - intros [= <- <-]. split; [lia|auto]. }
  assert (XL : forall n a b s0, 0 <= l_pos s0 -> forall r s', exhaust_loop n a b s0 = Some (r, s') -> 0 <= l_pos s' /\ l_limit s' = l_limit s0).
  { induction n as [|n IH]; cbn [exhaust_loop]; intros a b s0 P0 r s'; [discriminate|].
    destruct (_ <=? _); [intros [= <- <-]; auto|].
    set (z' := Some _). pose proof (read_pos z' s0) as [Q1 Q2].
    destruct (read z' s0) as [[l|e] s1]; cbn in Q1, Q2.
    - intros H. apply IH in H; [|lia]. destruct H. split; [auto|congruence].
    - intros [= <- <-]. split; [lia|auto]. }
  destruct c as [z|z|z| |k]; cbn [do_call]; unfold one.
  - eexists _, _. split; [reflexivity|]. destruct (read_pos z s). split; [lia|auto].
  - eexists _, _. split; [reflexivity|]. destruct (readline_pos z s). split; [lia|auto].
  - unfold readlines. set (stop := match z with Some _ => _ | None => _ end).
    destruct (readlines_loop fuel z (l_pos s) stop [] s) as [[r s']|] eqn:E.
    + exists r, s'. split; auto. eapply RL; eauto.
    + exfalso. revert E. apply readlines_loop_ends.
      * unfold stop. destruct z; lia.
      * intros n ->. split; auto. unfold stop. lia.
      * unfold stop. destruct z; lia.
  - eexists _, _. split; [reflexivity|]. cbn. unfold next_line. pose proof (readline_pos None s) as [Q1 Q2].
    destruct (readline None s) as [[[|a l]|e] s1]; cbn in *; lia.
  - unfold exhaust. destruct (exhaust_loop fuel (l_limit s - l_pos s) k s) as [[r s']|] eqn:E.
    + eexists _, s'. split; [reflexivity|]. eapply XL; eauto.
    + exfalso. revert E. apply exhaust_loop_ends; auto. lia.
Qed.
Lemma do_calls_ends fuel : forall cs s, 0 <= l_pos s -> Forall sane cs -> (Z.to_nat (l_limit s) < fuel)%nat ->
  exists rs s', do_calls fuel cs s = Some (rs, s').
Proof.
  induction cs as [|c cs IH]; intros s P Hs Hf; cbn [do_calls]; [eauto|].
  inversion Hs as [|? ? H1 H2]; subst.
  destruct (do_call_ends fuel c s P H1 Hf) as (r & s' & -> & P' & L).
  rewrite <- L in Hf. destruct (IH s' P' H2 Hf) as (rs & s'' & ->). eauto.
Qed.
Lemma limited_ends : forall limit u cs, Forall sane cs ->
  exists rs s', do_calls (S (Z.to_nat limit)) cs (limited_stream u limit) = Some (rs, s').
Proof. intros limit u cs H. apply do_calls_ends; cbn; auto; lia. Qed.

(** ** C34 *)
Lemma at_limit s : good s -> l_limit s <= l_pos s -> Z.of_nat (length (taken s)) = room s.
Proof. intros [A B] L. unfold room in *. lia. Qed.

Lemma history_good fuel limit data plan cs rs s : Forall sane cs ->
  do_calls fuel cs (limited_stream (fresh data plan) limit) = Some (rs, s) ->
  Forall normal rs -> good s /\ l_limit s = limit /\ data = taken s ++ u_left (l_under s) /\ incl (u_plan (l_under s)) plan.
Proof.
  intros Hc H Hn.
  assert (Forall normal (removelast rs)) as Hn'.
  { rewrite Forall_forall in *. intros r Hr. apply Hn. clear -Hr. induction rs as [|a [|b l] IH]; cbn in *; auto.
    destruct Hr; auto. }
  destruct (do_calls_spec fuel cs _ rs s (good_start (fresh data plan) limit eq_refl) Hc H Hn')
    as (d & ([M1 M2] & Ml & Mi & Mr) & _ & x & Hd & Hx).
  cbn in *. destruct (Hx Hn) as [G _]. repeat split; auto; try apply G. unfold taken. rewrite M1; auto.
Qed.

Lemma end_means_complete : forall fuel limit data plan cs rs s c r s',
  Forall sane cs -> sane c ->
  do_calls fuel cs (limited_stream (fresh data plan) limit) = Some (rs, s) -> Forall normal rs ->
  asks_for_data c -> do_call fuel c s = Some (r, s') -> says_end r ->
  Z.of_nat (length (u_taken (l_under s))) = Z.max 0 limit.
Proof.
  intros fuel limit data plan cs rs s c r s' Hcs Hc H Hn Ha E Hr.
  destruct (history_good _ _ _ _ _ _ _ Hcs H Hn) as (G & L & _).
  assert (l_limit s <= l_pos s -> Z.of_nat (length (u_taken (l_under s))) = Z.max 0 limit) as K.
  { intros K. rewrite <- L. apply (at_limit s G K). }
  destruct c as [z|z|z| |k]; cbn [do_call] in E; unfold one in E; try contradiction.
  - destruct (read z s) as [r0 s0] eqn:Er. cbn in E. injection E as <- <-.
    destruct (read_spec _ _ _ _ G Hc Er) as (d & M & P & R).
    destruct r0 as [x|e].
    + destruct Hr as [Hr|Hr]; [|discriminate]. injection Hr as ->.
      destruct R as (_ & _ & [[R _]|[R R']]); auto. exfalso. cbn in R', Ha, Hc. unfold read_amount in R'.
      destruct z as [z|]; [destruct (Z.eqb_spec z (-1))|]; lia.
    + destruct Hr as [Hr|Hr]; [discriminate|]. injection Hr as ->. exfalso. exact (raised_not_stop _ _ R eq_refl).
  - destruct (readline z s) as [r0 s0] eqn:Er. cbn in E. injection E as <- <-.
    destruct (readline_spec _ _ _ _ G Hc Er) as (d & M & P & R).
    destruct r0 as [x|e].
    + destruct Hr as [Hr|Hr]; [|discriminate]. injection Hr as ->.
      destruct R as (_ & _ & [[R _]|[R R']]); auto. exfalso. specialize (R' eq_refl). cbn in Ha, Hc. unfold line_amount in R'.
      destruct z as [z|]; lia.
    + destruct Hr as [Hr|Hr]; [discriminate|]. injection Hr as ->. exfalso. exact (raised_not_stop _ _ R eq_refl).
  - unfold next_line in E. destruct (readline None s) as [r0 s0] eqn:Er.
    destruct (readline_spec s None _ _ G I Er) as (d & M & P & R).
    destruct r0 as [[|a x]|e]; cbn in E; injection E as <- <-.
    + destruct R as (_ & _ & [[R _]|[R R']]); auto. exfalso. specialize (R' eq_refl). cbn in R'. lia.
    + destruct Hr; discriminate.
    + destruct Hr as [Hr|Hr]; [discriminate|]. injection Hr as ->. exfalso. exact (raised_not_stop _ _ R eq_refl).
Qed.

Lemma caught_io plan e : io_failures plan ->
  (exists k f, In (Fails k f) plan /\ e = failure_exn f) -> is_caught e = true.
Proof. intros Hp (k & f & Hf & ->). destruct (Hp k f Hf) as [->| ->]; reflexivity. Qed.

Lemma truncated_reported : forall fuel limit data plan cs rs s r s',
  Forall sane cs -> Z.of_nat (length data) < limit -> io_failures plan ->
  do_calls fuel cs (limited_stream (fresh data plan) limit) = Some (rs, s) -> Forall normal rs ->
  do_call fuel (Read None) s = Some (r, s') -> r = Raise ClientDisconnected.
Proof.
  intros fuel limit data plan cs rs s r s' Hc Hl Hp H Hn E.
  destruct (history_good _ _ _ _ _ _ _ Hc H Hn) as (G & L & Hd & Hi).
  cbn in E. injection E as <- <-. unfold one.
  assert (l_pos s < l_limit s) as Hlt.
  { destruct G as [GA GB]. rewrite L. rewrite Hd, app_length in Hl. lia. }
  unfold read. destruct (Z.leb_spec (l_limit s) (l_pos s)) as [|_]; [lia|].
  replace (Z.min (l_limit s - l_pos s) (l_limit s)) with (l_limit s - l_pos s) by (destruct G; lia).
  unfold u_read. destruct (u_call _ _) as [r0 u] eqn:E.
  destruct (u_call_spec _ _ _ _ E) as (d & [D1 D2] & Ld & X & Y & P). destruct r0 as [x|e].
  - specialize (X x eq_refl). subst x. destruct (_ && _) eqn:Q; [reflexivity|]. exfalso.
    assert (Z.of_nat (length d) = l_limit s - l_pos s).
    { destruct (Z.eqb_spec (l_limit s - l_pos s) 0); [lia|].
      destruct (Z.eqb_spec (Z.of_nat (length d)) (l_limit s - l_pos s)); [auto|discriminate]. }
    destruct G as [GA GB]. rewrite Hd, app_length, D2, app_length in Hl. lia.
  - rewrite (caught_io (u_plan (l_under s)) e); [reflexivity| |].
    + intros k f Hf. apply (Hp k f). auto.
    + apply (Y e eq_refl).
Qed.

Lemma reliable_suffix plan p : reliable plan -> incl p plan -> reliable p.
Proof. intros H I s Hs. apply H. auto. Qed.

Lemma complete_then_empty : forall fuel limit data plan cs rs s c,
  Forall sane cs ->
  do_calls fuel cs (limited_stream (fresh data plan) limit) = Some (rs, s) -> Forall normal rs ->
  reliable plan -> Z.of_nat (length (u_taken (l_under s))) = Z.max 0 limit ->
  (0 < fuel)%nat ->
  exists s', u_taken (l_under s') = u_taken (l_under s) /\
    do_call fuel c s = Some (match c with
                             | Read _ | ReadLine _ => Ok [[]]
                             | ReadLines _ | Exhaust _ => Ok []
                             | Next => Raise StopIteration
                             end, s').
Proof.
  intros fuel limit data plan cs rs s c Hc H Hn Hr Ht Hf.
  destruct (history_good _ _ _ _ _ _ _ Hc H Hn) as (G & L & Hd & Hi).
  assert (l_limit s <= l_pos s) as Hl by (destruct G as [GA GB]; unfold taken in *; lia).
  assert (exists s', on_exhausted s = (Ok [], s') /\ u_taken (l_under s') = u_taken (l_under s)) as (s1 & E1 & T1).
  { destruct (on_exhausted s) as [r s1] eqn:E.
    destruct (on_exhausted_spec _ _ _ G E) as (d & ([M1 M2] & _) & _ & _ & R).
    destruct r as [x|e].
    - destruct R as [-> ->]. exists s1. rewrite app_nil_r in M1. auto.
    - exfalso. destruct R as (k & f & R & _). destruct (Hr (Fails k f) (Hi _ R)) as [k' Hk]. discriminate. }
  assert ((l_limit s <=? l_pos s) = true) as Hb by lia.
  destruct c as [z|z|z| |k]; cbn [do_call]; unfold one.
  - exists s1. split; auto. unfold read. rewrite Hb, E1. reflexivity.
  - exists s1. split; auto. unfold readline. rewrite Hb, E1. reflexivity.
  - exists s. split; auto. unfold readlines. destruct fuel; [lia|]. cbn [readlines_loop].
    set (stop := match z with Some _ => _ | None => _ end).
    replace (stop <=? l_pos s) with true; [reflexivity|]. unfold stop. destruct z; lia.
  - exists s1. split; auto. unfold next_line, readline. rewrite Hb, E1. reflexivity.
  - exists s. split; auto. unfold exhaust. destruct fuel; [lia|]. cbn [exhaust_loop].
    replace (l_limit s - l_pos s <=? 0) with true by lia. reflexivity.
Qed.

(** ** C42 *)
Lemma progressing_incl p q : progressing p -> incl q p -> progressing q.
Proof. intros H I s Hs. apply H. auto. Qed.

Lemma u_read_progress bs u : (0 < bs) -> progressing (u_plan u) ->
  exists d u', u_read bs u = (Ok d, u') /\ grew u u' d /\ Z.of_nat (length d) <= bs /\
    progressing (u_plan u') /\ (d = [] -> u_left u = []).
Proof.
  intros Hb Hp. unfold u_read. destruct (u_call _ _) as [r u'] eqn:E.
  destruct (u_call_spec _ _ _ _ E) as (d & Hd & Ld & X & Y & P).
  destruct r as [x|e].
  - specialize (X x eq_refl). subst x. exists d, u'. split; auto. split; auto.
    pose proof (u_cap_le bs (length (u_left u)) ltac:(lia)). split; [lia|].
    split; [eapply progressing_incl; eauto|].
    intros ->. unfold u_call in E.
    assert (forall n, (0 < n)%nat -> firstn n (u_left u) = [] -> u_left u = []) as F.
    { intros n Hn. destruct n; [lia|]. destruct (u_left u); auto; discriminate. }
    destruct (u_left u) as [|c l] eqn:El; auto. exfalso.
    assert (0 < u_cap bs (length (c :: l)))%nat as Hc.
    { unfold u_cap. destruct (Z.ltb_spec bs 0); cbn [length]; lia. }
    destruct (u_plan u) as [|[k|k f] p] eqn:Ep.
    + inversion E as [[E1 E2]]. apply (F _ Hc) in E1. discriminate.
    + inversion E as [[E1 E2]]. destruct (Hp (Gives k)) as [k' Hk]; [left; auto|].
      injection Hk as ->. cbn [length] in Hc. apply F in E1; [discriminate|]. lia.
    + discriminate.
  - exfalso. destruct (Y e eq_refl) as (k & f & Hf & _). destruct (Hp _ Hf) as [k' Hk]. discriminate.
Qed.

Lemma file_chunks_spec bs : 0 < bs -> forall fuel u, progressing (u_plan u) ->
  (length (u_left u) < fuel)%nat ->
  exists ds u', file_chunks fuel bs u = Some (Ok ds, u') /\
    concat ds = u_left u /\ u_left u' = [] /\ Forall (fun d => d <> [] /\ Z.of_nat (length d) <= bs) ds.
Proof.
  intros Hb. induction fuel as [|f IH]; intros u Hp Hf; [lia|]. cbn [file_chunks].
  destruct (u_read_progress bs u Hb Hp) as (d & u1 & -> & [G1 G2] & Ld & P1 & He).
  destruct d as [|a d].
  - exists [], u1. split; auto. rewrite (He eq_refl) in *. split; auto.
  - destruct (IH u1 P1) as (ds & u2 & -> & C & El & F).
    { rewrite G2, app_length in Hf. cbn in Hf. lia. }
    exists ((a :: d) :: ds), u2. split; auto. split; [|split; auto].
    + cbn [concat]. rewrite C, G2. auto.
    + constructor; auto. split; [discriminate|auto].
Qed.

(** ** C44 *)
Lemma content_length_nonneg environ n : get_content_length environ = Some n -> 0 <= n.
Proof.
  unfold get_content_length. destruct (dget _ _); [|discriminate].
  destruct (py_int _); cbn; [|discriminate]. intros [= <-]. lia.
Qed.
Lemma int_digits_chars s d : int_digits s = Some d -> Forall (fun c => is_ascii_digit c = true \/ c = 95%N) s.
Proof.
  revert d. induction s as [s IH] using (induction_ltof1 _ (@length N)); unfold ltof in IH.
  intros d. destruct s as [|c s]; [discriminate|]. cbn [int_digits].
  destruct (is_ascii_digit c) eqn:Ec; [|discriminate].
  destruct s as [|e s]; [intros _; constructor; auto|].
  destruct (N.eqb_spec e 95) as [->|].
  - destruct (int_digits s) as [d'|] eqn:E; [|discriminate]. intros _.
    constructor; auto. constructor; auto. eapply IH; [cbn; lia|eauto].
  - destruct (int_digits (e :: s)) as [d'|] eqn:E; [|discriminate]. intros _.
    constructor; auto. eapply IH; [cbn; lia|eauto].
Qed.
Lemma py_int_chars s n c : py_int s = Some n -> In c s ->
  is_ascii_digit c = true \/ c = 95%N \/ c = 43%N \/ c = 45%N \/ is_space c = true.
Proof.
  unfold py_int. intros H Hc.
  assert (forall f x t, In x t -> In x (lstrip_by f t) \/ f x = true) as L.
  { intros f x t. induction t as [|y t IH]; cbn; [auto|]. intros [->|Hx].
    - destruct (f x) eqn:E; [auto|left; left; auto].
    - destruct (f y); [auto|left; right; auto]. }
  assert (In c (strip s) \/ is_space c = true) as [Hs|Hs].
  { unfold strip, strip_by, rstrip_by. destruct (L is_space c s Hc) as [H1|]; [|auto].
    destruct (L is_space c (rev (lstrip_by is_space s))) as [H2|]; [rewrite <- in_rev; auto| |auto].
    left. rewrite <- in_rev. auto. }
  2: auto.
  destruct (strip s) as [|a r]; [contradiction|].
  assert (forall t x d, int_digits t = Some d -> In x t -> is_ascii_digit x = true \/ x = 95%N) as D.
  { intros t x d Hd Hx. pose proof (int_digits_chars _ _ Hd) as F. rewrite Forall_forall in F. auto. }
  destruct (N.eqb_spec a 45) as [->|].
  - destruct (int_digits r) eqn:E; [|discriminate]. destruct Hs as [<-|Hs]; [auto|].
    destruct (D _ _ _ E Hs); auto.
  - destruct (N.eqb_spec a 43) as [->|].
    + destruct (int_digits r) eqn:E; [|discriminate]. destruct Hs as [<-|Hs]; [auto|].
      destruct (D _ _ _ E Hs); auto.
    + destruct (int_digits (a :: r)) eqn:E; [|discriminate].
      destruct (D _ _ _ E Hs); auto.
Qed.

(** ** Reading a limited stream chunk by chunk *)
Lemma read_chunks_spec fuel bs : 0 < bs -> forall s r s', good s ->
  read_chunks fuel bs s = Some (r, s') -> exists d, moved s s' d /\
  match r with
  | Ok ds => concat ds = d /\ good s' /\ l_limit s <= l_pos s' /\ Forall (fun x => x <> []) ds
  | Raise e => raised s e
  end.
Proof.
  intros Hb. induction fuel as [|f IH]; intros s r s' G; cbn [read_chunks]; [discriminate|].
  destruct (read (Some bs) s) as [[x|e] s1] eqn:E.
  - destruct (read_spec s (Some bs) _ _ G ltac:(cbn; lia) E) as (d & M & P & -> & G1 & A).
    destruct d as [|a d].
    + intros [= <- <-]. exists []. split; auto. split; auto. split; auto. split; auto.
      destruct A as [[A _]|[A B]]; [lia|]. exfalso. cbn in B. destruct (bs =? -1); lia.
    + destruct (read_chunks f bs s1) as [[[ds|e] s2]|] eqn:E2; intros [= <- <-];
        destruct (IH _ _ _ G1 E2) as (d2 & M2 & R); exists ((a :: d) ++ d2);
        (split; [eapply moved_trans; eauto|]).
      * destruct R as (<- & G2 & L & F). split; auto. split; auto. destruct M as (_ & Ml & _).
        split; [lia|]. constructor; [discriminate|auto].
      * eapply raised_mono; eauto.
  - destruct (read_spec s (Some bs) _ _ G ltac:(cbn; lia) E) as (d & M & P & R).
    intros [= <- <-]. exists d. auto.
Qed.

Lemma chunks_of_limited : forall fuel bs limit data plan ds s',
  0 < bs -> read_chunks fuel bs (limited_stream (fresh data plan) limit) = Some (Ok ds, s') ->
  exists rest, data = concat ds ++ rest /\ Z.of_nat (length (concat ds)) = Z.max 0 limit.
Proof.
  intros fuel bs limit data plan ds s' Hb H.
  destruct (read_chunks_spec fuel bs Hb _ _ _ (good_start (fresh data plan) limit eq_refl) H)
    as (d & ([M1 M2] & Ml & _) & <- & G & L & _).
  cbn in *. exists (u_left (l_under s')). split; auto.
  pose proof (at_limit s' G) as K. unfold taken, room in K. rewrite M1, Ml in K. apply K. lia.
Qed.
Lemma chunks_end : forall fuel bs u limit, 0 < bs -> (Z.to_nat limit < fuel)%nat ->
  read_chunks fuel bs (limited_stream u limit) <> None.
Proof.
  intros fuel bs u limit Hb.
  assert (forall fuel s, 0 <= l_pos s -> (Z.to_nat (l_limit s - l_pos s) < fuel)%nat -> read_chunks fuel bs s <> None) as K.
  { clear fuel. induction fuel as [|f IH]; intros s P Hf; [lia|]. cbn [read_chunks].
    destruct (read (Some bs) s) as [[[|a x]|e] s1] eqn:E; try discriminate.
    assert (l_pos s < l_pos s1 /\ l_limit s1 = l_limit s /\ l_pos s < l_limit s) as (Hp & Hl & Hlt).
    { revert E. unfold read. destruct (Z.leb_spec (l_limit s) (l_pos s)).
      - unfold on_exhausted, u_read. destruct (u_call _ _) as [r u0] eqn:E0. intros [= -> <-].
        destruct (u_call_spec _ _ _ _ E0) as (d & _ & Ld & X & _). specialize (X _ eq_refl). subst d.
        exfalso. unfold u_cap in Ld. cbn in Ld. lia.
      - destruct (bs =? -1); destruct (u_read _ _) as [[d|e] u0]; try (destruct (_ && _); [discriminate|]; intros [= -> <-]; cbn; lia);
          destruct (is_caught e); discriminate. }
    specialize (IH s1 ltac:(lia) ltac:(lia)).
    destruct (read_chunks f bs s1) as [[[ds|e] s2]|]; [discriminate|discriminate|easy]. }
  intros Hf. apply K; cbn; lia.
Qed.

(** C44: whatever the application reads through get_input_stream *)
Lemma input_bounded : forall environ data plan safe n s fuel cs rs s',
  get_input_stream environ false (fresh data plan) safe = ILimited s ->
  get_content_length environ = Some n ->
  Forall sane cs -> do_calls fuel cs s = Some (rs, s') -> Forall normal (removelast rs) ->
  Z.of_nat (length (u_taken (l_under s'))) <= n.
Proof.
  intros environ data plan safe n s fuel cs rs s' Hi Hn Hc H Hr.
  unfold get_input_stream in Hi. rewrite Hn in Hi. injection Hi as <-.
  destruct (limited_bound fuel n data plan cs rs s' Hc H Hr) as [A _].
  pose proof (content_length_nonneg _ _ Hn). lia.
Qed.
