(** Lemmas about redirect_to and relative URLs. *)
From Coq Require Import Arith List NArith ZArith Bool Lia ZifyBool ZifyN ZifyNat Permutation Sorted.
From Verif Require Import PyStr PyStrFacts Regex RegexFacts ModelUrls SpecUrls ProofUrls ProofIri ModelRoute SpecRoute ProofRoute ModelUrlMap SpecUrlMap ProofUrlMap SpecRequest SpecCanon ProofCanon SpecJoin.
From Verif Require ProofCurrent.
Import ListNotations.
Open Scope N_scope.

(** ** Segments *)
Lemma word_slash s : word s -> ~ In 47 s.
Proof. intros H X. apply H in X. lia. Qed.
Lemma folders_app a b : folders (a ++ b) = folders a ++ folders b.
Proof. unfold folders. apply flat_map_app. Qed.
Lemma split_folders dirs x : Forall word dirs -> ~ In 47 x -> split_on 47 (folders dirs ++ x) = dirs ++ [x].
Proof.
  intros H Hx. induction H as [|d l Hd Hl IH]; cbn [folders flat_map app]; [apply split_on_free; auto|].
  rewrite <- !app_assoc. cbn [app]. rewrite split_on_next by (apply word_slash; auto). f_equal. exact IH.
Qed.
Lemma join_folders d x : join [47] (d ++ [x]) = folders d ++ x.
Proof.
  induction d as [|y d IH]; [reflexivity|]. change (folders (y :: d)) with ((y ++ [47]) ++ folders d). rewrite <- !app_assoc, <- IH. cbn [app].
  destruct (d ++ [x]) as [|z l] eqn:E; [destruct d; discriminate|]. reflexivity.
Qed.
Lemma folders_last dirs : dirs <> [] -> exists u, folders dirs = u ++ [47].
Proof.
  intros H. destruct (exists_last H) as (l & y & ->). rewrite folders_app. exists (folders l ++ y). cbn. rewrite app_nil_r, app_assoc. reflexivity.
Qed.
Lemma params_of dirs x : file x -> exists y p, split_params (folders dirs ++ x) = (folders dirs ++ y, p) /\
  x = y ++ (if is_nil p then [] else 59 :: p) /\ word y /\ (p <> [] -> y <> lit "." /\ y <> lit "..").
Proof.
  intros F. unfold split_params.
  assert (X : ~ In 47 x).
  { destruct F as [x H _|x p H _ Hp]; [apply word_slash; auto|]. rewrite in_app_iff. intros [X|[X|X]]; [apply word_slash in H; auto|lia|apply word_slash in Hp; auto]. }
  assert (E : (match rsplit1 47 (folders dirs ++ x) with Some (a, b) => (a ++ [47], b) | None => ([], folders dirs ++ x) end) = (folders dirs, x)).
  { destruct dirs as [|d l].
    - cbn [folders flat_map app]. destruct (rsplit1 47 x) as [[a b]|] eqn:E; auto. apply rsplit1_some in E as [-> _]. exfalso. apply X, in_elt.
    - destruct (folders_last (d :: l)) as (u & E); [discriminate|]. rewrite E, <- app_assoc. cbn [app].
      assert (R : rsplit1 47 (u ++ 47 :: x) = Some (u, x)) by (apply rsplit1_some; auto). rewrite R. auto. }
  rewrite E. destruct F as [x H N|x p H N Hp Hn D1 D2].
  - exists x, []. destruct (split1 59 x) as [[a b]|] eqn:S; [apply split1_some in S as [-> _]; exfalso; apply N, in_elt|].
    split; [auto|]. split; [cbn; rewrite app_nil_r; auto|]. split; [auto|]. congruence.
  - exists x, p. rewrite split1_app by auto. split; [auto|]. split; [destruct p; [congruence|auto]|]. auto.
Qed.

(** ** Dots *)
Lemma resolve_walks d l d' : walks d l d' -> forall z rest, resolve (rev d ++ [z]) (l ++ rest) = resolve (rev d' ++ [z]) rest.
Proof.
  intros W. induction W as [d|d l d' W IH|d x l d' W IH|d x l d' H1 H2 W IH]; intros z rest; cbn [app resolve].
  - reflexivity.
  - change (eqs (lit ".") (lit "..")) with false. change (eqs (lit ".") (lit ".")) with true. cbv iota. apply IH.
  - change (eqs (lit "..") (lit "..")) with true. cbv iota. rewrite rev_app_distr. cbn [rev app tl]. apply IH.
  - destruct (eqs x (lit "..")) eqn:E; [apply eqs_eq in E; congruence|]. destruct (eqs x (lit ".")) eqn:E'; [apply eqs_eq in E'; congruence|].
    specialize (IH z rest). rewrite rev_app_distr in IH. exact IH.
Qed.
Definition resolved (segments : list str) : list str :=
  let r := resolve [] segments in
  if eqs (last segments []) (lit ".") || eqs (last segments []) (lit "..") then r ++ [[]] else r.
Lemma resolved_arrives root dirs y d y' : arrives root dirs y d y' -> ~ In (lit ".") root -> ~ In (lit "..") root ->
  resolved ([] :: root ++ dirs ++ [y]) = [] :: d ++ [y'].
Proof.
  intros A N1 N2. unfold resolved. 
  assert (L : last ([] :: root ++ dirs ++ [y]) [] = y).
  { rewrite !app_assoc. change ([] :: (root ++ dirs) ++ [y]) with (([] :: root ++ dirs) ++ [y]). apply last_last. }
  assert (W0 : forall r0 acc, ~ In (lit ".") r0 -> ~ In (lit "..") r0 -> forall rest, resolve acc (r0 ++ rest) = resolve (rev r0 ++ acc) rest).
  { clear. induction r0 as [|x r0 IH]; intros acc H1 H2 rest; cbn [app resolve rev]; auto.
    destruct (eqs x (lit "..")) eqn:E; [apply eqs_eq in E; subst; exfalso; apply H2; left; auto|].
    destruct (eqs x (lit ".")) eqn:E'; [apply eqs_eq in E'; subst; exfalso; apply H1; left; auto|].
    rewrite IH; [|intros X; apply H1; right; auto|intros X; apply H2; right; auto]. rewrite <- app_assoc. reflexivity. }
  assert (W1 : forall rest, resolve [] ([] :: root ++ rest) = resolve (rev root ++ [[]]) rest).
  { intros rest. cbn [resolve]. change (eqs [] (lit "..")) with false. change (eqs [] (lit ".")) with false. cbv iota. apply W0; auto. }
  rewrite L, W1. destruct A as [d0 l x d' W H1 H2|d0 l d' W|d0 l d' x W]; rewrite (resolve_walks _ _ _ W).
  - cbn [resolve]. destruct (eqs x (lit "..")) eqn:E; [apply eqs_eq in E; congruence|]. destruct (eqs x (lit ".")) eqn:E'; [apply eqs_eq in E'; congruence|].
    cbn [orb rev]. rewrite rev_app_distr, rev_involutive. reflexivity.
  - change (eqs (lit ".") (lit ".") || eqs (lit ".") (lit "..")) with true. cbv iota. cbn [resolve].
    change (eqs (lit ".") (lit "..")) with false. change (eqs (lit ".") (lit ".")) with true. cbv iota.
    rewrite rev_app_distr, rev_involutive. reflexivity.
  - change (eqs (lit "..") (lit ".") || eqs (lit "..") (lit "..")) with true. cbv iota. cbn [resolve].
    change (eqs (lit "..") (lit "..")) with true. cbv iota. rewrite rev_app_distr. cbn [rev app tl].
    rewrite rev_app_distr, rev_involutive. reflexivity.
Qed.
Lemma drop_empty_segments root dirs y : Forall folder root -> Forall folder dirs ->
  drop_empty (([] :: root ++ [[]]) ++ dirs ++ [y]) = [] :: root ++ dirs ++ [y].
Proof.
  intros Hr Hd. unfold drop_empty. cbn [app].
  destruct ((root ++ [[]]) ++ dirs ++ [y]) as [|z l] eqn:E; [destruct root; discriminate|]. rewrite <- E. clear z l E.
  rewrite !app_assoc, removelast_last, last_last. rewrite !filter_app. cbn [filter is_nil negb]. rewrite app_nil_r.
  assert (F : forall l, Forall folder l -> filter (fun s => negb (is_nil s)) l = l).
  { clear. induction l as [|x l IH]; intros H; cbn; auto. inv H. destruct H2 as [_ N]. destruct x; [congruence|]. cbn. f_equal. auto. }
  rewrite !F by auto. reflexivity.
Qed.

(** ** Splitting and putting together *)
Lemma no_scheme a c r : ~ In 58 a -> c <> 58 -> scheme_char c = false -> split_scheme (a ++ c :: r) = ([], a ++ c :: r).
Proof.
  intros H1 H2 H3. unfold split_scheme. destruct (split1 58 (a ++ c :: r)) as [[[|x pre] b]|] eqn:E; auto.
  apply split1_some in E as [E Hn].
  assert (I : In c (x :: pre)).
  { clear - E H1 H2. remember (x :: pre) as q. clear Heqq. revert q E. induction a as [|y a IH]; intros q E; destruct q as [|z q]; cbn [app] in E.
    - inv E. congruence.
    - inv E. left; auto.
    - inv E. exfalso. apply H1. left; auto.
    - inv E. right. apply IH; auto. intros X. apply H1. right; auto. }
  replace (forallb scheme_char (x :: pre)) with false; [rewrite andb_false_r; auto|].
  symmetry. apply not_true_iff_false. rewrite forallb_forall. intros F. rewrite F in H3; [discriminate|auto].
Qed.
Lemma no_scheme_end a : ~ In 58 a -> split_scheme a = ([], a).
Proof. intros H. unfold split_scheme. destruct (split1 58 a) as [[[|x pre] b]|] eqn:E; auto. apply split1_some in E as [-> _]. exfalso. apply H, in_elt. Qed.
Definition tail_of (q f : str) : str := query_suffix q ++ fragment_suffix f.
Lemma tail_first q f : tail_of q f = [] \/ exists r, tail_of q f = 63 :: r \/ tail_of q f = 35 :: r.
Proof. unfold tail_of. destruct q as [|c q]; cbn; [|eauto]. destruct f as [|c f]; cbn; eauto. Qed.

Section Join.
  Variables (ip_ok nfkc_ok : str -> bool).
  Notation urlsplit := (urlsplit ip_ok nfkc_ok).
  Notation urlparse := (urlparse ip_ok nfkc_ok).
  Notation urljoin := (urljoin ip_ok nfkc_ok).

  Lemma split_reference path q f : (forall c, In c path -> 32 < c /\ c <> 63 /\ c <> 35) -> ~ In 35 q -> one_line q -> one_line f ->
    split_scheme (path ++ tail_of q f) = ([], path ++ tail_of q f) -> starts [47; 47] path = false ->
    urlsplit (path ++ tail_of q f) = Ok (Split [] [] path q f).
  Proof.
    intros Hp Hq (Q1 & Q2 & Q3) (F1 & F2 & F3) Hs Ho. unfold ModelUrls.urlsplit.
    rewrite clean_id.
    2:{ intros c r E. destruct path as [|x path]; cbn [app] in E; [|inv E; apply Hp; left; auto].
        destruct (tail_first q f) as [X|(r' & [X|X])]; rewrite X in E; inv E; lia. }
    2:{ intros c Hc. rewrite in_app_iff in Hc. destruct Hc as [Hc|Hc]; [apply Hp in Hc; cbn [In]; lia|]. unfold tail_of in Hc. rewrite in_app_iff in Hc.
        destruct Hc as [Hc|Hc]; [destruct q as [|x q]|destruct f as [|x f]]; cbn [query_suffix fragment_suffix] in Hc; try (destruct Hc; fail);
          destruct Hc as [<-|Hc]; cbn [In]; try lia; intros [<-|[<-|[<-|[]]]]; auto. }
    rewrite Hs.
    assert (Ho' : starts [47; 47] (path ++ tail_of q f) = false).
    { destruct path as [|x [|y path]].
      - destruct (tail_first q f) as [X|(r & [X|X])]; rewrite X; reflexivity.
      - cbn [app]. destruct (tail_first q f) as [X|(r & [X|X])]; rewrite X; cbn [starts]; destruct (47 =? x); reflexivity.
      - cbn [app starts] in *. exact Ho. }
    rewrite Ho'.
    assert (P35 : ~ In 35 path) by (intros X; apply Hp in X; lia). assert (P63 : ~ In 63 path) by (intros X; apply Hp in X; lia).
    assert (N : ~ In 35 (path ++ query_suffix q)).
    { rewrite in_app_iff. intros [X|X]; auto. destruct q; [destruct X|]. destruct X as [X|X]; [lia|auto]. }
    assert (E1 : partition 35 (path ++ tail_of q f) = (path ++ query_suffix q, f)).
    { unfold tail_of. rewrite app_assoc. destruct f as [|x f]; cbn [fragment_suffix]; [rewrite app_nil_r; apply partition_none; auto|apply partition_app; auto]. }
    assert (E2 : partition 63 (path ++ query_suffix q) = (path, q)).
    { destruct q as [|x q]; cbn [query_suffix]; [rewrite app_nil_r; apply partition_none; auto|apply partition_app; auto]. }
    rewrite E1, E2. reflexivity.
  Qed.
  Lemma unparse_full scheme host path p q f : scheme <> [] -> host <> [] -> starts [47] path = true ->
    urlunparse (Parsed scheme host path p q f) =
    scheme ++ lit "://" ++ host ++ path ++ (if is_nil p then [] else 59 :: p) ++ tail_of q f.
  Proof.
    intros Hs Hh Hp. unfold urlunparse, urlunsplit. cbn [p_params p_path p_scheme p_netloc p_query p_fragment u_path u_netloc u_scheme u_query u_fragment].
    destruct host as [|h host]; [congruence|]. destruct scheme as [|s scheme]; [congruence|]. cbn [is_nil negb orb].
    assert (prefix_if q [63] = query_suffix q) as -> by (destruct q; reflexivity).
    assert (prefix_if f [35] = fragment_suffix f) as -> by (destruct f; reflexivity).
    set (u := if is_nil p then path else path ++ 59 :: p). assert (E : u = path ++ (if is_nil p then [] else 59 :: p)) by (unfold u; destruct p; cbn; rewrite ?app_nil_r; auto).
    assert (Hu : starts [47] u = true) by (rewrite E; destruct path; [discriminate|]; exact Hp). rewrite Hu, andb_false_r. rewrite E.
    change (lit "://") with [58; 47; 47]. unfold tail_of. rewrite <- !app_assoc. cbn [app]. rewrite <- !app_assoc. reflexivity.
  Qed.
  Lemma unparse_path path p q f : starts [47; 47] path = false -> starts [47] path = true ->
    urlunparse (Parsed [] [] path p q f) = path ++ (if is_nil p then [] else 59 :: p) ++ tail_of q f.
  Proof.
    intros H1 H2. unfold urlunparse, urlunsplit. cbn [p_params p_path p_scheme p_netloc p_query p_fragment u_path u_netloc u_scheme u_query u_fragment is_nil negb andb orb].
    assert (prefix_if q [63] = query_suffix q) as -> by (destruct q; reflexivity).
    assert (prefix_if f [35] = fragment_suffix f) as -> by (destruct f; reflexivity).
    set (u := if is_nil p then path else path ++ 59 :: p). assert (E : u = path ++ (if is_nil p then [] else 59 :: p)) by (unfold u; destruct p; cbn; rewrite ?app_nil_r; auto).
    assert (Hu : starts [47; 47] u = false).
    { rewrite E. destruct path as [|x [|y path]]; [discriminate| |exact H1]. cbn [app starts]. destruct p; cbn [is_nil]; destruct (47 =? x); auto. }
    rewrite Hu, E. unfold tail_of. rewrite <- !app_assoc. reflexivity.
  Qed.

  (** ** Texts without scheme *)
  Lemma in_folders c dirs : Forall word dirs -> In c (folders dirs) -> 32 < c /\ c <> 63 /\ c <> 35.
  Proof.
    intros H Hc. unfold folders in Hc. rewrite in_flat_map in Hc. destruct Hc as (d & Hd & Hc). rewrite Forall_forall in H. specialize (H d Hd).
    apply in_app_iff in Hc as [Hc|[<-|[]]]; [apply H in Hc|]; lia.
  Qed.
  Lemma in_file c x : file x -> In c x -> 32 < c /\ c <> 63 /\ c <> 35 /\ c <> 47.
  Proof.
    intros [y H _|y p H _ Hp _ _ _] Hc; [apply H in Hc; lia|]. apply in_app_iff in Hc as [Hc|[<-|Hc]]; [apply H in Hc|lia|apply Hp in Hc]; lia.
  Qed.
  Lemma folder_words l : Forall folder l -> Forall word l.
  Proof. intros H. eapply Forall_impl; [|exact H]. intros x [W _]. auto. Qed.

  Lemma parse_base_path root : Forall folder root ->
    urlparse (47 :: folders root) [] = Ok (Parsed [] [] (47 :: folders root) [] [] []).
  Proof.
    intros H. unfold ModelUrlMap.urlparse.
    assert (E := split_reference (47 :: folders root) [] []). unfold tail_of in E. cbn [query_suffix fragment_suffix app] in E. rewrite app_nil_r in E.
    rewrite E.
    - cbn [bind u_scheme is_nil u_path u_netloc u_query u_fragment]. change (existsb (eqs []) uses_params) with true. cbv iota.
      destruct (params_of ([] :: root) []) as (y & p & E1 & E2 & _); [apply fi_name; [intros c []|auto]|].
      symmetry in E2. apply app_eq_nil in E2 as [-> E2]. destruct p; [|discriminate]. cbn [folders flat_map app] in E1. fold (folders root) in E1. rewrite !app_nil_r in E1.
      rewrite E1. reflexivity.
    - intros c [<-|Hc]; [lia|]. apply (in_folders c root); auto using folder_words.
    - intros [].
    - repeat split; intros [].
    - repeat split; intros [].
    - change (47 :: folders root) with ([] ++ 47 :: folders root). apply no_scheme; [intros []|lia|reflexivity].
    - destruct root as [|[|c d] l]; [reflexivity|inv H; destruct H2; congruence|]. inv H. destruct H2 as [W _]. cbn [folders flat_map app starts].
      destruct (N.eqb_spec 47 c) as [<-|]; [destruct (W 47); [left; auto|lia]|]. destruct (47 =? 47); reflexivity.
  Qed.
  Lemma parse_base_url scheme name host root : scheme = lit "http" \/ scheme = lit "https" -> plain_host name host -> Forall folder root ->
    urlparse (scheme ++ lit "://" ++ host ++ 47 :: folders root) [] = Ok (Parsed scheme host (47 :: folders root) [] [] []).
  Proof.
    intros Hs Hh Hr. unfold ModelUrlMap.urlparse.
    pose proof (ProofCurrent.split_address (fun s => Ok s) ip_ok nfkc_ok scheme name host (folders root) [] Hs Hh) as E.
    unfold ProofCurrent.address in E. rewrite !app_nil_r in E. rewrite E.
    - cbn [bind u_scheme u_path u_netloc u_query u_fragment].
      replace (is_nil scheme) with false by (destruct Hs as [->| ->]; reflexivity). replace (existsb (eqs scheme) uses_params) with true by (destruct Hs as [->| ->]; reflexivity).
      destruct (params_of ([] :: root) []) as (y & p & E1 & E2 & _); [apply fi_name; [intros c []|auto]|].
      symmetry in E2. apply app_eq_nil in E2 as [-> E2]. destruct p; [|discriminate]. cbn [folders flat_map app] in E1. fold (folders root) in E1. rewrite !app_nil_r in E1.
      rewrite E1. reflexivity.
    - intros c Hc. apply in_folders in Hc; auto using folder_words; lia.
    - intros [].
    - repeat split; intros Hc; apply in_folders in Hc; auto using folder_words; lia.
    - repeat split; intros [].
  Qed.
  (** the parts of a text that has a path but no scheme, and its parameters *)
  Lemma parse_reference dirs x q f scheme : Forall word dirs -> file x -> ~ In 35 q -> one_line q -> one_line f ->
    split_scheme ((folders dirs ++ x) ++ tail_of q f) = ([], (folders dirs ++ x) ++ tail_of q f) -> starts [47; 47] (folders dirs ++ x) = false ->
    existsb (eqs scheme) uses_params = true ->
    exists y p, urlparse ((folders dirs ++ x) ++ tail_of q f) scheme = Ok (Parsed scheme [] (folders dirs ++ y) p q f) /\
      x = y ++ (if is_nil p then [] else 59 :: p) /\ word y /\ (p <> [] -> y <> lit "." /\ y <> lit "..").
  Proof.
    intros Hd Hx Hq Lq Lf Hs Ho Hu. unfold ModelUrlMap.urlparse.
    rewrite split_reference; auto.
    2:{ intros c Hc. apply in_app_iff in Hc as [Hc|Hc]; [apply (in_folders c dirs); auto|apply in_file in Hc; auto; lia]. }
    cbn [bind u_scheme is_nil u_path u_netloc u_query u_fragment]. rewrite Hu.
    destruct (params_of dirs x Hx) as (y & p & E1 & E2 & E3 & E4). exists y, p. rewrite E1. auto.
  Qed.
  Lemma relative_text dirs x q f : Forall folder dirs -> file x -> folders dirs ++ x <> [] -> ~ In 58 (hd x dirs) ->
    split_scheme ((folders dirs ++ x) ++ tail_of q f) = ([], (folders dirs ++ x) ++ tail_of q f) /\
    starts [47; 47] (folders dirs ++ x) = false /\ starts [47] (folders dirs ++ x) = false.
  Proof.
    intros Hd Hx Hne H58.
    assert (S47 : starts [47] (folders dirs ++ x) = false).
    { destruct dirs as [|[|c d] l]; [|inv Hd; destruct H1; congruence|].
      - cbn [folders flat_map app] in *. destruct x as [|c x]; [congruence|]. cbn [starts]. destruct (N.eqb_spec 47 c) as [<-|]; [|reflexivity].
        destruct (in_file 47 _ Hx); [left; auto|lia].
      - inv Hd. destruct H1 as [W _]. cbn [folders flat_map app starts]. destruct (N.eqb_spec 47 c) as [<-|]; [destruct (W 47); [left; auto|lia]|reflexivity]. }
    split; [|split; [|exact S47]].
    - destruct dirs as [|d l]; cbn [folders flat_map app hd] in *.
      + destruct (tail_first q f) as [->|(r & [->| ->])]; [rewrite app_nil_r; apply no_scheme_end; auto| |]; (apply no_scheme; [auto|lia|reflexivity]).
      + rewrite <- !app_assoc. cbn [app]. apply no_scheme; [auto|lia|reflexivity].
    - destruct (folders dirs ++ x) as [|c s]; [reflexivity|]. cbn [starts] in *. destruct (47 =? c); [discriminate|]. destruct s; reflexivity.
  Qed.

  (** ** The three cases of urljoin *)
  Section Base.
    Variables (scheme host : str) (root : list str) (base : str).
    Hypothesis Hbase : urlparse base [] = Ok (Parsed scheme host (47 :: folders root) [] [] []).
    Hypothesis Hne : base <> [].
    Hypothesis Hroot : Forall folder root.
    Hypothesis Hdots : ~ In (lit ".") root /\ ~ In (lit "..") root.
    Hypothesis Huses : existsb (eqs scheme) uses_params = true /\ existsb (eqs scheme) uses_relative = true /\ existsb (eqs scheme) uses_netloc = true.

    Lemma base_segments : drop_last_file (split_on 47 (47 :: folders root)) = [] :: root ++ [[]].
    Proof using Hroot.
      clear - Hroot. change (47 :: folders root) with (folders ([] :: root)). pose proof (split_folders ([] :: root) []) as E.
      rewrite app_nil_r in E. rewrite E; [|constructor; [intros c []|apply folder_words; auto]|intros []].
      unfold drop_last_file. cbn [app]. change ([] :: root ++ [[]]) with (([] :: root) ++ [@nil N]). rewrite last_last. reflexivity.
    Qed.
    (** the file without its parameters *)
    Lemma arrives_params r0 dirs x y p d x' : arrives r0 dirs x d x' -> x = y ++ (if is_nil p then [] else 59 :: p) ->
      (p <> [] -> y <> lit "." /\ y <> lit "..") -> exists y', arrives r0 dirs y d y' /\ x' = y' ++ (if is_nil p then [] else 59 :: p).
    Proof using Type.
      clear. intros A Ex Hp. destruct p as [|c p]; cbn [is_nil] in *.
      - rewrite app_nil_r in Ex. subst y. exists x'. rewrite app_nil_r. auto.
      - destruct Hp as [P1 P2]; [discriminate|]. exists y. inversion A; subst.
        + split; [constructor; auto|]. auto.
        + exfalso. assert (In 59 (lit ".")) as X by (match goal with H : _ = y ++ 59 :: _ |- _ => rewrite H end; apply in_elt). vm_compute in X. intuition lia.
        + exfalso. assert (In 59 (lit "..")) as X by (match goal with H : _ = y ++ 59 :: _ |- _ => rewrite H end; apply in_elt). vm_compute in X. intuition lia.
    Qed.
    Lemma path_not_nil d (y : str) : is_nil (join [47] ([] :: d ++ [y])) = false.
    Proof using Type. clear. change ([] :: d ++ [y]) with (([] :: d) ++ [y]). rewrite join_folders. reflexivity. Qed.
    Lemma join_relative dirs x q f d x' : Forall folder dirs -> file x -> folders dirs ++ x <> [] -> ~ In 58 (hd x dirs) ->
      ~ In 35 q -> one_line q -> one_line f -> arrives root dirs x d x' ->
      exists y p, urljoin base ((folders dirs ++ x) ++ tail_of q f) = Ok (urlunparse (Parsed scheme host (47 :: folders d ++ y) p q f)) /\
        x' = y ++ (if is_nil p then [] else 59 :: p).
    Proof using All.
      intros Hd Hx Hn H58 Hq Lq Lf A. destruct (relative_text dirs x q f Hd Hx Hn H58) as (S & S2 & S1).
      destruct (parse_reference dirs x q f scheme (folder_words _ Hd) Hx Hq Lq Lf S S2) as (y & p & Ep & Ex & Wy & Hp); [apply Huses|].
      assert (Nil : is_nil (folders dirs ++ y) && is_nil p = false).
      { apply not_true_iff_false. intros E. apply andb_true_iff in E as [E1 E2]. destruct p; [|discriminate]. cbn in Ex. rewrite app_nil_r in Ex. subst x.
        destruct (folders dirs ++ y); [congruence|discriminate]. }
      assert (S1' : starts [47] (folders dirs ++ y) = false).
      { destruct (folders dirs ++ y) as [|c s] eqn:E; [reflexivity|]. rewrite Ex, app_assoc, E in S1. exact S1. }
      destruct (arrives_params _ _ _ _ _ _ _ A Ex Hp) as (y' & AY & Ex').
      exists y', p. split; [|exact Ex']. unfold ModelUrlMap.urljoin.
      destruct base as [|b0 base']; [congruence|]. cbn [is_nil].
      destruct ((folders dirs ++ x) ++ tail_of q f) as [|t0 tx] eqn:Et; [apply app_eq_nil in Et as [Et _]; congruence|]. cbn [is_nil].
      rewrite Hbase. cbn [bind p_scheme p_path p_netloc p_params p_query p_fragment]. rewrite Ep. cbn [bind p_scheme p_path p_netloc p_params p_query p_fragment].
      destruct Huses as (U1 & U2 & U3). rewrite eqs_refl, U2, U3. cbn [negb orb is_nil andb]. rewrite Nil, S1'.
      rewrite base_segments, (split_folders dirs y (folder_words _ Hd) (word_slash _ Wy)), drop_empty_segments by auto.
      change (if eqs (last ([] :: root ++ dirs ++ [y]) []) (lit ".") || eqs (last ([] :: root ++ dirs ++ [y]) []) (lit "..")
        then resolve [] ([] :: root ++ dirs ++ [y]) ++ [[]] else resolve [] ([] :: root ++ dirs ++ [y])) with (resolved ([] :: root ++ dirs ++ [y])).
      destruct Hdots as [D1 D2]. rewrite (resolved_arrives _ _ _ _ _ AY D1 D2), path_not_nil.
      do 3 f_equal. change ([] :: d ++ [y']) with (([] :: d) ++ [y']). apply join_folders.
    Qed.
    Lemma join_absolute dirs x q f d x' : Forall word dirs -> (forall l, dirs <> [] :: l) -> file x ->
      ~ In 35 q -> one_line q -> one_line f -> arrives [] dirs x d x' ->
      exists y p, urljoin base ((47 :: folders dirs ++ x) ++ tail_of q f) = Ok (urlunparse (Parsed scheme host (47 :: folders d ++ y) p q f)) /\
        x' = y ++ (if is_nil p then [] else 59 :: p).
    Proof using Hbase Hne Huses.
      intros Hd Hf Hx Hq Lq Lf A. change (47 :: folders dirs ++ x) with (folders ([] :: dirs) ++ x).
      assert (W : Forall word ([] :: dirs)) by (constructor; [intros c []|auto]).
      assert (S2 : starts [47; 47] (folders ([] :: dirs) ++ x) = false).
      { cbn [folders flat_map app]. fold (folders dirs). cbn [starts]. change (47 =? 47) with true. cbv iota.
        assert (H : forall c s, folders dirs ++ x = c :: s -> c <> 47).
        { intros c s E ->. destruct dirs as [|[|c0 d0] l]; [|eapply Hf; eauto|].
          - cbn in E. destruct (in_file 47 x Hx); [rewrite E; left; auto|lia].
          - cbn in E. inv E. inv Hd. destruct (H1 47); [left; auto|lia]. }
        destruct (folders dirs ++ x) as [|c s]; [reflexivity|]. destruct (N.eqb_spec 47 c) as [<-|]; [exfalso; eapply H; eauto|reflexivity]. }
      destruct (parse_reference ([] :: dirs) x q f scheme W Hx Hq Lq Lf) as (y & p & Ep & Ex & Wy & Hp); [|exact S2|apply Huses|].
      { change ((folders ([] :: dirs) ++ x) ++ tail_of q f) with ([] ++ 47 :: ((folders dirs ++ x) ++ tail_of q f)). apply no_scheme; [intros []|lia|reflexivity]. }
      destruct (arrives_params _ _ _ _ _ _ _ A Ex Hp) as (y' & AY & Ex').
      exists y', p. split; [|exact Ex']. unfold ModelUrlMap.urljoin.
      destruct base as [|b0 base']; [congruence|]. cbn [is_nil].
      replace (is_nil ((folders ([] :: dirs) ++ x) ++ tail_of q f)) with false by reflexivity.
      rewrite Hbase. cbn [bind p_scheme p_path p_netloc p_params p_query p_fragment]. rewrite Ep. cbn [bind p_scheme p_path p_netloc p_params p_query p_fragment].
      destruct Huses as (U1 & U2 & U3). rewrite eqs_refl, U2, U3. cbn [negb orb is_nil andb].
      replace (is_nil (folders ([] :: dirs) ++ y)) with false by reflexivity. replace (starts [47] (folders ([] :: dirs) ++ y)) with true by reflexivity. cbn [andb].
      rewrite (split_folders ([] :: dirs) y W (word_slash _ Wy)). cbn [app].
      change (if eqs (last ([] :: dirs ++ [y]) []) (lit ".") || eqs (last ([] :: dirs ++ [y]) []) (lit "..")
        then resolve [] ([] :: dirs ++ [y]) ++ [[]] else resolve [] ([] :: dirs ++ [y])) with (resolved ([] :: [] ++ dirs ++ [y])).
      rewrite (resolved_arrives _ _ _ _ _ AY) by (intros []). rewrite path_not_nil.
      do 3 f_equal. change ([] :: d ++ [y']) with (([] :: d) ++ [y']). apply join_folders.
    Qed.
    Lemma join_nothing q f : ~ In 35 q -> one_line q -> one_line f -> tail_of q f <> [] ->
      urljoin base (tail_of q f) = Ok (urlunparse (Parsed scheme host (47 :: folders root) [] q f)).
    Proof using Hbase Hne Huses.
      intros Hq Lq Lf Ht. destruct (parse_reference [] [] q f scheme) as (y & p & Ep & Ex & Wy & Hp); auto.
      { apply fi_name; [intros c []|auto]. }
      { cbn [folders flat_map app]. destruct (tail_first q f) as [->|(r & [->| ->])]; [reflexivity| |].
        - change (63 :: r) with ([] ++ 63 :: r). apply no_scheme; [intros []|lia|reflexivity].
        - change (35 :: r) with ([] ++ 35 :: r). apply no_scheme; [intros []|lia|reflexivity]. }
      { apply Huses. }
      symmetry in Ex. apply app_eq_nil in Ex as [-> Ex]. destruct p; [|discriminate]. cbn [folders flat_map app] in Ep.
      unfold ModelUrlMap.urljoin. destruct base as [|b0 base']; [congruence|]. cbn [is_nil].
      destruct (tail_of q f) as [|t0 tx] eqn:Et; [congruence|]. cbn [is_nil]. rewrite Hbase. cbn [bind p_scheme p_path p_netloc p_params p_query p_fragment]. rewrite Ep.
      cbn [bind p_scheme p_path p_netloc p_params p_query p_fragment]. destruct Huses as (U1 & U2 & U3). rewrite eqs_refl, U2, U3. cbn [negb orb is_nil andb].
      destruct q; reflexivity.
    Qed.
  End Base.

  Lemma web_uses scheme : scheme = lit "http" \/ scheme = lit "https" ->
    existsb (eqs scheme) uses_params = true /\ existsb (eqs scheme) uses_relative = true /\ existsb (eqs scheme) uses_netloc = true.
  Proof. intros [->| ->]; repeat split. Qed.
  Lemma parse_url scheme name host dirs x q dflt : scheme = lit "http" \/ scheme = lit "https" -> plain_host name host ->
    Forall word dirs -> file x -> ~ In 35 q -> one_line q ->
    exists y p, urlparse (scheme ++ lit "://" ++ host ++ [47] ++ folders dirs ++ x ++ query_suffix q) dflt =
        Ok (Parsed scheme host (47 :: folders dirs ++ y) p q []) /\ x = y ++ (if is_nil p then [] else 59 :: p).
  Proof.
    intros Hs Hh Hd Hx Hq Lq. unfold ModelUrlMap.urlparse.
    pose proof (ProofCurrent.split_address (fun s => Ok s) ip_ok nfkc_ok scheme name host (folders dirs ++ x) q Hs Hh) as E.
    assert (C : forall c, In c (folders dirs ++ x) -> 32 < c /\ c <> 63 /\ c <> 35).
    { intros c Hc. apply in_app_iff in Hc as [Hc|Hc]; [apply (in_folders c dirs); auto|apply in_file in Hc; auto; lia]. }
    unfold ProofCurrent.address in E. fold (query_suffix q) in E. cbn [app] in E |- *. rewrite <- app_assoc in E. rewrite E; auto.
    - cbn [bind u_scheme u_path u_netloc u_query u_fragment].
      replace (is_nil scheme) with false by (destruct Hs as [->| ->]; reflexivity). destruct (web_uses _ Hs) as (-> & _ & _).
      destruct (params_of ([] :: dirs) x Hx) as (y & p & E1 & E2 & _). exists y, p. change (47 :: folders dirs ++ x) with (folders ([] :: dirs) ++ x). rewrite E1. auto.
    - intros c Hc. apply C in Hc. lia.
    - repeat split; intros X; apply C in X; lia.
  Qed.
  Lemma host_not_nil name host : plain_host name host -> host <> [].
  Proof. intros [n H _|n p H _ _] E; [auto|]. apply app_eq_nil in E as [E _]. auto. Qed.
  Lemma join_leads scheme name host root t u : scheme = lit "http" \/ scheme = lit "https" -> plain_host name host -> Forall folder root ->
    ~ In (lit ".") root -> ~ In (lit "..") root ->
    leads scheme host root t u -> urljoin (scheme ++ lit "://" ++ host ++ 47 :: folders root) t = Ok u.
  Proof.
    intros Hs Hh Hr N1 N2 L. pose proof (parse_base_url scheme name host root Hs Hh Hr) as B. pose proof (web_uses _ Hs) as U.
    assert (Sn : scheme <> []) by (destruct Hs as [->| ->]; discriminate). pose proof (host_not_nil _ _ Hh) as Hn.
    set (base := scheme ++ lit "://" ++ host ++ 47 :: folders root) in *.
    assert (Bn : base <> []) by (unfold base; destruct scheme; [congruence|discriminate]).
    assert (Fin : forall d y p q f, urlunparse (Parsed scheme host (47 :: folders d ++ y) p q f) =
      scheme ++ lit "://" ++ host ++ [47] ++ folders d ++ (y ++ (if is_nil p then [] else 59 :: p)) ++ tail_of q f).
    { intros d y p q f. rewrite unparse_full by auto. do 3 f_equal. cbn [app]. rewrite <- !app_assoc. reflexivity. }
    destruct L as [dirs x d x' t Hd Hx Hne H58 (q & f & -> & Q1 & Q2 & Q3) A|dirs x d x' t Hd Hf Hx (q & f & -> & Q1 & Q2 & Q3) A|
                   scheme' name' host' dirs x q Hs' Hh' Hd Hx Q1 Q2|t (q & f & -> & Q1 & Q2 & Q3)]; try fold (tail_of q f) in *.
    - destruct (join_relative scheme host root base B Bn Hr (conj N1 N2) U dirs x q f d x' Hd Hx Hne H58 Q1 Q2 Q3 A) as (y & p & E & ->).
      rewrite <- app_assoc in E. rewrite E, Fin. reflexivity.
    - destruct (join_absolute scheme host root base B Bn U dirs x q f d x' Hd Hf Hx Q1 Q2 Q3 A) as (y & p & E & ->).
      cbn [app] in E |- *. rewrite <- app_assoc in E. rewrite E, Fin. reflexivity.
    - destruct (parse_url scheme' name' host' dirs x q scheme Hs' Hh' Hd Hx Q1 Q2) as (y & p & E & Ex).
      unfold ModelUrlMap.urljoin. destruct base as [|b0 base'] eqn:Eb; [congruence|]. cbn [is_nil].
      replace (is_nil (scheme' ++ lit "://" ++ host' ++ [47] ++ folders dirs ++ x ++ query_suffix q)) with false by (destruct Hs' as [->| ->]; reflexivity).
      rewrite B. cbn [bind p_scheme]. rewrite E. cbn [bind p_scheme p_netloc].
      destruct (negb (eqs scheme' scheme) || negb (existsb (eqs scheme') uses_relative)); [reflexivity|].
      destruct (web_uses _ Hs') as (_ & _ & ->). pose proof (host_not_nil _ _ Hh') as Hn'. destruct host' as [|h0 host']; [congruence|]. cbn [is_nil negb andb].
      assert (Sn' : scheme' <> []) by (destruct Hs' as [->| ->]; discriminate).
      rewrite unparse_full by auto. subst x. unfold tail_of. cbn [fragment_suffix]. rewrite app_nil_r. cbn [app]. rewrite <- !app_assoc. reflexivity.
    - destruct (tail_of q f) as [|c t] eqn:Et.
      + unfold ModelUrlMap.urljoin. destruct base as [|b0 base'] eqn:Eb; [congruence|]. cbn [is_nil]. rewrite app_nil_r. exact (f_equal Ok (eq_sym Eb)).
      + rewrite <- Et. rewrite (join_nothing scheme host root base B Bn U q f Q1 Q2 Q3) by (rewrite Et; discriminate).
        rewrite unparse_full by auto. cbn [is_nil app]. reflexivity.
  Qed.

  (** ** Placeholders *)
  Lemma match_slot prev name s : name <> [] -> ~ In 62 name ->
    match_at simple_route_re prev (60 :: name ++ 62 :: s) = Some (St (Some 62) s [(1%nat, name)]).
  Proof.
    intros Hn H. unfold match_at, simple_route_re. rewrite run_seq, run_chr, run_seq, run_group.
    destruct name as [|c name]; [congruence|]. set (K := fun s' : st => _).
    assert (HK : forall p', K (St p' (62 :: s) []) = Some (St (Some 62) s [(1%nat, c :: name)])).
    { intros p'. unfold K. cbn [s_prev s_rest s_caps]. rewrite (consumed_app _ (St p' (62 :: s) []) (c :: name)) by reflexivity. rewrite run_chr. reflexivity. }
    clearbody K. unfold RPlus. cbn [run s_rest app s_caps].
    assert (Hc : negb (c =? 62) = true) by (apply negb_true_iff, N.eqb_neq; intros ->; apply H; left; auto). rewrite Hc.
    apply (run_star_set_g (fun c0 => negb (c0 =? 62)) name (Some c) (62 :: s) []); auto.
    - apply forallb_forall. intros x Hx. apply negb_true_iff, N.eqb_neq. intros ->. apply H. right; auto.
    - intros d r E. inv E. reflexivity.
  Qed.
  Lemma match_char prev c s : c <> 60 -> match_at simple_route_re prev (c :: s) = None.
  Proof.
    intros H. unfold match_at, simple_route_re. rewrite run_seq. apply run_chr_no. intros r E. inv E. congruence.
  Qed.
  Lemma match_open prev s : no_name s -> match_at simple_route_re prev (60 :: s) = None.
  Proof.
    intros H. destruct (match_at simple_route_re prev (60 :: s)) as [m|] eqn:E; auto. exfalso.
    unfold match_at, simple_route_re in E. rewrite run_seq, run_chr in E. apply run_sound in E as (s' & M & _).
    inversion M as [| |a0 b0 s0 s1 s2 M1 M2| | | | | | | |]; subst. clear M.
    inversion M1 as [| | | | | | |g a0 s0 s3 M3| | |]; subst. clear M1. unfold RPlus in M3.
    inversion M3 as [| |a0 b0 s0 s1 s2 M4 M5| | | | | | | |]; subst. clear M3.
    inversion M4 as [|p0 s0 c rest E1 E2| | | | | | | | |]; subst. clear M4. cbn [s_rest] in E1. subst s.
    apply matches_suffix in M5 as (w & Hw). cbn [step s_rest] in Hw.
    inversion M2 as [|p0 s0 c' rest' E3 E4| | | | | | | | |]; subst. cbn [s_rest] in E3. apply N.eqb_eq in E4. subst c'.
    apply negb_true_iff, N.eqb_neq in E2. destruct H as [H|(r & H)]; [|inv H; congruence].
    apply H. right. rewrite E3. apply in_elt.
  Qed.
  Section Fill.
    Variables (b : broute) (values : dict value).
    Lemma placeholder_written name x : written (b_route b) values name x -> placeholder b values name = Ok x.
    Proof.
      intros (c & v & H1 & H2 & H3 & H4). unfold placeholder. rewrite H3.
      destruct (find (fun nc => eqs (fst nc) name) (route_vars (b_route b))) as [[n c']|] eqn:E.
      - apply find_some in E as [E1 E2]. apply eqs_eq in E2. cbn in E2. subst n. rewrite (H2 _ E1), H4. reflexivity.
      - exfalso. apply (find_none _ _ E) in H1. cbn in H1. rewrite eqs_refl in H1. discriminate.
    Qed.
    Lemma placeholder_unknown name : dget values name = None \/ (forall c, ~ In (name, c) (route_vars (b_route b))) ->
      placeholder b values name = Raise KeyError.
    Proof.
      intros H. unfold placeholder. destruct (dget values name) as [v|] eqn:Ev; auto. destruct H as [H|H]; [discriminate|].
      destruct (find (fun nc => eqs (fst nc) name) (route_vars (b_route b))) as [[n c']|] eqn:E; auto.
      apply find_some in E as [E1 E2]. apply eqs_eq in E2. cbn in E2. subst n. exfalso. eapply H; eauto.
    Qed.
    Lemma search_slot prev name s : name <> [] -> ~ In 62 name ->
      search_at simple_route_re prev (60 :: name ++ 62 :: s) = Some ([], St (Some 62) s [(1%nat, name)]).
    Proof. intros H1 H2. cbn [search_at]. rewrite match_slot by auto. reflexivity. Qed.
    Lemma search_step prev c s : match_at simple_route_re prev (c :: s) = None ->
      search_at simple_route_re prev (c :: s) = match search_at simple_route_re (Some c) s with Some (pre, x) => Some (c :: pre, x) | None => None end.
    Proof. intros H. cbn [search_at]. rewrite H. reflexivity. Qed.
    Lemma spelled_search s t : spelled (b_route b) values s t -> forall prev,
      match search_at simple_route_re prev s with
      | None => t = s
      | Some (pre, m) => exists name x t', s_caps m = [(1%nat, name)] /\ placeholder b values name = Ok x /\
          spelled (b_route b) values (s_rest m) t' /\ t = pre ++ x ++ t' /\ (length (s_rest m) < length s)%nat
      end.
    Proof.
      intros S. induction S as [|c s t Hc S IH|s t Hn S IH|name x s t H1 H2 W S IH]; intros prev.
      - reflexivity.
      - rewrite search_step by (apply match_char; auto). specialize (IH (Some c)). destruct (search_at simple_route_re (Some c) s) as [[pre m]|].
        + destruct IH as (name & x & t' & E1 & E2 & E3 & -> & E5). exists name, x, t'. cbn [length app]. repeat split; auto.
        + subst. reflexivity.
      - rewrite search_step by (apply match_open; auto). specialize (IH (Some 60)). destruct (search_at simple_route_re (Some 60) s) as [[pre m]|].
        + destruct IH as (name & x & t' & E1 & E2 & E3 & -> & E5). exists name, x, t'. cbn [length app]. repeat split; auto.
        + subst. reflexivity.
      - rewrite search_slot by auto. exists name, x, t. cbn [s_caps s_rest app]. split; [auto|]. split; [apply placeholder_written; auto|].
        split; [auto|]. split; [auto|]. cbn [length]. rewrite app_length. cbn. lia.
    Qed.
    Lemma fill_spelled fuel : forall s t, spelled (b_route b) values s t -> (length s <= fuel)%nat -> fill_redirect fuel b values s = Ok t.
    Proof.
      induction fuel as [|fuel IH]; intros s t S L; cbn [fill_redirect].
      - destruct s; [|cbn in L; lia]. inv S. reflexivity.
      - pose proof (spelled_search s t S None) as H. unfold re_search. destruct (search_at simple_route_re None s) as [[pre m]|]; [|subst; auto].
        destruct H as (name & x & t' & E1 & E2 & E3 & -> & E5). rewrite E1. cbn [cap Nat.eqb]. rewrite E2. cbn [bind]. rewrite (IH _ t') by (auto; lia). reflexivity.
    Qed.
    Lemma misnamed_search s : misnamed (b_route b) values s -> forall prev,
      exists pre m name, search_at simple_route_re prev s = Some (pre, m) /\ s_caps m = [(1%nat, name)] /\ (length (s_rest m) < length s)%nat /\
        (placeholder b values name = Raise KeyError \/ (exists x, placeholder b values name = Ok x) /\ misnamed (b_route b) values (s_rest m)).
    Proof.
      intros S. induction S as [c s Hc S IH|s Hn S IH|name x s H1 H2 W S IH|name s H1 H2 H3]; intros prev.
      - rewrite search_step by (apply match_char; auto). destruct (IH (Some c)) as (pre & m & name & E1 & E2 & E3 & E4). rewrite E1.
        exists (c :: pre), m, name. cbn [length]. repeat split; auto.
      - rewrite search_step by (apply match_open; auto). destruct (IH (Some 60)) as (pre & m & name & E1 & E2 & E3 & E4). rewrite E1.
        exists (60 :: pre), m, name. cbn [length]. repeat split; auto.
      - rewrite search_slot by auto. do 3 eexists. split; [reflexivity|]. cbn [s_caps s_rest]. split; [reflexivity|].
        split; [cbn [length]; rewrite app_length; cbn; lia|]. right. split; [|auto]. exists x. apply placeholder_written; auto.
      - rewrite search_slot by auto. do 3 eexists. split; [reflexivity|]. cbn [s_caps s_rest]. split; [reflexivity|].
        split; [cbn [length]; rewrite app_length; cbn; lia|]. left. apply placeholder_unknown; auto.
    Qed.
    Lemma fill_misnamed fuel : forall s, misnamed (b_route b) values s -> (length s <= fuel)%nat -> fill_redirect fuel b values s = Raise KeyError.
    Proof.
      induction fuel as [|fuel IH]; intros s S L; cbn [fill_redirect].
      - destruct s; [|cbn in L; lia]. inv S.
      - destruct (misnamed_search s S None) as (pre & m & name & E1 & E2 & E3 & E4). unfold re_search. rewrite E1, E2. cbn [cap Nat.eqb].
        destruct E4 as [E4|[(x & E4) E5]]; rewrite E4; cbn [bind]; [reflexivity|]. rewrite IH by (auto; lia). reflexivity.
    Qed.
  End Fill.

  (** ** A matched route with redirect_to *)
  Lemma match_redirect mk g a p q b path values : made mk g (a_map a) -> asked a p path ->
    best (g_redirect_defaults (m_config (a_map a))) path (m_routes (a_map a)) b ->
    route_match (g_redirect_defaults (m_config (a_map a))) (b_route b) path = Ok (MValues values) ->
    has_no_canonical a b values ->
    snd (match_path ip_ok nfkc_ok a p q) =
      match b_redirect b with
      | NoRedirect => Ok (Found b values)
      | RedirectText s => do t <- fill_redirect (length s) b values s; do u <- urljoin (redirect_base a) t; Ok (Redirect u)
      | RedirectCall f => do t <- f values; do u <- urljoin (redirect_base a) t; Ok (Redirect u)
      end.
  Proof.
    intros M A B Hm Nc. set (rd := g_redirect_defaults (m_config (a_map a))) in *.
    pose proof (asked_path _ _ _ A) as E. subst path. pose proof (best_chosen _ _ _ _ _ _ M B) as C.
    rewrite (match_chosen ip_ok nfkc_ok a p q b C). unfold respond. rewrite update_adapter_rd, update_adapter_path.
    change (rdefaults a) with rd. rewrite Hm. cbn [bind]. unfold matched. cbn [a_map update_adapter]. rewrite update_config. fold rd.
    assert (X := default_redirect_cases (update_adapter a) (endpoint_routes (update (a_map a)) (r_endpoint (b_route b))) b values q).
    pose proof (made_inv _ _ _ M) as I.
    assert (D : (if rd then default_redirect (update_adapter a) (endpoint_routes (update (a_map a)) (r_endpoint (b_route b))) b values q else Ok None) = Ok None).
    { destruct rd eqn:Erd; [|reflexivity]. destruct Nc as [Nc|Nc]; [change (g_redirect_defaults (m_config (a_map a))) with rd in Nc; congruence|].
      destruct X as [[X1 X2]|(r & X1 & X2 & X3 & X4)]; [| | | |exact X1|].
      - eapply endpoint_sorted; eauto.
      - intros x y Hx Hy Hid. apply (endpoint_member mk g) in Hx as [Hx _]; auto. apply (endpoint_member mk g) in Hy as [Hy _]; auto.
        eapply nodup_inj; [apply (mi_nodup _ I)| | |]; auto.
      - apply (endpoint_member mk g); auto. split; auto. apply (best_in _ _ _ _ B).
      - intros x Hx. apply (endpoint_member mk g) in Hx; tauto.
      - exfalso. apply (endpoint_member mk g) in X1 as [Xr Xe]; auto. eapply Nc; eauto. }
    rewrite D. reflexivity.
  Qed.
  Lemma base_of a host root : own_host a host -> (g_host_matching (m_config (a_map a)) = true -> a_subdomain a = None) ->
    a_script a = 47 :: folders root -> redirect_base a = a_scheme a ++ lit "://" ++ host ++ 47 :: folders root.
  Proof.
    intros O Hs E. unfold redirect_base. rewrite E. destruct O as [G|G N|d h G N T].
    - rewrite (Hs G). reflexivity.
    - rewrite N. reflexivity.
    - rewrite N. destruct T as [d' G'|G'|d' G' Nd]; [congruence|reflexivity|]. destruct d'; [congruence|]. rewrite <- !app_assoc. reflexivity.
  Qed.

  (** ** Building *)
  Lemma first_build_of mk g a e values au b r : made mk g (a_map a) -> builder_of a e values au b ->
    route_build (b_route b) values au = Ok (Some r) -> first_build (endpoint_routes (update (a_map a)) e) values au = Ok r.
  Proof.
    intros M B Hb. pose proof (endpoint_sorted mk g (a_map a) e M) as S.
    assert (Hin : forall x, In x (endpoint_routes (update (a_map a)) e) <-> In x (m_routes (a_map a)) /\ r_endpoint (b_route x) = e) by (intros x; apply (endpoint_member mk g); auto).
    assert (Nb : ~ refused values au b) by (intros [X|X]; [apply X, (bo_suits _ _ _ _ _ B)|congruence]).
    assert (Ib : In b (endpoint_routes (update (a_map a)) e)) by (apply Hin; split; [apply (bo_in _ _ _ _ _ B)|apply (bo_endpoint _ _ _ _ _ B)]).
    destruct (first_build_cases (endpoint_routes (update (a_map a)) e) values au) as [[_ H]|(l1 & x & l2 & El & H1 & H2 & H3)].
    - exfalso. apply Nb, H. auto.
    - assert (x = b) as ->.
      { rewrite El in Ib. apply in_app_iff in Ib as [Ib|[Ib|Ib]]; [exfalso; apply Nb; auto|auto|]. exfalso.
        assert (P : precedes x b).
        { rewrite El in S. clear - S Ib. induction l1 as [|y l1 IH]; cbn [app] in S; inv S; auto. rewrite Forall_forall in H2. auto. }
        assert (Ix : In x (endpoint_routes (update (a_map a)) e)) by (rewrite El; apply in_elt). apply Hin in Ix as [I1 I2].
        destruct (bo_first _ _ _ _ _ B x I1 I2 P) as [X|X]; [auto|]. destruct H3 as [(r' & X1 & _)|(e' & X1 & _)]; congruence. }
      destruct H3 as [(r' & X1 & ->)|(e' & X1 & _)]; congruence.
  Qed.
  Lemma walks_folder d l d' : walks d l d' -> Forall folder d -> Forall folder l -> Forall folder d'.
  Proof.
    intros W. induction W as [d|d l d' W IH|d x l d' W IH|d x l d' H1 H2 W IH]; intros Hd Hl; auto.
    - inv Hl. auto.
    - inv Hl. apply IH; auto. apply Forall_app in Hd. tauto.
    - inv Hl. apply IH; auto. apply Forall_app. auto.
  Qed.
  Lemma arrives_folder r0 l x d x' : arrives r0 l x d x' -> Forall folder r0 -> Forall folder l -> Forall folder d /\ (x' = x \/ x' = []).
  Proof.
    intros [d0 l0 y d' W _ _|d0 l0 d' W|d0 l0 d' y W] H1 H2; pose proof (walks_folder _ _ _ W H1 H2) as F; split; auto. apply Forall_app in F. tauto.
  Qed.
  Lemma build_own mk g a e vals values au b d path root dirs x t d' x' : made mk g (a_map a) -> given vals values ->
    builder_of a e values au b -> route_build (b_route b) values au = Ok (Some (d, path)) -> own_domain a d ->
    a_script a = 47 :: folders root -> Forall folder root -> no_dots root ->
    path = 47 :: folders dirs ++ x ++ t -> Forall folder dirs -> file x -> ending t -> arrives root dirs x d' x' ->
    snd (build ip_ok nfkc_ok a e vals false au) = Ok (47 :: folders d' ++ x' ++ t).
  Proof.
    intros M G B Hb O Es Hr (N1 & N2) -> Hd Hx (q & f & -> & Q1 & Q2 & Q3) A. change (query_suffix q ++ fragment_suffix f) with (tail_of q f) in *.
    unfold ModelUrlMap.build, ModelUrlMap.build_updated. cbn [snd]. rewrite <- (given_unique _ _ G).
    change (endpoint_routes (a_map (update_adapter a)) e) with (endpoint_routes (update (a_map a)) e).
    rewrite (first_build_of mk g a e values au b _ M B Hb). cbn [bind].
    assert (Own : negb false && ((host_matching (update_adapter a) && eqs (get_host (update_adapter a) (Some d)) (a_server (update_adapter a)))
                  || (negb (host_matching (update_adapter a)) && match a_subdomain (update_adapter a) with Some s => eqs d s | None => false end)) = true).
    { unfold get_host, host_matching. cbn [a_map a_server a_subdomain update_adapter]. rewrite update_config. destruct O as [H|d H H']; rewrite H; [|rewrite H']; cbn [negb andb orb]; rewrite eqs_refl; reflexivity. }
    rewrite Own. cbn [a_script update_adapter]. rewrite Es.
    assert (L : lstrip_slash (47 :: folders dirs ++ x ++ tail_of q f) = folders dirs ++ x ++ tail_of q f).
    { unfold lstrip_slash. cbn [lstrip_by]. change (is_slash 47) with true. cbv iota.
      assert (H : forall c s, folders dirs ++ x ++ tail_of q f = c :: s -> c <> 47).
      { intros c s E. destruct dirs as [|[|c0 d0] l]; [|inv Hd; destruct H1; congruence|].
        - cbn [folders flat_map app] in E. destruct x as [|c0 x].
          + cbn [app] in E. destruct (tail_first q f) as [X|(r & [X|X])]; rewrite X in E; inv E; lia.
          + cbn [app] in E. inv E. destruct (in_file c (c :: x) Hx); [left; auto|lia].
        - cbn in E. inv E. inv Hd. destruct H1 as [W _]. destruct (W c); [left; auto|lia]. }
      destruct (folders dirs ++ x ++ tail_of q f) as [|c s]; [reflexivity|]. cbn [lstrip_by].
      destruct (is_slash c) eqn:Ec; [|reflexivity]. apply slash_char in Ec. exfalso. eapply H; eauto. }
    rewrite L.
    assert (Fd : Forall folder (lit "." :: dirs)).
    { constructor; [|auto]. split; [|discriminate]. intros c Hc. change (lit ".") with [46] in Hc. destruct Hc as [<-|[]]. lia. }
    assert (A' : arrives root (lit "." :: dirs) x d' x') by (destruct A; [apply ar_file; [constructor|..]|apply ar_here; constructor|eapply ar_up; constructor]; eauto).
    destruct (join_relative [] [] root (47 :: folders root) (parse_base_path root Hr) ltac:(discriminate) Hr (conj N1 N2) ltac:(repeat split)
                (lit "." :: dirs) x q f d' x' Fd Hx ltac:(discriminate) ltac:(vm_compute; intuition lia) Q1 Q2 Q3 A') as (y & p & E & ->).
    change (folders (lit "." :: dirs)) with (lit "./" ++ folders dirs) in E. rewrite <- !app_assoc in E. rewrite E. f_equal.
    destruct (arrives_folder _ _ _ _ _ A Hr Hd) as [Fd' Hy].
    rewrite unparse_path; [cbn [app]; rewrite <- !app_assoc; reflexivity| |reflexivity].
    cbn [starts]. change (47 =? 47) with true. cbv iota.
    assert (H : forall c s, folders d' ++ y = c :: s -> c <> 47).
    { intros c s Ey. destruct d' as [|[|c0 d0] l]; [|inv Fd'; destruct H1; congruence|].
      - cbn [folders flat_map app] in Ey. subst y. intros ->. destruct Hy as [Hy|Hy]; [|discriminate]. destruct (in_file 47 x Hx); [rewrite <- Hy; left; auto|lia].
      - cbn in Ey. inv Ey. inv Fd'. destruct H1 as [W _]. destruct (W c); [left; auto|lia]. }
    destruct (folders d' ++ y) as [|c s]; [reflexivity|]. destruct (N.eqb_spec 47 c) as [<-|]; [exfalso; eapply H; eauto|reflexivity].
  Qed.
  Lemma walks_plain dirs : no_dots dirs -> forall r0, walks r0 dirs (r0 ++ dirs).
  Proof.
    induction dirs as [|x l IH]; intros (N1 & N2) r0; [rewrite app_nil_r; constructor|].
    apply wa_down; [intros ->; apply N1; left; auto|intros ->; apply N2; left; auto|].
    replace (r0 ++ x :: l) with ((r0 ++ [x]) ++ l) by (rewrite <- app_assoc; auto). apply IH. split; intros X; [apply N1|apply N2]; right; auto.
  Qed.
  Lemma build_and_match mk g a e vals values au b d path root dirs x query : made mk g (a_map a) -> given vals values ->
    builder_of a e values au b -> route_build (b_route b) values au = Ok (Some (d, path)) -> own_domain a d -> ~ In 37 d ->
    plain_route (b_route b) -> separated_route (b_route b) -> open_end (b_route b) -> r_build_only (b_route b) = false ->
    NoDup (map fst (r_defaults (b_route b))) -> (forall s, In (PStatic s) (r_domain (b_route b)) -> ~ In 124 s) ->
    (forall n c v, In (n, c) (route_vars (b_route b)) -> dget values n = Some v -> exists t, faithful c v t) ->
    a_script a = 47 :: folders root -> Forall folder root -> no_dots root ->
    path = 47 :: folders dirs ++ x ++ query_suffix query -> Forall folder dirs -> file x -> ~ In 35 query -> one_line query -> no_dots (x :: dirs) ->
    snd (build ip_ok nfkc_ok a e vals false au) = Ok (47 :: folders root ++ folders dirs ++ x ++ query_suffix query) /\
    exists p, decodes (47 :: folders dirs ++ x) p /\
      (asked a p (d ++ 124 :: p) -> (forall u, p <> u ++ [10]) ->
       best (g_redirect_defaults (m_config (a_map a))) (d ++ 124 :: p) (m_routes (a_map a)) b ->
       b_redirect b = NoRedirect -> r_alias (b_route b) = false ->
       exists found, (forall k, dget found k = match dget (r_defaults (b_route b)) k with
                               | Some v => Some v
                               | None => if existsb (eqs k) (var_names (b_route b)) then dget values k else None
                               end) /\
         (has_no_canonical a b found -> forall q, snd (match_path ip_ok nfkc_ok a p q) = Ok (Found b found))).
  Proof.
    intros M G B Hb O H37 P1 P2 P3 P4 P5 P6 P7 Es Hr Nr Ep Hd Hx Q1 Q2 (D1 & D2).
    assert (Nd : no_dots dirs) by (split; intros X; [apply D1|apply D2]; right; auto).
    split.
    - rewrite (build_own mk g a e vals values au b d path root dirs x (query_suffix query) (root ++ dirs) x M G B Hb O Es Hr Nr Ep Hd Hx).
      + rewrite folders_app, <- app_assoc. reflexivity.
      + exists query, []. cbn [fragment_suffix]. rewrite app_nil_r. repeat split; try tauto; try (apply Q2); intros [].
      + apply ar_file; [apply walks_plain; auto| |]; intros ->; [apply D1|apply D2]; left; auto.
    - destruct (build_match (g_redirect_defaults (m_config (a_map a))) (b_route b) values au d path P1 P2 P3 P4 P5 P6 P7 Hb) as (d0 & p & up & E1 & E2 & E3 & E4 & E5 & E6 & E7).
      rewrite (E2 H37) in *. clear E1 E2.
      assert (up = 47 :: folders dirs ++ x) as ->.
      { assert (N63 : ~ In 63 (47 :: folders dirs ++ x)).
        { intros [X|X]; [lia|]. apply in_app_iff in X as [X|X]; [apply (in_folders 63 dirs) in X; auto using folder_words; lia|apply in_file in X; auto; lia]. }
        assert (U : forall (a1 a2 b1 b2 : str), ~ In 63 a1 -> ~ In 63 a2 -> a1 ++ 63 :: b1 = a2 ++ 63 :: b2 -> a1 = a2).
        { clear. induction a1 as [|c a1 IH]; intros [|c2 a2] b1 b2 H1 H2 E; cbn [app] in E; auto.
          - inv E. exfalso. apply H2. left; auto.
          - inv E. exfalso. apply H1. left; auto.
          - inv E. f_equal. eapply IH; eauto; intros X; [apply H1|apply H2]; right; auto. }
        subst path. change (47 :: folders dirs ++ x ++ query_suffix query) with ((47 :: folders dirs) ++ x ++ query_suffix query) in E6. rewrite app_assoc in E6.
        change ((47 :: folders dirs) ++ x) with (47 :: folders dirs ++ x) in E6.
        destruct query as [|c query]; cbn [query_suffix] in E6.
        - rewrite app_nil_r in E6. destruct E6 as [E6|(qq & E6)]; [auto|]. exfalso. apply N63. rewrite E6. apply in_elt.
        - destruct E6 as [E6|(qq & E6)]; [exfalso; apply E4; rewrite <- E6; apply in_elt|]. symmetry. eapply U; eauto. }
      exists p. split; [exact E3|]. intros A Hn Bb Hnr Hal. destruct (E7 Hn) as (found & Hf & Hk). exists found. split; [exact Hk|].
      intros Nc q. rewrite Hal in Hf. cbn [andb] in Hf. rewrite (match_redirect mk g a p q b _ found M A Bb Hf Nc), Hnr. reflexivity.
  Qed.
End Join.
