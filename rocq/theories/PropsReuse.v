(** The claims about a builder that is used more than once (C123).

    [guess] stands for mimetypes.guess_type, [ip_ok] and [nfkc_ok] for the checks of urlsplit;
    nothing is assumed of them. *)
From Coq Require Import Arith List NArith ZArith Bool Lia.
From Verif Require Import PyStr ModelUrls SpecRequest ModelMultiDict ModelTest ModelReuse SpecReuse ProofReuse.
Import ListNotations.
Open Scope N_scope.

(** An open builder that is closed calls close of the first file of every key, in order, once,
    whatever the files raise, and then is closed; with an input stream it calls nothing.  The
    objects keep what they hold and their places, and exactly the objects called are closed. *)
Theorem C123_close : forall y r y',
  close y = (r, y') -> y_closed y = false -> (forall k v, In (k, v) (files_of y) -> v <> []) ->
  r = Ok tt /\ y_closed y' = true /\
  exists called, y_closings y' = y_closings y ++ called /\
    (y_input y = None -> first_of_each (files_of y) called) /\ (y_input y <> None -> called = []) /\
    forall n o, nth_error (y_objects y) n = Some o -> exists o', nth_error (y_objects y') n = Some o' /\
      o_data o' = o_data o /\ o_pos o' = o_pos o /\
      (o_open o' = true <-> o_open o = true /\ (In n called -> o_fails o = true)).
Proof. exact close_spec. Qed.
Print Assumptions C123_close.

(** After that nothing is closed any more, whatever happens to the builder: also files given
    to it later are not. *)
Theorem C123_closed_once : forall guess ip_ok nfkc_ok l y,
  y_closed y = true ->
  y_closed (happen_all guess ip_ok nfkc_ok l y) = true /\ y_closings (happen_all guess ip_ok nfkc_ok l y) = y_closings y.
Proof. exact stays_closed. Qed.
Print Assumptions C123_closed_once.

(* two files under the key "f", one under "g"; the first is open and fails to close *)
Definition an_object (data : str) (fails : bool) : object := mk_object (Some (lit "a.txt")) (Some (lit "text/plain")) data 0 true fails.
Definition with_files : system :=
  mk_system (lit "http") (lit "localhost") [] None None None (Some [(lit "f", [0; 1]%nat); (lit "g", [2%nat])]) false
    [an_object (lit "one") true; an_object (lit "two") false; an_object (lit "three") false] [].

(** It does not close all files, as documented: a second file of a key stays open. *)
Theorem C123_close_all_refuted : exists y y' n o,
  y_closed y = false /\ readable y /\ close y = (Ok tt, y') /\ In n (all_files y) /\ ~ In n (y_closings y') /\
  nth_error (y_objects y') n = Some o /\ o_open o = true /\ o_fails o = false.
Proof.
  exists with_files, (snd (close with_files)), 1%nat, (an_object (lit "two") false).
  split; [reflexivity|]. split.
  { split; [cbn; repeat constructor; cbn; lia|]. intros n [<-|[<-|[<-|[]]]]; cbn; eauto. }
  split; [reflexivity|]. split; [right; left; reflexivity|]. split; [cbn; lia|]. repeat split.
Qed.
Print Assumptions C123_close_all_refuted.
Example C123_close_example :
  y_closings (snd (close with_files)) = [0; 2]%nat /\ map o_open (y_objects (snd (close with_files))) = [true; true; false].
Proof. split; reflexivity. Qed.

(** A key whose list of files is empty stops it, and the builder stays open. *)
Example C123_finding_empty_key :
  let y := y_set_files with_files (Some [(lit "f", [0%nat]); (lit "g", []); (lit "h", [2%nat])]) in
  fst (close y) = Raise IndexError /\ y_closed (snd (close y)) = false /\ y_closings (snd (close y)) = [0%nat].
Proof. repeat split. Qed.

(** A builder whose body is not made of files gives the same body, and the same length, however
    often it is asked, as long as nobody reads or changes what it was given. *)
Theorem C123_again : forall guess boundary y r y1,
  sends_no_files y -> ask guess boundary y = (r, y1) -> ask guess boundary y1 = (r, y1).
Proof. exact ask_again. Qed.
Print Assumptions C123_again.

(** With an input stream it is what is left of the stream from the place it stands at, which it
    keeps. *)
Theorem C123_input : forall guess boundary y i o,
  y_input y = Some i -> nth_error (y_objects y) i = Some o -> o_open o = true -> (o_pos o <= length (o_data o))%nat ->
  exists body, ask guess boundary y = (Ok (body, Z.of_nat (length body)), y) /\ firstn (o_pos o) (o_data o) ++ body = o_data o.
Proof.
  intros guess boundary y i o I E O L. exists (skipn (o_pos o) (o_data o)). split; [|apply firstn_skipn].
  unfold ask. rewrite I, E, O. unfold rest_of. rewrite skipn_length. do 3 f_equal. lia.
Qed.
Print Assumptions C123_input.

(** With files, all open and all different, the first body holds what is left of each of them;
    the second holds the same parts with nothing in the files. *)
Theorem C123_files : forall guess boundary y body len y1,
  sends_files y -> readable y -> ask guess boundary y = (Ok (body, len), y1) ->
  stream_encode_multipart guess true (1024 * 500) boundary (values_with (left_of y) y) = Ok (body, Z.to_N len) /\
  len = Z.of_nat (length body) /\
  fst (ask guess boundary y1) =
    (do b <- stream_encode_multipart guess true (1024 * 500) boundary (values_with (nothing_of y) y); Ok (fst b, Z.of_N (snd b))).
Proof. exact ask_files_again. Qed.
Print Assumptions C123_files.

(** So a builder with files does not give the same request twice. *)
Theorem C123_again_refuted : exists guess boundary y body1 body2 n1 n2 y1 y2,
  sends_files y /\ readable y /\
  ask guess boundary y = (Ok (body1, n1), y1) /\ ask guess boundary y1 = (Ok (body2, n2), y2) /\ (n2 < n1)%Z.
Proof.
  exists (fun _ => None), (lit "X"), with_files.
  destruct (ask (fun _ => None) (lit "X") with_files) as [r y1] eqn:E1. vm_compute in E1. inversion E1; subst; clear E1.
  do 6 eexists. split; [split; [reflexivity|right; split; [reflexivity|discriminate]]|]. split.
  { split; [cbn; repeat constructor; cbn; lia|]. intros n [<-|[<-|[<-|[]]]]; cbn; eauto. }
  split; [reflexivity|]. split; [vm_compute; reflexivity|]. reflexivity.
Qed.
Print Assumptions C123_again_refuted.

(** Setting base_url to a web address keeps its scheme, its host and its path without the
    slashes at the end; reading it gives the address with one slash at the end. *)
Theorem C123_base : forall ip_ok nfkc_ok y scheme name host p n,
  scheme = lit "http" \/ scheme = lit "https" -> plain_host name host ->
  p ++ repeat 47 n = [] \/ (exists r, p ++ repeat 47 n = 47 :: r) -> no_final_slash p -> ~ In 63 p -> ~ In 35 p -> one_line p ->
  exists y', set_base_url ip_ok nfkc_ok y (Some (scheme ++ lit "://" ++ host ++ p ++ repeat 47 n)) = (Ok tt, y') /\
    y_scheme y' = scheme /\ y_host y' = host /\ y_root y' = p /\
    get_base_url y' = scheme ++ lit "://" ++ host ++ p ++ lit "/".
Proof.
  intros ip_ok nfkc_ok y scheme name host p n Hs Hh Hp Nf N1 N2 L. exists (with_base y scheme host p).
  split; [eapply set_base_spec; eauto|]. repeat split.
  apply (get_base_spec ip_ok nfkc_ok (with_base y scheme host p) name); auto.
  cbn [with_base y_root]. destruct p as [|c p]; [auto|]. right. destruct Hp as [Hp|[r Hp]]; inversion Hp. eauto.
Qed.
Print Assumptions C123_base.
(** An address with a query is refused, and nothing changes. *)
Theorem C123_base_refused : forall ip_ok nfkc_ok y scheme name host p q,
  scheme = lit "http" \/ scheme = lit "https" -> plain_host name host ->
  ~ In 63 p -> ~ In 35 p -> ~ In 35 q -> one_line p -> one_line q -> q <> [] ->
  set_base_url ip_ok nfkc_ok y (Some (scheme ++ lit "://" ++ host ++ [47] ++ p ++ [63] ++ q)) = (Raise ValueError, y).
Proof. exact base_refused. Qed.
Print Assumptions C123_base_refused.
Example C123_base_example :
  let y := snd (set_base_url (fun _ => true) (fun _ => true) with_files (Some (lit "https://example.org:8080/a/b//"))) in
  get_base_url y = lit "https://example.org:8080/a/b/" /\ y_root y = lit "/a/b" /\
  get_base_url (snd (set_base_url (fun _ => true) (fun _ => true) y (Some (get_base_url y)))) = lit "https://example.org:8080/a/b/".
Proof. vm_compute. repeat split. Qed.
