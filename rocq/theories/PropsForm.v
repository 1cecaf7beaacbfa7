(** * Forms and files of test requests: C115, and the content type of a builder (C87) *)
From Coq Require Import List NArith ZArith Bool Lia.
From Verif Require Import PyStr PyStrFacts Utf8 Utf8Facts SpecUrls ProofUrls ModelHeaders SpecHeaders ModelMultiDict ModelStream SpecStream ModelRequest SpecRequest ModelTest SpecTest SpecForm ProofForm.
Import ListNotations.
Open Scope N_scope.

(** ** C87 *)

(** The content type of a builder: the header, else what the body needs. *)
Theorem C87_content_type : forall b,
  (forall t, h_get (b_headers b) (lit "Content-Type") = Some t -> get_content_type b = Some t) /\
  (h_get (b_headers b) (lit "Content-Type") = None ->
    (b_input b <> None -> get_content_type b = None) /\
    (b_input b = None -> forall k fs rest, b_files b = Some ((k, fs) :: rest) -> get_content_type b = Some (lit "multipart/form-data")) /\
    (b_input b = None -> b_files b = None \/ b_files b = Some [] ->
       (forall k vs rest, b_form b = Some ((k, vs) :: rest) -> get_content_type b = Some (lit "application/x-www-form-urlencoded")) /\
       (b_form b = None \/ b_form b = Some [] -> get_content_type b = None))).
Proof.
  intros b. unfold get_content_type. split; [intros t ->; reflexivity|]. intros ->. split.
  - intros H. destruct (b_input b); congruence.
  - split; [intros -> k fs rest ->; reflexivity|]. intros -> F. split; [intros k vs rest ->|intros G].
    + destruct F as [-> | ->]; reflexivity.
    + destruct F as [-> | ->], G as [-> | ->]; reflexivity.
Qed.
Print Assumptions C87_content_type.

(** ** C115 *)

(** Texts and bytes given as data arrive as a urlencoded form, of every name the first
    value, in order.  Missing: the other values of a name, see below. *)
Theorem C115_fields_partial : forall guess idna_part ip_ok nfkc_ok boundary a e u l,
  create_environ guess idna_part ip_ok nfkc_ok boundary a = Ok (e, u) -> a_overrides a = [] ->
  carries_fields a l -> untyped a -> Forall (fun kv => is_field (snd kv)) l ->
  Forall (fun kv => forall b, snd kv = DBytes b -> bytes_text b) l ->
  exists raws, let body := join [38] raws in
    Forall2 field_means raws (firsts [] l) /\ u = fresh body [] /\
    dget e (lit "CONTENT_TYPE") = Some (lit "application/x-www-form-urlencoded") /\
    dget e (lit "CONTENT_LENGTH") = Some (zdec (Z.of_nat (length body))) /\
    forall cache, exists st, get_data e false cache false (new_request false u) = (Ok body, st).
Proof.
  intros guess idna_part ip_ok nfkc_ok boundary a e u l H1 H2 H3 H4 H5 H6. eapply fields_spec; eauto.
  eapply Forall_impl; [|exact H6]. intros [k v] H. unfold bytes_ok. cbn [snd] in *. destruct v; auto.
Qed.
Print Assumptions C115_fields_partial.

(** Files given as data arrive as the parts of a multipart body with the boundary named in
    the content type: all of them, those of a name side by side. *)
Theorem C115_files : forall guess idna_part ip_ok nfkc_ok boundary a e u l fl,
  create_environ guess idna_part ip_ok nfkc_ok boundary a = Ok (e, u) -> a_overrides a = [] ->
  carries_fields a l -> untyped a -> all_uploads guess l fl ->
  forallb (fun c => c <? 128) boundary = true -> ~ In 13 boundary ->
  Forall (fun kf => sendable guess boundary (fst kf) (snd kf)) fl ->
  exists body parts, reads boundary body parts /\ Forall2 (part_of guess) (grouped fl) parts /\ u = fresh body [] /\
    dget e (lit "CONTENT_TYPE") = Some (lit "multipart/form-data; boundary=""" ++ boundary ++ lit """") /\
    dget e (lit "CONTENT_LENGTH") = Some (zdec (Z.of_nat (length body))) /\
    forall cache, exists st, get_data e false cache false (new_request false u) = (Ok body, st).
Proof. exact files_spec. Qed.
Print Assumptions C115_files.

(** Such data is never refused. *)
Theorem C115_total : forall guess idna_part ip_ok nfkc_ok boundary a path query scheme name host script l fl,
  asks_for a path query -> base_for (a_base_url a) scheme name host script -> unicode_text query -> fit_headers a ->
  carries_fields a l -> untyped a ->
  (Forall (fun kv => is_field (snd kv)) l /\ Forall writable l) \/
  (all_uploads guess l fl /\ forallb (fun c => c <? 128) boundary = true /\ ~ In 13 boundary /\
   Forall (fun kf => sendable guess boundary (fst kf) (snd kf)) fl) ->
  exists e u, create_environ guess idna_part ip_ok nfkc_ok boundary a = Ok (e, u).
Proof. exact form_create_total. Qed.
Print Assumptions C115_total.

(** Refuted: a text together with a file is always refused. *)
Theorem C115_mixed_refuted : forall guess idna_part ip_ok nfkc_ok boundary a l k s,
  carries_fields a l -> untyped a -> In (k, DText s) l -> (exists kv, In kv l /\ is_upload (snd kv)) ->
  exists x, create_environ guess idna_part ip_ok nfkc_ok boundary a = Raise x.
Proof. exact mixed_fails. Qed.
Print Assumptions C115_mixed_refuted.

(** Refuted: with a content type of one's own, other than the two, the fields and files are
    left out and the body is empty. *)
Theorem C115_typed_refuted : forall guess idna_part ip_ok nfkc_ok boundary a e u l t,
  create_environ guess idna_part ip_ok nfkc_ok boundary a = Ok (e, u) -> a_overrides a = [] -> carries_fields a l ->
  a_content_type a = Some t -> t <> lit "multipart/form-data" -> t <> lit "application/x-www-form-urlencoded" ->
  u = fresh [] [] /\ dget e (lit "CONTENT_TYPE") = Some t.
Proof. exact typed_spec. Qed.
Print Assumptions C115_typed_refuted.

Definition ex_create := create_environ (fun n => if eqs n (lit "a.txt") then Some (lit "text/plain") else None) (fun s => Ok s) (fun _ => true) (fun _ => true) (lit "BND").
Definition ex_args (t : option str) (l : list (str * dvalue)) : build_args :=
  mk_args (lit "/f") None NoQuery (lit "POST") None t None [] (Fields l) [] [].

(** Refuted: of several values of one name only the first arrives. *)
Theorem C115_values_refuted : exists e u, ex_create (ex_args None [(lit "k", DText (lit "1")); (lit "k", DText (lit "2"))]) = Ok (e, u)
  /\ u = fresh (lit "k=1") [].
Proof. eexists. eexists. split; [vm_compute; reflexivity|reflexivity]. Qed.
Print Assumptions C115_values_refuted.

Example C115_example :
  let l := [(lit "a b", DText [228; 38]); (lit "c", DBytes [255; 32]); (lit "d", DText [])] in
  carries_fields (ex_args None l) l /\ untyped (ex_args None l) /\ Forall (fun kv => is_field (snd kv)) l /\ Forall writable l /\
  asks_for (ex_args None l) (lit "/f") [] /\
  exists e, ex_create (ex_args None l) = Ok (e, fresh (lit "a+b=%C3%A4%26&c=%FF+&d=") []) /\ dget e (lit "CONTENT_LENGTH") = Some (lit "23").
Proof.
  cbv zeta. split; [repeat split; discriminate|]. split; [split; [reflexivity|intros k v []]|].
  split; [repeat constructor|]. split.
  { apply Forall_cons; [|apply Forall_cons; [|apply Forall_cons; [|apply Forall_nil]]]; (split; [apply scalar_text; reflexivity|]); cbn [snd].
    - apply scalar_text; reflexivity.
    - apply is_bytes_text. reflexivity.
    - apply scalar_text; reflexivity. }
  split.
  { apply ask_path; [reflexivity|]. cbn [a_path ex_args]. split; [eexists; split; [reflexivity|intros r E; discriminate]|].
    split; [cbn; intros H; repeat (destruct H as [H|H]; [discriminate|]); exact H|].
    split; [cbn; intros H; repeat (destruct H as [H|H]; [discriminate|]); exact H|].
    split; [repeat split; cbn; intros H; repeat (destruct H as [H|H]; [discriminate|]); exact H|].
    split; [|eexists; split; [reflexivity|intros r E; discriminate]].
    exists (lit "/f"). split; [|reflexivity]. exists (lit "/f"). split; [reflexivity|].
    apply ProofRequest.percent_free. cbn; intros H; repeat (destruct H as [H|H]; [discriminate|]); exact H. }
  eexists. split; [vm_compute; reflexivity|vm_compute; reflexivity].
Qed.

Example C115_files_example :
  let f := mk_file (Some (lit "x.bin")) (Some (lit "a/b")) [lit "data"] in
  let l := [(lit "one", DTuple (UFile (Some (lit "tmp")) [lit "x"; lit "y"]) (Some (lit "a.txt")) None); (lit "two", DUpload (UStorage f));
            (lit "one", DUpload (UFile (Some (lit "<stdin>")) []))] in
  let fl := [(lit "one", mk_file (Some (lit "a.txt")) (Some (lit "text/plain")) [lit "x"; lit "y"]); (lit "two", f);
             (lit "one", mk_file None (Some (lit "application/octet-stream")) [])] in
  all_uploads (fun n => if eqs n (lit "a.txt") then Some (lit "text/plain") else None) l fl /\
  map fst (grouped fl) = [lit "one"; lit "one"; lit "two"] /\
  (exists e u, ex_create (ex_args None l) = Ok (e, u) /\ dget e (lit "CONTENT_TYPE") = Some (lit "multipart/form-data; boundary=""BND""")) /\
  (exists x, ex_create (ex_args None ((lit "t", DText []) :: l)) = Raise x) /\
  (exists e, ex_create (ex_args (Some (lit "text/plain")) l) = Ok (e, fresh [] [])).
Proof.
  cbv zeta. split.
  { constructor; [split; [reflexivity|apply up_name; [discriminate|reflexivity]]|].
    constructor; [split; [reflexivity|apply up_storage]|]. constructor; [split; [reflexivity|apply (up_file _ (Some (lit "<stdin>")) [])]|constructor]. }
  split; [reflexivity|]. split; [eexists; eexists; split; vm_compute; reflexivity|].
  split; [eexists; vm_compute; reflexivity|]. eexists. vm_compute. reflexivity.
Qed.

(** ** C88, once more: the argument data *)
(** Empty data is no data, with a stream too. *)
Theorem C88_empty_data : forall guess idna_part ip_ok nfkc_ok path base query method input type length headers d environ overrides,
  d = BytesData [] \/ d = TextData [] \/ d = Fields [] ->
  new_builder guess idna_part ip_ok nfkc_ok (mk_args path base query method input type length headers d environ overrides) =
  new_builder guess idna_part ip_ok nfkc_ok (mk_args path base query method input type length headers NoData environ overrides).
Proof.
  intros. unfold new_builder, split_args. cbn [a_path a_base_url a_query a_method a_input a_content_type a_content_length a_headers a_data a_environ_base a_overrides].
  destruct (match query with NoQuery => _ | _ => _ end) as [p q]. match goal with |- bind ?x _ = bind ?x _ => destruct x; cbn [bind]; [|reflexivity] end.
  match goal with |- bind ?x _ = bind ?x _ => destruct x; cbn [bind]; [|reflexivity] end. destruct (split_base_url _) as [[[s h] r]|]; cbn [bind]; [|reflexivity].
  destruct (query_of q). destruct (h_init_pairs headers) as [hs [e|]]; cbn [bind]; [reflexivity|].
  match goal with |- bind ?x _ = bind ?x _ => destruct x; cbn [bind]; [|reflexivity] end.
  match goal with |- bind ?x _ = bind ?x _ => destruct x; cbn [bind]; [|reflexivity] end.
  destruct H as [->|[->| ->]]; destruct input; reflexivity.
Qed.
Print Assumptions C88_empty_data.
(** A stream and data are too much. *)
Theorem C88_stream_and_data : forall guess idna_part ip_ok nfkc_ok path base query method i type length headers d environ overrides b,
  d <> NoData -> d <> BytesData [] -> d <> TextData [] -> d <> Fields [] ->
  new_builder guess idna_part ip_ok nfkc_ok (mk_args path base query method (Some i) type length headers NoData environ overrides) = Ok b ->
  new_builder guess idna_part ip_ok nfkc_ok (mk_args path base query method (Some i) type length headers d environ overrides) = Raise TypeError.
Proof.
  intros until b. intros N1 N2 N3 N4. unfold new_builder, split_args. cbn [a_path a_base_url a_query a_method a_input a_content_type a_content_length a_headers a_data a_environ_base a_overrides].
  destruct (match query with NoQuery => _ | _ => _ end) as [p q]. match goal with |- bind ?x _ = _ -> bind ?x _ = _ => destruct x; cbn [bind]; [|discriminate] end.
  match goal with |- bind ?x _ = _ -> bind ?x _ = _ => destruct x; cbn [bind]; [|discriminate] end. destruct (split_base_url _) as [[[s h] r]|]; cbn [bind]; [|discriminate].
  destruct (query_of q). destruct (h_init_pairs headers) as [hs [e|]]; cbn [bind]; [discriminate|].
  match goal with |- bind ?x _ = _ -> bind ?x _ = _ => destruct x; cbn [bind]; [|discriminate] end.
  match goal with |- bind ?x _ = _ -> bind ?x _ = _ => destruct x; cbn [bind]; [|discriminate] end.
  intros _. destruct d as [|[|c x]|[|c x]|[|f l]]; try congruence; reflexivity.
Qed.
Print Assumptions C88_stream_and_data.
