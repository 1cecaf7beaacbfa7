(** * C125: the Location header that is sent *)
From Coq Require Import Arith List NArith ZArith Bool Lia.
From Verif Require Import PyStr PyStrFacts Utf8 ModelHeaders SpecHeaders ProofHeaders ModelUrls SpecUrls SpecIri ProofIriParts
  ModelResponse SpecResponse ProofResponse SpecEtag SpecRequest SpecJoin SpecLocation ProofLocation.
Import ListNotations.
Open Scope N_scope.

Lemma location_stage idna_part idna_decode_part ip_ok nfkc_ok environ r line h it vs old new :
  serve idna_part idna_decode_part ip_ok nfkc_ok environ r = Ok (line, h, it) ->
  values_of (lit "Location") (rs_headers r) (vs ++ [old]) ->
  fix_location idna_part idna_decode_part ip_ok nfkc_ok environ (rs_autolocation r) old = Ok new ->
  (new <> old \/ vs = [] -> values_of (lit "Location") h [new]) /\ (new = old -> values_of (lit "Location") h (vs ++ [old])).
Proof.
  unfold serve. intros H V F.
  destruct (wsgi_headers idna_part idna_decode_part ip_ok nfkc_ok environ r) as [h3|e] eqn:E; [|discriminate].
  cbn [bind] in H. destruct (dget environ (lit "REQUEST_METHOD")); [|discriminate]. injection H as _ <- _.
  apply sent_stages in E as (h1 & h2 & L1 & L2 & L3). apply getlist_char in V.
  assert (Q : h_getlist h3 (lit "Location") = h_getlist h1 (lit "Location")).
  { rewrite (finished_getlist _ _ _ _ L3); [|vm_compute; discriminate|].
    - apply (content_located_other _ _ _ _ _ _ _ L2). vm_compute. discriminate.
    - intros n Hn S. exfalso. unfold entity_names in Hn. cbn [In] in Hn.
      repeat (destruct Hn as [<-|Hn]; [vm_compute in S; discriminate S|]). exact Hn. }
  unfold located in L1. change (lit "location") with (lower (lit "Location")) in L1. rewrite (last_value_app_list _ _ _ _ V) in L1.
  destruct L1 as (new' & F' & D). rewrite F in F'. injection F' as <-.
  assert (W : forall ws, h_getlist h3 (lit "Location") = ws -> values_of (lit "Location") h3 ws).
  { intros ws <-. apply values_of_filter. }
  destruct D as [[-> ->]|[N S]].
  - split; [|intros _; apply W; rewrite Q; exact V]. intros [X| ->]; [congruence|]. apply W. rewrite Q. exact V.
  - split; [|congruence]. intros _. apply W. rewrite Q. apply set_get in S as [S _]. apply S. reflexivity.
Qed.

(** With autocorrect_location_header the location sent is the place to which the one that
    was set leads from the root of the application.  It takes the place of all Location
    headers if it differs from the last one. *)
Theorem C125_absolute : forall idna_part idna_decode_part ip_ok nfkc_ok environ r line h it scheme host script path root vs old t u,
  serve idna_part idna_decode_part ip_ok nfkc_ok environ r = Ok (line, h, it) -> rs_autolocation r = true ->
  ordinary idna_part idna_decode_part environ None scheme host script path ->
  ~ In 35 script -> SpecRequest.one_line script -> root_folders script root ->
  values_of (lit "Location") (rs_headers r) (vs ++ [old]) ->
  location_uri idna_part ip_ok nfkc_ok old t -> leads scheme host root t u ->
  (u <> old \/ vs = [] -> values_of (lit "Location") h [u]) /\ (u = old -> values_of (lit "Location") h (vs ++ [old])).
Proof.
  intros idna_part idna_decode_part ip_ok nfkc_ok environ r line h it scheme host script path root vs old t u H A O N L R V C D.
  eapply location_stage; [exact H|exact V|]. rewrite A. eapply location_fixed; eauto.
Qed.
Print Assumptions C125_absolute.

(** Without it the location is only made a URI. *)
Theorem C125_as_set : forall idna_part idna_decode_part ip_ok nfkc_ok environ r line h it vs old t,
  serve idna_part idna_decode_part ip_ok nfkc_ok environ r = Ok (line, h, it) -> rs_autolocation r = false ->
  values_of (lit "Location") (rs_headers r) (vs ++ [old]) -> location_uri idna_part ip_ok nfkc_ok old t ->
  (t <> old \/ vs = [] -> values_of (lit "Location") h [t]) /\ (t = old -> values_of (lit "Location") h (vs ++ [old])).
Proof.
  intros idna_part idna_decode_part ip_ok nfkc_ok environ r line h it vs old t H A V C.
  eapply location_stage; [exact H|exact V|]. rewrite A. unfold fix_location. rewrite (location_converted _ _ _ _ _ C). reflexivity.
Qed.
Print Assumptions C125_as_set.

(** A response without a Location header is sent without one. *)
Theorem C125_none : forall idna_part idna_decode_part ip_ok nfkc_ok environ r line h it,
  serve idna_part idna_decode_part ip_ok nfkc_ok environ r = Ok (line, h, it) ->
  values_of (lit "Location") (rs_headers r) [] -> values_of (lit "Location") h [].
Proof.
  unfold serve. intros idna_part idna_decode_part ip_ok nfkc_ok environ r line h it H V.
  destruct (wsgi_headers idna_part idna_decode_part ip_ok nfkc_ok environ r) as [h3|e] eqn:E; [|discriminate].
  cbn [bind] in H. destruct (dget environ (lit "REQUEST_METHOD")); [|discriminate]. injection H as _ <- _.
  apply sent_stages in E as (h1 & h2 & L1 & L2 & L3). apply getlist_char in V.
  unfold located in L1. change (lit "location") with (lower (lit "Location")) in L1. rewrite (proj2 (last_value_none _ _) V) in L1. subst h1.
  replace (@nil str) with (h_getlist h3 (lit "Location")); [apply values_of_filter|].
  rewrite (finished_getlist _ _ _ _ L3); [|vm_compute; discriminate|].
  - rewrite (content_located_other _ _ _ _ _ _ _ L2); [exact V|vm_compute; discriminate].
  - intros n Hn S. exfalso. unfold entity_names in Hn. cbn [In] in Hn.
    repeat (destruct Hn as [<-|Hn]; [vm_compute in S; discriminate S|]). exact Hn.
Qed.
Print Assumptions C125_none.

(** Content-Location is always made a URI and never made absolute; there is one. *)
Theorem C125_content_location : forall idna_part idna_decode_part ip_ok nfkc_ok environ r line h it vs old t,
  serve idna_part idna_decode_part ip_ok nfkc_ok environ r = Ok (line, h, it) ->
  values_of (lit "Content-Location") (rs_headers r) (vs ++ [old]) -> location_uri idna_part ip_ok nfkc_ok old t ->
  values_of (lit "Content-Location") h [t].
Proof.
  unfold serve. intros idna_part idna_decode_part ip_ok nfkc_ok environ r line h it vs old t H V C.
  destruct (wsgi_headers idna_part idna_decode_part ip_ok nfkc_ok environ r) as [h3|e] eqn:E; [|discriminate].
  cbn [bind] in H. destruct (dget environ (lit "REQUEST_METHOD")); [|discriminate]. injection H as _ <- _.
  apply sent_stages in E as (h1 & h2 & L1 & L2 & L3). apply getlist_char in V.
  unfold content_located in L2. change (lit "content-location") with (lower (lit "Content-Location")) in L2. rewrite (last_value_app_list _ _ _ _ V) in L2.
  destruct L2 as (new & F & S). rewrite (location_converted _ _ _ _ _ C) in F. injection F as <-.
  replace [t] with (h_getlist h3 (lit "Content-Location")); [apply values_of_filter|].
  rewrite (finished_getlist _ _ _ _ L3); [|vm_compute; discriminate|].
  - apply set_get in S as [S _]. apply S. reflexivity.
  - intros n Hn S'. unfold entity_names in Hn. cbn [In] in Hn.
    repeat (destruct Hn as [<-|Hn]; [first [reflexivity|vm_compute in S'; discriminate S']|]). destruct Hn.
Qed.
Print Assumptions C125_content_location.

(** ** Examples *)
Definition same_label (s : str) : res str := Ok s.
Definition yes (_ : str) : bool := true.
Definition at_app (script : str) : dict str :=
  [(lit "REQUEST_METHOD", lit "GET"); (lit "wsgi.url_scheme", lit "https"); (lit "HTTP_HOST", lit "a.example:8080");
   (lit "SCRIPT_NAME", script); (lit "PATH_INFO", lit "/x")].
Definition redirect_to (auto : bool) (locations : list str) : response :=
  Response (map (fun l => (lit "location", l)) locations) (set_status_code 302) (BSeq []) false [] true false auto.
Definition sent (script : str) (auto : bool) (locations : list str) : res (list str) :=
  do x <- serve same_label same_label yes yes (at_app script) (redirect_to auto locations);
  Ok (h_getlist (snd (fst x)) (lit "Location")).
(** SCRIPT_NAME /ä b *)
Definition script1 : str := [47; 195; 164; 32; 98].
Example C125_ordinary : ordinary same_label same_label (at_app script1) None (lit "https") (lit "a.example:8080") (47 :: 228 :: lit " b") (lit "x").
Proof.
  constructor.
  - reflexivity.
  - right; reflexivity.
  - vm_compute. reflexivity.
  - exists (lit "a.example"). split; [|intros; reflexivity]. apply (ph_port (lit "a.example") 8080); [discriminate| |lia].
    intros c Hc. unfold SpecRequest.name_char. cbn in Hc. lia.
  - exists 0%nat, script1. split; [reflexivity|]. split; [vm_compute; reflexivity|]. split; [|right; eexists; reflexivity].
    intros r H. apply (f_equal (@rev N)) in H. rewrite rev_app_distr in H. cbn in H. discriminate.
  - exists 1%nat, (lit "/x"). split; [reflexivity|]. split; [vm_compute; reflexivity|]. intros r H. discriminate H.
Qed.
Ltac free := let c := fresh in let H := fresh in intros c H; cbn in H; cbn; lia.
Example C125_root : root_folders (47 :: 228 :: lit " b") [lit "%C3%A4%20b"].
Proof.
  split; [apply quote_escaped; [free|vm_compute; reflexivity]|]. split; [|split; intros [H|[]]; discriminate].
  constructor; [|constructor]. split; [|discriminate]. intros c Hc. cbn in Hc. lia.
Qed.
Example C125_uri : location_uri same_label yes yes (lit "../" ++ 252 :: lit "?q=1") (lit "../%C3%BC?q=1").
Proof.
  apply (lu_reference _ _ _ (lit "../" ++ [252]) (lit "q=1") [] (lit "../%C3%BC") (lit "q=1") []);
    try (apply quote_escaped; [free|vm_compute; reflexivity]).
  constructor; try (free; fail).
  - intros c r E. injection E as <- _. lia.
  - intros r E. discriminate E.
  - exists (lit ".."), (47 :: [252]). split; [reflexivity|]. split; [cbn; lia|right; eexists; reflexivity].
Qed.
Example C125_leads : leads (lit "https") (lit "a.example:8080") [lit "%C3%A4%20b"] (lit "../%C3%BC?q=1") (lit "https://a.example:8080/%C3%BC?q=1").
Proof.
  apply (le_relative (lit "https") (lit "a.example:8080") [lit "%C3%A4%20b"] [lit ".."] (lit "%C3%BC") [] (lit "%C3%BC") (lit "?q=1")).
  - constructor; [|constructor]. split; [|discriminate]. intros c Hc. cbn in Hc. lia.
  - apply fi_name; [|cbn; lia]. intros c Hc. cbn in Hc. lia.
  - discriminate.
  - cbn. lia.
  - exists (lit "q=1"), []. split; [reflexivity|]. split; [cbn; lia|]. split; repeat split; cbn; lia.
  - apply ar_file; [|discriminate|discriminate]. apply (wa_up [] (lit "%C3%A4%20b")). constructor.
Qed.
(** From https://a.example:8080/ä b/ the location ../ü?q=1 *)
Example C125_example : forall line h it,
  serve same_label same_label yes yes (at_app script1) (redirect_to true [lit "../" ++ 252 :: lit "?q=1"]) = Ok (line, h, it) ->
  values_of (lit "Location") h [lit "https://a.example:8080/%C3%BC?q=1"].
Proof.
  intros line h it H.
  refine (proj1 (C125_absolute same_label same_label yes yes _ _ line h it _ _ _ _ _ [] _ _ _ H eq_refl C125_ordinary _ _ C125_root _ C125_uri C125_leads) (or_intror eq_refl)).
  - cbn. lia.
  - repeat split; cbn; lia.
  - apply vo_hit; [reflexivity|constructor].
Qed.
Example C125_run :
  sent script1 true [lit "../" ++ 252 :: lit "?q=1"] = Ok [lit "https://a.example:8080/%C3%BC?q=1"] /\
  sent script1 false [lit "../" ++ 252 :: lit "?q=1"] = Ok [lit "../%C3%BC?q=1"] /\
  sent script1 true [lit "/b"; lit "c"] = Ok [lit "https://a.example:8080/%C3%A4%20b/c"] /\
  sent script1 true [] = Ok [].
Proof. vm_compute. repeat split. Qed.
(** That the script name has no number sign is needed: the root would be
    https://a.example:8080/a%23b/, but it is shown with a plain number sign and then read
    as a fragment. *)
Theorem C125_number_sign_refuted : exists script root,
  root_folders script root /\ ordinary same_label same_label (at_app script) None (lit "https") (lit "a.example:8080") script (lit "x") /\
  In 35 script /\ leads (lit "https") (lit "a.example:8080") root (lit "c") (lit "https://a.example:8080/a%23b/c") /\
  sent script true [lit "c"] = Ok [lit "https://a.example:8080/c"].
Proof.
  exists (lit "/a#b"), [lit "a%23b"]. split; [|split; [|split; [|split]]].
  - split; [apply quote_escaped; [free|vm_compute; reflexivity]|]. split; [|split; intros [H|[]]; discriminate].
    constructor; [|constructor]. split; [|discriminate]. intros c Hc. cbn in Hc. lia.
  - constructor.
    + reflexivity.
    + right; reflexivity.
    + vm_compute. reflexivity.
    + exists (lit "a.example"). split; [|intros; reflexivity]. apply (ph_port (lit "a.example") 8080); [discriminate| |lia].
      intros c Hc. unfold SpecRequest.name_char. cbn in Hc. lia.
    + exists 0%nat, (lit "/a#b"). split; [reflexivity|]. split; [vm_compute; reflexivity|]. split; [|right; eexists; reflexivity].
      intros r H. apply (f_equal (@rev N)) in H. rewrite rev_app_distr in H. cbn in H. discriminate.
    + exists 1%nat, (lit "/x"). split; [reflexivity|]. split; [vm_compute; reflexivity|]. intros r H. discriminate H.
  - cbn. auto.
  - apply (le_relative (lit "https") (lit "a.example:8080") [lit "a%23b"] [] (lit "c") [lit "a%23b"] (lit "c") []).
    + constructor.
    + apply fi_name; [|cbn; lia]. intros c Hc. cbn in Hc. lia.
    + discriminate.
    + cbn. lia.
    + exists [], []. split; [reflexivity|]. split; [auto|]. split; repeat split; auto.
    + apply ar_file; [constructor|discriminate|discriminate].
  - vm_compute. reflexivity.
Qed.
Print Assumptions C125_number_sign_refuted.
(** Finding: of several Location headers all are sent if the last one is a URL already. *)
Example C125_finding_several :
  sent script1 true [lit "b"; lit "https://y.example/"] = Ok [lit "b"; lit "https://y.example/"].
Proof. vm_compute. reflexivity. Qed.
(** Finding: a location of two slashes and a host leads to that host. *)
Example C125_finding_slashes : sent script1 true [lit "//y.example/"] = Ok [lit "https://y.example/"].
Proof. vm_compute. reflexivity. Qed.
