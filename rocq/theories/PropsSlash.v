(** * C128: the URL to which append_slash_redirect leads *)
From Coq Require Import Arith List NArith ZArith Bool Lia.
From Verif Require Import PyStr PyStrFacts Utf8 ModelHeaders SpecHeaders ProofHeaders ModelUrls SpecUrls SpecIri ProofIriParts
  ModelResponse SpecResponse SpecEtag SpecRequest SpecJoin SpecLocation PropsLocation SpecSlash ProofSlash.
From Verif Require ModelUtils SpecUrlMap.
Import ListNotations.
Open Scope N_scope.

(** The path of the request is the parts [dirs], each but the last with a slash after it.  The
    response that append_slash_redirect makes is sent with the URL of the request and a slash
    after the path: scheme, host, root of the application, all parts with what may not stand
    in a URL escaped, and the query.  Missing: parts beyond ASCII or with one of "?#%:", and
    dots; see the refutations. *)
Theorem C128_sent_partial : forall idna_part idna_decode_part ip_ok nfkc_ok environ code r line h it scheme host script path root dirs dirs' p q,
  ModelUtils.append_slash_redirect idna_part ip_ok nfkc_ok environ code = Ok r ->
  serve idna_part idna_decode_part ip_ok nfkc_ok environ r = Ok (line, h, it) ->
  ordinary idna_part idna_decode_part environ None scheme host script path ->
  ~ In 35 script -> SpecRequest.one_line script -> root_folders script root ->
  dget environ (lit "PATH_INFO") = Some p -> p ++ [47] = 47 :: folders dirs ->
  dirs <> [] -> Forall part dirs -> (forall c r, folders dirs = c :: r -> c <> 32) -> Forall2 part_as dirs dirs' ->
  query_given environ q -> plain_query q ->
  values_of (lit "Location") h [scheme ++ lit "://" ++ host ++ [47] ++ folders root ++ folders dirs' ++ SpecUrlMap.query_suffix q].
Proof. exact slash_sent. Qed.
Print Assumptions C128_sent_partial.
(** There is a response for each such path, with the status asked for. *)
Theorem C128_answers : forall idna_part ip_ok nfkc_ok environ code dirs p q,
  (forall x e, idna_part x = Ok e -> SpecHeaders.one_line e) ->
  dget environ (lit "PATH_INFO") = Some p -> p ++ [47] = 47 :: folders dirs ->
  dirs <> [] -> Forall part dirs -> (forall c r, folders dirs = c :: r -> c <> 32) ->
  query_given environ q -> plain_query q ->
  exists r, ModelUtils.append_slash_redirect idna_part ip_ok nfkc_ok environ code = Ok r /\ rs_status r = set_status_code code.
Proof. intros i. exact (slash_answers i i). Qed.
Print Assumptions C128_answers.

Definition asked (path query : str) : dict str :=
  [(lit "REQUEST_METHOD", lit "GET"); (lit "wsgi.url_scheme", lit "https"); (lit "HTTP_HOST", lit "a.example:8080");
   (lit "SCRIPT_NAME", lit "/app"); (lit "PATH_INFO", path); (lit "QUERY_STRING", query)].
Definition slash_sent_to (path query : str) : res (list str) :=
  do r <- ModelUtils.append_slash_redirect same_label yes yes (asked path query) 301;
  do x <- serve same_label same_label yes yes (asked path query) r;
  Ok (h_getlist (snd (fst x)) (lit "Location")).
Example C128_example :
  let dirs := [lit "my files"; lit "b~"] in let p := lit "/my files/b~" in
  p ++ [47] = 47 :: folders dirs /\ Forall part dirs /\ Forall2 part_as dirs [lit "my%20files"; lit "b~"] /\
  plain_query (lit "a=1&b=%20") /\
  slash_sent_to p (lit "a=1&b=%20") = Ok [lit "https://a.example:8080/app/my%20files/b~/?a=1&b=%20"].
Proof.
  cbv zeta. split; [reflexivity|]. split; [|split; [|split]].
  - constructor; [|constructor; [|constructor]]; (split; [discriminate|split; [discriminate|split; [discriminate|]]]); intros c Hc; cbn in Hc; cbn; lia.
  - constructor; [|constructor; [|constructor]]; (apply quote_escaped; [free|vm_compute; reflexivity]).
  - intros c Hc. unfold kept, unreserved. cbn in Hc. cbn. lia.
  - vm_compute. reflexivity.
Qed.
Example C128_example_ordinary :
  ordinary same_label same_label (asked (lit "/my files/b~") (lit "a=1&b=%20")) None (lit "https") (lit "a.example:8080") (lit "/app") (lit "my files/b~") /\
  root_folders (lit "/app") [lit "app"].
Proof.
  split; [constructor|].
  - reflexivity.
  - right; reflexivity.
  - vm_compute. reflexivity.
  - exists (lit "a.example"). split; [|intros; reflexivity]. apply (ph_port (lit "a.example") 8080); [discriminate| |lia].
    intros c Hc. unfold SpecRequest.name_char. cbn in Hc. lia.
  - exists 0%nat, (lit "/app"). split; [reflexivity|]. split; [vm_compute; reflexivity|]. split; [|right; eexists; reflexivity].
    intros r H. apply (f_equal (@rev N)) in H. rewrite rev_app_distr in H. cbn in H. discriminate.
  - exists 1%nat, (lit "/my files/b~"). split; [reflexivity|]. split; [vm_compute; reflexivity|]. intros r H. discriminate H.
  - split; [apply quote_escaped; [free|vm_compute; reflexivity]|]. split; [|split; intros [H|[]]; discriminate].
    constructor; [|constructor]. split; [|discriminate]. intros c Hc. cbn in Hc. lia.
Qed.
(** Finding: the path is taken as the server passes it on, each byte a character.  A request for
    /%C3%A9 is redirected to /%C3%83%C2%A9/, which is another path. *)
Theorem C128_unicode_refuted : exists p w, utf8_encode p = Ok w /\
  urlquote (lit "/") p = Ok (lit "/%C3%A9") /\
  slash_sent_to w [] = Ok [lit "https://a.example:8080/app/%C3%83%C2%A9/"].
Proof. exists [47; 233], [47; 195; 169]. vm_compute. auto. Qed.
(** Finding: question marks, number signs and percent signs of the path are not escaped: the
    slash goes into the query or into the fragment, or the escape becomes another character. *)
Theorem C128_marks_refuted :
  slash_sent_to (lit "/a?b") [] = Ok [lit "https://a.example:8080/app/a?b/"] /\
  slash_sent_to (lit "/a#b") [] = Ok [lit "https://a.example:8080/app/a#b/"] /\
  urlquote (lit "/") (lit "/a%41") = Ok (lit "/a%2541") /\
  slash_sent_to (lit "/a%41") [] = Ok [lit "https://a.example:8080/app/a%41/"].
Proof. vm_compute. auto. Qed.
(** Finding: for the root of the application the slash is the whole location, which leads to
    the root of the server. *)
Theorem C128_root_refuted :
  slash_sent_to [] [] = Ok [lit "https://a.example:8080/"].
Proof. vm_compute. auto. Qed.
Print Assumptions C128_unicode_refuted.
Print Assumptions C128_marks_refuted.
Print Assumptions C128_root_refuted.
