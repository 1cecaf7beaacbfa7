(** Claims C24-C26: cookie quoting, the Cookie header and Set-Cookie. *)
From Coq Require Import List NArith ZArith Bool Lia.
From Verif Require Import PyStr PyStrFacts Regex Utf8 ModelUrls SpecUrls ModelCookie SpecCookie ProofCookie.
Import ListNotations.
Open Scope N_scope.

(** C24: unquoting the quoted form gives the bytes back ([fuel] bounds the number
    of loop turns; the length of the text is always enough). *)
Theorem C24_roundtrip : forall b fuel,
  bytes_text b -> (length (cookie_quote b) <= fuel)%nat -> cookie_unquote fuel (cookie_quote b) = Some b.
Proof. exact cookie_quote_roundtrip. Qed.
Print Assumptions C24_roundtrip.
(** C24: the quoted form is printable ASCII without comma and semicolon. *)
Theorem C24_wire_bytes : forall b, bytes_text b -> forall c, In c (cookie_quote b) -> wire_byte c.
Proof. exact quote_wire. Qed.
Print Assumptions C24_wire_bytes.
(** C24: unquoting stops on every text. *)
Theorem C24_unquote_total : forall b fuel,
  (length b <= fuel)%nat -> exists r, cookie_unquote fuel b = Some r.
Proof. exact (fun b fuel => cookie_unquote_total fuel b). Qed.
Print Assumptions C24_unquote_total.
(** C24: so different values have different quoted forms. *)
Theorem C24_injective : forall a b, bytes_text a -> bytes_text b -> cookie_quote a = cookie_quote b -> a = b.
Proof.
  intros a b Ha Hb E.
  pose proof (cookie_quote_roundtrip a _ Ha (le_n _)) as R1.
  pose proof (cookie_quote_roundtrip b _ Hb (le_n _)) as R2. rewrite <- E in R2. congruence.
Qed.
Print Assumptions C24_injective.
Example C24_example :
  cookie_quote (lit "a;b" ++ [34; 92; 255]) = 34 :: lit "a\073b\" ++ [34] ++ lit "\\\377" ++ [34] /\
  bytes_text (lit "a;b" ++ [34; 92; 255]) /\
  cookie_unquote 20 (cookie_quote (lit "a;b" ++ [34; 92; 255])) = Some (lit "a;b" ++ [34; 92; 255]).
Proof. split; [vm_compute; reflexivity|]. split; [|vm_compute; reflexivity].
  intros c Hc. cbn in Hc. lia. Qed.

(** C25: the cookies of a header are the cookies it was made of, in order. *)
Theorem C25_roundtrip : forall l fuel,
  (forall n v, In (n, v) l -> legal_name n /\ bytes_text v) ->
  (length (cookie_header cookie_quote l) < fuel)%nat ->
  cookie_parse fuel (cookie_header cookie_quote l) = Some l.
Proof. exact cookie_roundtrip. Qed.
Print Assumptions C25_roundtrip.
(** C25: with text values, sent as UTF-8, parse_cookie gives the text back; of
    several cookies with one name it keeps the last. *)
Theorem C25_text_roundtrip : forall l bl fuel,
  Forall2 (fun p q => fst p = fst q /\ utf8_encode (snd p) = Ok (snd q)) l bl ->
  (forall n v, In (n, v) l -> legal_name n) ->
  (length (cookie_header cookie_quote bl) < fuel)%nat ->
  exists d, parse_cookie fuel (cookie_header cookie_quote bl) = Some (Ok d) /\
    forall n, dget d n = last_value l n.
Proof. exact parse_cookie_roundtrip. Qed.
Print Assumptions C25_text_roundtrip.
(** C25: the parser stops on every header. *)
Theorem C25_total : forall b fuel, (length b < fuel)%nat -> exists r, cookie_parse fuel b = Some r.
Proof. exact (fun b fuel => cookie_parse_total fuel b). Qed.
Print Assumptions C25_total.

Example C25_example :
  let l := [(lit "sid", lit "a;b=" ++ [34; 200]); (lit "Domain", []); (lit "x", lit "1")] in
  cookie_parse 60 (cookie_header cookie_quote l) = Some l /\
  cookie_header cookie_quote l =
    lit "sid=" ++ [34] ++ lit "a\073b=\" ++ [34] ++ lit "\310" ++ [34] ++ lit "; Domain=; x=1" /\
  legal_name (lit "sid").
Proof.
  split; [vm_compute; reflexivity|]. split; [vm_compute; reflexivity|].
  split; [discriminate|]. split; [intros c Hc; unfold name_char; cbn in Hc; lia|].
  intros (t & L & H). change (lit "sid") with [115; 105; 100] in L.
  inversion L as [|c d x y H1 L1]; subst. inversion L1 as [|c' d' x' y' H2 L2]; subst.
  inversion L2 as [|c'' d'' x'' y'' H3 L3]; subst. inversion L3; subst.
  cbn [In] in H. decompose [or] H; try discriminate; auto.
Qed.

(** Finding: a cookie that bears the name of an attribute is lost. *)
Theorem C25_reserved_name_refuted :
  exists n v, (forall c, In c n -> name_char c) /\ n <> [] /\
    cookie_parse 30 (cookie_header cookie_quote [(n, v)]) = Some [].
Proof.
  exists (lit "Version"), (lit "2"). split; [|split; [discriminate|vm_compute; reflexivity]].
  intros c Hc. unfold name_char. cbn in Hc. lia.
Qed.
Print Assumptions C25_reserved_name_refuted.
(** Finding: bytes that are not UTF-8 make parse_cookie raise although its
    default error handler is documented to replace them. *)
Theorem C25_bad_utf8_refuted :
  exists n v, legal_name n /\ bytes_text v /\
    exists e, parse_cookie 30 (cookie_header cookie_quote [(n, v)]) = Some (Raise e).
Proof.
  exists (lit "a"), [255]. split; [|split].
  - split; [discriminate|]. split; [intros c Hc; unfold name_char; cbn in Hc; lia|].
    intros (t & L & H). change (lit "a") with [97] in L.
    inversion L as [|c d x y H1 L1]; subst. inversion L1; subst.
    cbn [In] in H. decompose [or] H; try discriminate; auto.
  - intros c Hc. cbn in Hc. lia.
  - eexists. vm_compute. reflexivity.
Qed.
Print Assumptions C25_bad_utf8_refuted.
(** Finding: an item without an equals sign is glued to the name of the next cookie. *)
Example C25_finding_valueless_item :
  cookie_parse 30 (lit "flag; a=1") = Some [(lit "flag; a", lit "1")].
Proof. vm_compute. reflexivity. Qed.

(** C26: for a legal name, whatever the value, the header splits at its semicolons
    into name=value, where value unquotes to the bytes of the value, and exactly the
    attributes asked for, each with its own value.  The codec and the clock are
    parameters: the labels and dates they give hold no semicolon. *)
Theorem C26_exact_attributes : forall idna_part ip_ok nfkc_ok date_after,
  (forall p e, idna_part p = Ok e -> ~ In 59 e) -> (forall m, ~ In 59 (date_after m)) ->
  forall key value a h,
  (forall p e, idna_part p = Ok e -> bytes_text e) ->
  (forall c, In c key -> name_char c) ->
  (forall p, a_path a = Some p -> ~ In 59 p) -> (forall e, a_expires a = Some e -> ~ In 59 e) ->
  dump_cookie idna_part ip_ok nfkc_ok date_after key value a = Ok h ->
  exists w vb parts,
    split_on 59 h = (key ++ 61 :: w) :: parts /\
    utf8_encode value = Ok vb /\ (forall fuel, (length w <= fuel)%nat -> cookie_unquote fuel w = Some vb) /\
    Forall2 attr_name parts
      (requested (given (a_domain a)) (given (a_expires a) || (given (a_max_age a) && a_sync a))
         (given (a_max_age a)) (a_secure a) (a_httponly a) (given (a_path a))) /\
    (forall m, a_max_age a = Some m -> In (lit " Max-Age=" ++ zdec m) parts) /\
    (forall e b, a_expires a = Some e -> utf8_encode e = Ok b -> In (lit " Expires=" ++ b) parts) /\
    (forall p, a_path a = Some p ->
       exists u, iri_to_uri idna_part ip_ok nfkc_ok p = Ok u /\ In (lit " Path=" ++ u) parts) /\
    (forall d, a_domain a = Some d -> ascii_text d -> ~ In 58 d -> In (lit " Domain=" ++ cookie_quote d) parts).
Proof. exact dump_cookie_safe. Qed.
Print Assumptions C26_exact_attributes.

Definition c26_idna (p : str) : res str := Raise UnicodeError.
Definition c26_dump := dump_cookie c26_idna (fun _ => false) (fun _ => false) (fun _ => lit "Thu, 01-Jan-1970 00:00:00 GMT").
Example C26_example :
  c26_dump (lit "k") (lit "a; Secure") (Args (Some 60%Z) None (Some (lit "/p q")) (Some (lit "x.org:80")) false true true) =
  Ok (lit "k=" ++ [34] ++ lit "a\073 Secure" ++ [34] ++
      lit "; Domain=x.org; Expires=Thu, 01-Jan-1970 00:00:00 GMT; Max-Age=60; HttpOnly; Path=/p%20q").
Proof. vm_compute. reflexivity. Qed.

(** Finding: the name is not quoted. *)
Theorem C26_name_injection_refuted :
  exists key value, c26_dump key value (Args None None None None false false false) =
    Ok (lit "k=v; Secure; HttpOnly=x").
Proof. exists (lit "k=v; Secure; HttpOnly"), (lit "x"). vm_compute. reflexivity. Qed.
Print Assumptions C26_name_injection_refuted.
(** Finding: neither is the query part of the path. *)
Theorem C26_path_injection_refuted :
  exists path, c26_dump (lit "k") (lit "v") (Args None None (Some path) None false false false) =
    Ok (lit "k=v; Path=/?a;HttpOnly").
Proof. exists (lit "/?a;HttpOnly"). vm_compute. reflexivity. Qed.
Print Assumptions C26_path_injection_refuted.
(** Finding: nor a date given as text. *)
Theorem C26_expires_injection_refuted :
  exists e, c26_dump (lit "k") (lit "v") (Args None (Some e) None None false false false) =
    Ok (lit "k=v; Expires=x; Domain=evil.org").
Proof. exists (lit "x; Domain=evil.org"). vm_compute. reflexivity. Qed.
Print Assumptions C26_expires_injection_refuted.
