(** Claims C27 and C28: Authorization and WWW-Authenticate. *)
From Coq Require Import List NArith Bool Lia.
From Verif Require Import PyStr PyStrFacts ModelQuote SpecQuote ProofQuote SpecUrls SpecCookie ModelAuth SpecAuth ProofAuth.
Import ListNotations.
Open Scope N_scope.

(** C27: the credentials come back, whatever the case of the scheme and the white
    space after it. *)
Theorem C27_roundtrip : forall scheme ws user password,
  same_letters scheme (lit "basic") -> ws <> [] -> (forall c, In c ws -> blank c) ->
  bytes_text user -> bytes_text password -> ~ In 58 user ->
  parse_authorization_header (Some (scheme ++ ws ++ base64 (user ++ 58 :: password))) = Ok (Some (ABasic user password)).
Proof. exact basic_roundtrip. Qed.
Print Assumptions C27_roundtrip.
(** C27: without a colon there are no credentials. *)
Theorem C27_no_colon : forall scheme ws b,
  same_letters scheme (lit "basic") -> ws <> [] -> (forall c, In c ws -> blank c) ->
  bytes_text b -> ~ In 58 b -> b <> [] ->
  parse_authorization_header (Some (scheme ++ ws ++ base64 b)) = Ok None.
Proof. exact basic_no_colon. Qed.
Print Assumptions C27_no_colon.
(** C27: neither with an incomplete group of characters and no padding. *)
Theorem C27_bad_length : forall scheme ws info,
  same_letters scheme (lit "basic") -> ws <> [] -> (forall c, In c ws -> blank c) ->
  (forall c, In c info -> in_alphabet c) -> (N.of_nat (length info)) mod 4 <> 0 ->
  parse_authorization_header (Some (scheme ++ ws ++ info)) = Ok None.
Proof. exact basic_bad_length. Qed.
Print Assumptions C27_bad_length.
(** C27: credentials never come from nowhere.  They are what the characters of the
    alphabet in a prefix of the header's payload stand for. *)
Theorem C27_sound : forall h u p,
  parse_authorization_header (Some h) = Ok (Some (ABasic u p)) ->
  exists pre scheme ws t rest l,
    h = pre ++ scheme ++ ws ++ t ++ rest /\ lowercase scheme (lit "basic") /\
    (forall c, In c (pre ++ ws) -> blank c) /\ ws <> [] /\
    sextets t l /\ u ++ 58 :: p = sextet_bytes l /\ ~ In 58 u.
Proof. exact basic_sound. Qed.
Print Assumptions C27_sound.
(** C27: no header a server can receive makes the parser raise. *)
Theorem C27_total : forall h, bytes_text h -> exists r, parse_authorization_header (Some h) = Ok r.
Proof. exact auth_total. Qed.
Print Assumptions C27_total.

Example C27_example :
  base64 (lit "Aladdin:open:sesame") = lit "QWxhZGRpbjpvcGVuOnNlc2FtZQ==" /\
  parse_authorization_header (Some (lit "bASIC  QWxhZGRpbjpvcGVuOnNlc2FtZQ==")) =
    Ok (Some (ABasic (lit "Aladdin") (lit "open:sesame"))) /\
  same_letters (lit "bASIC") (lit "basic") /\
  parse_authorization_header (Some (lit "Basic QWxh")) = Ok None /\
  parse_authorization_header (Some (lit "Basic QWxhZ")) = Ok None.
Proof.
  split; [vm_compute; reflexivity|]. split; [vm_compute; reflexivity|]. split; [|vm_compute; auto].
  change (same_letters [98; 65; 83; 73; 67] [98; 97; 115; 105; 99]). unfold same_letters.
  repeat (apply Forall2_cons; [lia|]). apply Forall2_nil.
Qed.
(** Finding: characters outside the base64 alphabet are skipped, not refused, and so
    is everything after the padding. *)
Theorem C27_junk_refuted : exists info,
  (exists c, In c info /\ ~ in_alphabet c /\ c <> 61) /\
  parse_authorization_header (Some (lit "Basic " ++ info)) = Ok (Some (ABasic (lit "a") (lit "bc"))).
Proof.
  exists (lit "Y!T*pi?Yw==zzz:"). split; [|vm_compute; reflexivity].
  exists 33. split; [cbn; auto|]. split; [|discriminate].
  apply b64val_none. vm_compute. reflexivity.
Qed.
Print Assumptions C27_junk_refuted.

(** C28: a digest response is accepted only with all its fields. *)
Theorem C28_digest_complete : forall h d,
  parse_authorization_header (Some h) = Ok (Some (ADigest d)) -> complete_digest d.
Proof. exact digest_complete. Qed.
Print Assumptions C28_digest_complete.
(** C28: and one that has them all is accepted with exactly its fields, others are refused. *)
Theorem C28_digest_roundtrip : forall scheme ws d,
  same_letters scheme (lit "digest") -> ws <> [] -> (forall c, In c ws -> blank c) ->
  d <> [] -> NoDup (map fst d) -> Forall (fun kv => is_token (fst kv)) d ->
  (forall k v, In (k, Some v) d -> bytes_text v /\ ~ wears_quotes v) ->
  (complete_digest d ->
   parse_authorization_header (Some (scheme ++ ws ++ dump_header_dict true d)) = Ok (Some (ADigest d))) /\
  (~ complete_digest d ->
   parse_authorization_header (Some (scheme ++ ws ++ dump_header_dict true d)) = Ok None).
Proof. exact digest_roundtrip. Qed.
Print Assumptions C28_digest_roundtrip.

Example C28_digest_example :
  let d := [(lit "username", Some (lit "M ""x""")); (lit "realm", Some (lit "r@h")); (lit "nonce", Some (lit "n"));
            (lit "uri", Some (lit "/a,b")); (lit "response", Some (lit "0")); (lit "qop", Some (lit "auth"));
            (lit "nc", Some (lit "1")); (lit "cnonce", Some (lit "c"))] in
  parse_authorization_header (Some (lit "Digest " ++ dump_header_dict true d)) = Ok (Some (ADigest d)) /\
  parse_authorization_header (Some (lit "Digest " ++ dump_header_dict true (ddel d (lit "cnonce")))) = Ok None /\
  parse_authorization_header (Some (lit "Digest " ++ dump_header_dict true (ddel d (lit "uri")))) = Ok None.
Proof. vm_compute. auto. Qed.

(** C28: the exact result of reading a challenge back: parameters in order, each
    unquoted once more than it was quoted, and the scheme in lower case. *)
Theorem C28_challenge_exact : forall d scheme,
  dget d (lit "__auth_type__") = Some scheme -> is_token scheme ->
  NoDup (map fst d) -> (forall k v, In (k, v) d -> k <> lit "__auth_type__" -> is_token k) ->
  parse_www_authenticate_header (www_to_header d) =
  map (fun kv => (fst kv, Some (unquote_header_value false (snd kv)))) (ddel d (lit "__auth_type__"))
  ++ [(lit "__auth_type__", Some (lower scheme))].
Proof. exact www_roundtrip_exact. Qed.
Print Assumptions C28_challenge_exact.
(** C28, the part that holds: no value is itself written between double quotes. *)
Theorem C28_challenge_roundtrip_partial : forall d scheme,
  dget d (lit "__auth_type__") = Some scheme -> is_token scheme ->
  NoDup (map fst d) -> (forall k v, In (k, v) d -> k <> lit "__auth_type__" -> is_token k) ->
  (forall k v, In (k, v) d -> ~ wears_quotes v) ->
  let r := parse_www_authenticate_header (www_to_header d) in
  dget r (lit "__auth_type__") = Some (Some (lower scheme)) /\
  forall k, k <> lit "__auth_type__" -> dget r k = option_map Some (dget d k).
Proof.
  exact (fun d scheme Hg Ht Hd Hk Hv =>
    conj (www_type d scheme Hg Ht Hd Hk)
         (fun k Hn => match dget d k as o return dget d k = o -> _ = option_map Some o with
                      | Some v => fun E => www_value d scheme k v Hg Ht Hd Hk Hn E (Hv k v (dget_In d k v E))
                      | None => fun E => www_none d scheme k Hg Ht Hd Hk Hn E
                      end eq_refl)).
Qed.
Print Assumptions C28_challenge_roundtrip_partial.
(** C28: the challenge made by set_digest. *)
Theorem C28_set_digest_roundtrip_partial : forall realm nonce qop opaque algorithm stale,
  ~ wears_quotes realm -> ~ wears_quotes nonce ->
  (forall o, opaque = Some o -> ~ wears_quotes o) -> (forall a, algorithm = Some a -> ~ wears_quotes a) ->
  let r := parse_www_authenticate_header (www_to_header (set_digest realm nonce qop opaque algorithm stale)) in
  dget r (lit "__auth_type__") = Some (Some (lit "digest")) /\
  dget r (lit "realm") = Some (Some realm) /\ dget r (lit "nonce") = Some (Some nonce) /\
  dget r (lit "opaque") = option_map Some opaque /\ dget r (lit "algorithm") = option_map Some algorithm /\
  get_stale r = if stale then Some true else None.
Proof. exact set_digest_roundtrip. Qed.
Print Assumptions C28_set_digest_roundtrip_partial.

Example C28_example :
  let d := set_digest (lit "a, b") (lit "n=""") [lit "auth"; lit "auth-int"] (Some []) None true in
  www_to_header d = lit "Digest realm=""a, b"", nonce=""n=\"""", qop=""auth, auth-int"", stale=TRUE, opaque=""""" /\
  parse_www_authenticate_header (www_to_header d) =
    [(lit "realm", Some (lit "a, b")); (lit "nonce", Some (lit "n=""")); (lit "qop", Some (lit "auth, auth-int"));
     (lit "stale", Some (lit "TRUE")); (lit "opaque", Some []); (lit "__auth_type__", Some (lit "digest"))] /\
  parse_www_authenticate_header (www_to_header [(lit "__auth_type__", lit "negotiate")]) =
    [(lit "__auth_type__", Some (lit "negotiate"))].
Proof. vm_compute. auto. Qed.
(** Finding: a realm between double quotes loses them. *)
Theorem C28_quoted_value_refuted : exists realm,
  dget (parse_www_authenticate_header (www_to_header (set_basic realm))) (lit "realm") <> Some (Some realm).
Proof. exists (lit """a"""). vm_compute. discriminate. Qed.
Print Assumptions C28_quoted_value_refuted.

(** ** C72 *)
Theorem C72_params : forall d, exists params scheme,
  www_to_header d = scheme ++ 32 :: join [44; 32] params /\
  Forall2 (fun kv p => written_param (fst kv) (snd kv) p) (ddel d (lit "__auth_type__")) params.
Proof. exact challenge_params. Qed.
Print Assumptions C72_params.
Example C72_example :
  www_to_header (set_digest (lit "r") (lit "n") [lit "auth"] None (Some (lit "MD5")) true) =
  lit "Digest realm=""r"", nonce=""n"", qop=""auth"", stale=TRUE, algorithm=MD5".
Proof. vm_compute. reflexivity. Qed.
