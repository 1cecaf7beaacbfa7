(** C10, C11, C12, C13: header value quoting, list, dict and option headers. *)
From Coq Require Import List NArith Bool.
From Verif Require Import PyStr PyStrFacts ModelQuote SpecQuote ProofQuote ProofOptions.
Import ListNotations.
Open Scope N_scope.

(** C10: unquoting inverts quoting for every string. *)
Theorem C10_quote_unquote_roundtrip : forall (extra : str) (allow_token : bool) (v : str),
  ~ In 34 extra ->
  unquote_header_value false (quote_header_value_x extra allow_token v) = v.
Proof. exact quote_unquote_x. Qed.
Print Assumptions C10_quote_unquote_roundtrip.

Example C10_example :
  quote_header_value true (lit "a\\""b") = lit """a\\\\\""b""" /\
  unquote_header_value false (lit """a\\\\\""b""") = lit "a\\""b".
Proof. vm_compute. auto. Qed.

(** C10: the quoted form is the value itself, made of token characters, or a
    well-formed quoted-string. *)
Theorem C10_quoted_form : forall (allow_token : bool) (v : str),
  let q := quote_header_value allow_token v in
  (q = v /\ Forall rfc_tchar v) \/ (exists b, q = 34 :: b ++ [34] /\ qbody b).
Proof. exact quote_form. Qed.
Print Assumptions C10_quoted_form.

(** Finding beside C10: in file name mode a leading backslash is not restored. *)
Theorem C10_filename_mode_refuted : exists v,
  unquote_header_value true (quote_header_value true v) <> v.
Proof. exists (lit "\a"). vm_compute. discriminate. Qed.
Print Assumptions C10_filename_mode_refuted.

(** C11: what reading back a dumped list gives, for every list but the one
    whose only element is the empty string: each value comes back, except that
    one written between double quotes loses them. *)
Theorem C11_list_header_exact : forall (allow_token : bool) (l : list str),
  (l = [[]] -> allow_token = false) ->
  parse_list_header (dump_header_list allow_token l) = map (unquote_header_value false) l.
Proof. exact list_header_exact. Qed.
Print Assumptions C11_list_header_exact.

(** C11, the part that holds: lists without values that are themselves written
    between double quotes.  Missing: exactly those values and the list [['']],
    see the refutations below. *)
Theorem C11_list_header_roundtrip_partial : forall (allow_token : bool) (l : list str),
  (l = [[]] -> allow_token = false) ->
  Forall (fun v => ~ wears_quotes v) l ->
  parse_list_header (dump_header_list allow_token l) = l.
Proof. exact list_header_roundtrip. Qed.
Print Assumptions C11_list_header_roundtrip_partial.

Example C11_example :
  let l := [lit "a"; lit "b, c"; []; lit "d""e\"; lit " x "] in
  l <> [[]] /\ forallb (fun v => negb (quoted_both v)) l = true /\
  dump_header_list true l = lit "a, ""b, c"", , ""d\""e\\"", "" x """ /\
  parse_list_header (dump_header_list true l) = l.
Proof. vm_compute. repeat split. discriminate. Qed.

Theorem C11_quoted_value_refuted : exists v,
  parse_list_header (dump_header_list true [v]) <> [v].
Proof. exists (lit """a"""). vm_compute. discriminate. Qed.
Print Assumptions C11_quoted_value_refuted.

Theorem C11_empty_value_refuted :
  parse_list_header (dump_header_list true [[]]) <> [[]].
Proof. vm_compute. discriminate. Qed.
Print Assumptions C11_empty_value_refuted.

(** C12: what reading back a dumped dict gives. *)
Theorem C12_dict_header_exact : forall (allow_token : bool) (d : dict (option str)),
  NoDup (map fst d) -> Forall (fun kv => is_token (fst kv)) d ->
  parse_dict_header (dump_header_dict allow_token d) =
  map (fun kv => (fst kv, option_map (unquote_header_value false) (snd kv))) d.
Proof. exact dict_header_exact. Qed.
Print Assumptions C12_dict_header_exact.

(** C12, the part that holds: no value is itself written between double quotes. *)
Theorem C12_dict_header_roundtrip_partial : forall (allow_token : bool) (d : dict (option str)),
  NoDup (map fst d) -> Forall (fun kv => is_token (fst kv)) d ->
  Forall (fun kv => forall v, snd kv = Some v -> ~ wears_quotes v) d ->
  parse_dict_header (dump_header_dict allow_token d) = d.
Proof. exact dict_header_roundtrip. Qed.
Print Assumptions C12_dict_header_roundtrip_partial.

Example C12_example :
  let d := [(lit "foo", Some (lit "is a, ""fish")); (lit "bar", None); (lit "baz", Some []); (lit "max-age", Some (lit "0"))] in
  dump_header_dict true d = lit "foo=""is a, \""fish"", bar, baz=, max-age=0" /\
  parse_dict_header (dump_header_dict true d) = d.
Proof. vm_compute. auto. Qed.

Theorem C12_quoted_value_refuted : exists v,
  parse_dict_header (dump_header_dict true [(lit "k", Some v)]) <> [(lit "k", Some v)].
Proof. exists (lit """a"""). vm_compute. discriminate. Qed.
Print Assumptions C12_quoted_value_refuted.

(** C13: what reading back dumped options gives, for all values. *)
Theorem C13_options_header_exact : forall (h : str) (opts : dict (option str)),
  option_name h -> Forall (fun kv => option_name (fst kv)) opts -> NoDup (map fst opts) ->
  parse_options_header (dump_options_header (Some h) opts) = Ok (h, map comes_back opts).
Proof. exact options_header_exact. Qed.
Print Assumptions C13_options_header_exact.
Example C13_exact_example :
  let opts := [(lit "filename", Some (lit "\a""b")); (lit "x", Some []); (lit "y", Some (lit "\a"))] in
  map comes_back opts = [(lit "filename", Some (lit "\\a\""b")); (lit "x", None); (lit "y", Some (lit "\a"))] /\
  parse_options_header (dump_options_header (Some (lit "form-data")) opts) = Ok (lit "form-data", map comes_back opts).
Proof. vm_compute. auto. Qed.

(** C13, the part that holds: option values that are not empty and, under the
    name "filename", do not begin with a backslash.  Missing: exactly those,
    see the refutations below. *)
Theorem C13_options_header_roundtrip_partial : forall (h : str) (opts : dict (option str)),
  option_name h -> Forall (fun kv => option_name (fst kv)) opts -> NoDup (map fst opts) ->
  Forall (fun kv => forall v, snd kv = Some v ->
            v <> [] /\ (fst kv = lit "filename" -> forall r, v <> 92 :: r)) opts ->
  parse_options_header (dump_options_header (Some h) opts) = Ok (h, opts).
Proof. exact options_roundtrip_spec. Qed.
Print Assumptions C13_options_header_roundtrip_partial.

(** Tokens are names the option syntax can carry. *)
Theorem C13_token_names : forall k, is_token k -> option_name k.
Proof. exact token_option_name. Qed.
Print Assumptions C13_token_names.

Example C13_example :
  let opts := [(lit "charset", Some (lit "utf-8")); (lit "filename", Some (lit "a; ""b"".txt")); (lit "flag", None)] in
  option_name (lit "text/html") /\
  dump_options_header (Some (lit "text/html")) opts = lit "text/html; charset=utf-8; filename=""a; \""b\"".txt""; flag" /\
  parse_options_header (dump_options_header (Some (lit "text/html")) opts) = Ok (lit "text/html", opts).
Proof.
  cbv zeta. split; [|vm_compute; auto].
  split; [discriminate|]. split; [|discriminate]. repeat constructor; discriminate.
Qed.

Theorem C13_empty_value_refuted :
  parse_options_header (dump_options_header (Some (lit "text/html")) [(lit "x", Some [])])
  = Ok (lit "text/html", [(lit "x", None)]).
Proof. vm_compute. auto. Qed.
Print Assumptions C13_empty_value_refuted.

Theorem C13_filename_refuted : exists v,
  v <> [] /\
  parse_options_header (dump_options_header (Some (lit "form-data")) [(lit "filename", Some v)])
  <> Ok (lit "form-data", [(lit "filename", Some v)]).
Proof. exists (lit "\a"). vm_compute. split; discriminate. Qed.
Print Assumptions C13_filename_refuted.

(** Finding beside C13: parsing a non-empty header can raise StopIteration. *)
Theorem C13_parse_raises_refuted : exists s,
  s <> [] /\ parse_options_header s = Raise StopIteration.
Proof. exists (lit "="). vm_compute. split; [discriminate|auto]. Qed.
Print Assumptions C13_parse_raises_refuted.
