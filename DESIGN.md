# Formal model of verktyg

The subject is `bwhmather/verktyg` as pinned in `/repo`.  The model lives in `rocq/theories`
and is written in Rocq (Coq 8.16.1), standard library only.

## Approach

* **Values.** A Python `str` is `list N` (code points), `bytes` is `list N` (values below 256),
  `int` is `Z`.  Exceptions are values: `res A := Ok a | Raise e`.  Loops that the code does not
  obviously terminate carry fuel and report running out of it as a separate result, which theorems
  either exclude or (for the findings) prove for every fuel.
* **Python builtins** (`PyStr.v`): `str.split`, `strip`, `replace`, `join`, `lower`, `int()`, `str(int)`,
  dict as insertion-ordered association list.
* **Regular expressions** (`Regex.v`): a backtracking matcher with Python's priority order (greedy and
  lazy repetition, ordered alternatives, groups, `$` before a trailing newline).  The regular
  expressions of the code are written as terms of that type.
* **Layout.** `Model*.v`: the code, definition by definition, each citing file and lines; no proofs.
  `Spec*.v`: small independent specifications, the vocabulary of the theorems.  `Proof*.v`,
  `PyStrFacts.v`, `Utf8Facts.v`: lemmas.  `Props*.v`: the theorems named in MANIFEST.json, each with
  `Print Assumptions`, with `Example`s showing that the hypotheses can be met.
* **Findings.** Where the claim is false of the code, a theorem `..._refuted` exhibits the failing
  input and a theorem `..._partial` proves what holds.  `Example`s called `Cxx_finding_...` record
  failures outside the claim.

## Plan and state per property

* **C01** MultiDict behaves as a map from keys to value lists (partial).  *How:* state = association list key -> value list; every method as a function; refinement to an independent spec (function key -> list plus key order) by induction over histories.  *State:* C01_refines_partial: after any history of calls starting from any construction, every read and every returned value agrees with a reference map from keys to non-empty sequences. Left out: calls that put an empty list under a key (setlist, setlistdefault, a construction from a dict of lists); C01_empty_list_refuted shows what those break. C01_update_self_refuted: d.update(d) never ends.  *Theorems:* `C01_refines_partial`, `C01_empty_list_refuted`, `C01_update_self_refuted`, `C01_update_self_exact_refuted`.
* **C02** OrderedMultiDict keeps one global insertion order (partial).  *How:* heap of buckets with prev/next pointers plus key -> bucket list dict; representation invariant; refinement to a flat list of pairs by induction over histories; clear() refuted.  *State:* C02_sequence_partial: after any history without clear(), all reads and all results agree with one sequence of pairs; the linked buckets are modelled as a heap. C02_clear_refuted: clear() leaves the buckets linked. C02_update_self_refuted: updating with itself never ends.  *Theorems:* `C02_sequence_partial`, `C02_clear_refuted`, `C02_update_self_refuted`.
* **C03** Equal immutable multi dicts hash equally (partial).  *How:* hash modelled as the value passed to hash(frozenset(...)); equality of sets implies equal hash; cross-class case refuted.  *State:* C03_multi and C03_ordered cover pairs of the same class, for any value equality and any frozenset hash that respects it; C03_mixed_refuted: an ordered and a plain immutable multi dict compare equal (one way round) but hash differently.  *Theorems:* `C03_multi`, `C03_ordered`, `C03_ordered_equality`, `C03_mixed_refuted`, `C03_mixed_equality`.
* **C04** CombinedMultiDict lookup order (partial).  *How:* list of MultiDict models; reads compared to a spec by first-match/concatenation; to_dict(flat=False) refuted.  *State:* C04_lookup, C04_keys, C04_typed_partial, C04_listings_partial, C04_typed_list for wrapped dicts without empty lists; C04_to_dict_refuted: to_dict(flat=False) reports only the first dict's list; C04_typed_refuted: values behind a refused one in the same dict are never tried.  *Theorems:* `C04_lookup`, `C04_keys`, `C04_typed_partial`, `C04_listings_partial`, `C04_typed_list`, `C04_to_dict_refuted`, `C04_to_dict_lists`, `C04_typed_refuted`.
* **C05** Immutable containers never change (partial).  *How:* method table of each class: overridden mutators raise; histories by induction; list.clear refuted.  *State:* C05_unchanged_partial: all mutating methods of every immutable container except one each; C05_open_refuted, C05_clear_refuted: clear() of lists and headers and the in-place union of dicts are not overridden. What the mutating methods of each class are is part of the statement (SpecCallback).  *Theorems:* `C05_unchanged_partial`, `C05_open_refuted`, `C05_clear_refuted`.
* **C06** Change callbacks keep a mirrored header in step (partial).  *How:* trace of callback invocations with the state each saw; induction over histories.  *State:* C06_call_partial for any callback, C06_mirror_partial for histories, C06_cache_control_partial for the header of a response; C06_refuted and C06_line_break_refuted: failing updates, in-place unions and values with line breaks leave the mirror behind.  *Theorems:* `C06_call_partial`, `C06_mirror_partial`, `C06_cache_control_partial`, `C06_attributes`, `C06_refuted`, `C06_line_break_refuted`.
* **C07** Typed lookup falls back to the default (partial).  *How:* conversion function as a parameter returning value / ValueError / other error.  *State:* C07_dict_partial, C07_multidict_partial: get with a type returns the converted value or the default, for a converter that fails only with ValueError; C07_multidict_exact covers every converter on a MultiDict; C07_getlist and C07_getlist_raises describe typed getlist exactly. C07_key_error_refuted: on a plain TypeConversionDict a KeyError raised by the converter is swallowed and the default comes back.  *Theorems:* `C07_dict_partial`, `C07_multidict_partial`, `C07_getlist`, `C07_getlist_raises`, `C07_key_error_refuted`, `C07_multidict_exact`.
* **C08** Headers is a case-insensitive ordered multimap (proved).  *How:* list model of Headers; spec by filtering on folded names.  *State:* Every call and every history has the reference effect; reads by any spelling. Slices other than the full one are not modelled.  *Theorems:* `C08_history`, `C08_call`, `C08_getlist`, `C08_getitem`, `C08_getitem_missing`, `C08_contains`, `C08_set_then_get`, `C08_keywords`.
* **C09** No header splitting through header values (partial).  *How:* invariant over histories; constructor refuted; line count of the serialised block.  *State:* Holds for every history from the empty object or the iterable constructor. Refuted for the list constructor (not validated) and for header names (never validated). After any history a value with a line break can only be one given to the list constructor (C09_source, C09_constructor_exact).  *Theorems:* `C09_values_one_line_partial`, `C09_invariant`, `C09_block_shape`, `C09_block_lines`, `C09_constructor_refuted`, `C09_names_refuted`, `C09_source`, `C09_constructor_exact`.
* **C10** Header value quoting round-trips (proved).  *How:* induction over the string with a generalised statement about runs of backslashes.  *State:* Holds for every string, any extra_chars without a double quote. The is_filename mode (not part of the claim) does not restore a leading backslash.  *Theorems:* `C10_quote_unquote_roundtrip`, `C10_quoted_form`, `C10_filename_mode_refuted`.
* **C11** List headers round-trip (partial).  *How:* parse_http_list state machine; invariants over the scanned prefix; exact characterisation.  *State:* Exact result proved for every list but ['']; the round trip fails exactly for values that themselves begin and end with a double quote (unquoted twice) and for [''].  *Theorems:* `C11_list_header_exact`, `C11_list_header_roundtrip_partial`, `C11_quoted_value_refuted`, `C11_empty_value_refuted`.
* **C12** Dict headers round-trip (partial).  *How:* as C11 plus split at '='.  *State:* Exact result for all dicts with token keys; round trip fails exactly for values that begin and end with a double quote.  *Theorems:* `C12_dict_header_exact`, `C12_dict_header_roundtrip_partial`, `C12_quoted_value_refuted`.
* **C13** Option headers round-trip (partial).  *How:* regex engine on the option regex; induction over options.  *State:* Fails for empty values (read back as None) and for filename values that begin with a backslash; C13_options_header_exact says for every value what comes back.  *Theorems:* `C13_options_header_exact`, `C13_options_header_roundtrip_partial`, `C13_token_names`, `C13_empty_value_refuted`, `C13_filename_refuted`, `C13_parse_raises_refuted`.
* **C14** HeaderSet membership and iteration agree (partial).  *How:* list+set model; invariant over histories; refuted for remove of upper-case names.  *State:* Invariant proved for histories with lower-case remove/discard and fresh item assignment from distinct names; refuted for upper-case remove, repeated constructor names and item assignment of a held name. After any history at all, what is said to be a member is iterated over and found, and membership alone follows update and discard (C14_members_listed, C14_update_members, C14_discard_members).  *Theorems:* `C14_members_listed`, `C14_update_members`, `C14_discard_members`, `C14_agreement_partial`, `C14_to_header`, `C14_remove_upper_refuted`, `C14_constructor_refuted`, `C14_setitem_refuted`.
* **C15** Entity and hop-by-hop header filtering (proved).  *How:* filter equality.  *State:* Model of the header class filters; holds for every header list.  *Theorems:* `C15_entity`, `C15_hop_by_hop`, `C15_classes`.
* **C16** A satisfiable byte range is resolved inside the resource (proved).  *How:* integer arithmetic.  *State:* Claim proved, with completeness for every range but a suffix longer than the resource; that one is refused (finding, C16_long_suffix_refuted).  *Theorems:* `C16_resolved_range`, `C16_make_content_range`, `C16_satisfiable_resolved`, `C16_long_suffix_refuted`.
* **C17** Range headers round-trip and parsed ranges are well formed (partial).  *How:* string round trip via decimal printing lemmas; induction over ranges.  *State:* Round trip proved for all increasing range lists; C17_accepted_exact gives the accepted headers and their reading exactly. Refuted: the suffix '-0' is read as the open range from 0.  *Theorems:* `C17_roundtrip`, `C17_accepted_partial`, `C17_zero_suffix_refuted`, `C17_accepted_exact`.
* **C18** Malformed Range headers yield None (partial).  *How:* refuted by computation; partial: which exceptions are possible and a condition under which none is.  *State:* Refuted in general (ValueError for non-numbers, TypeError after an open range); C18_raises_exact gives exactly the headers that raise and what, C18_grammatical_partial the harmless shape.  *Theorems:* `C18_grammatical_partial`, `C18_no_equals`, `C18_value_error_refuted`, `C18_type_error_refuted`, `C18_raises_exact`.
* **C19** Content-Range round-trips (partial).  *How:* as C17.  *State:* Round trip and validity proved for all; C19_reads_exact and C19_raises_exact give exactly what is read and what raises. Refuted: the parser raises for a superscript digit in the length and accepts a stop beyond the length.  *Theorems:* `C19_roundtrip`, `C19_accepts_valid`, `C19_made`, `C19_no_raise_partial`, `C19_reads_exact`, `C19_raises_exact`, `C19_raise_refuted`, `C19_stop_beyond_length_refuted`.
* **C20** Cache-Control directives round-trip (partial).  *How:* dict model of _CacheControl plus C12.  *State:* Read-after-write characterised for every value; header round trip for every history. Refuted: no_transform=True cannot be read back, False does not remove, None raises KeyError when absent.  *Theorems:* `C20_words`, `C20_set_get`, `C20_set_other`, `C20_set_raises`, `C20_header_partial`, `C20_header_reads_partial`, `C20_attributes`, `C20_no_transform_refuted`, `C20_false_refuted`, `C20_none_refuted`.
* **C21** Entity tag quoting round-trips (proved).  *How:* string reasoning.  *State:* Every tag text without a double quote, weak or strong.  *Theorems:* `C21_roundtrip`, `C21_rejects`, `C21_form`.
* **C22** Entity tag lists: the parser terminates and recovers every tag (partial).  *How:* regex engine; divergence for inputs ending in newline proved for every fuel; termination otherwise.  *State:* Terminates on every header that does not end in a line feed and loops forever on a lone line feed (C22_rounds: one round per character is enough, or no number is); lists of non-empty quoted tags are recovered exactly; an empty tag is read as None.  *Theorems:* `C22_terminates_partial`, `C22_loops_refuted`, `C22_rounds`, `C22_recovers_partial`, `C22_list_loops_refuted`, `C22_star`, `C22_empty_tag_refuted`, `C22_empty_written_refuted`.
* **C23** Conditional request decision (partial).  *How:* decision function compared with spec table.  *State:* Exact for every well-formed If-None-Match list, '*', or no deciding list; documented findings: other methods always reported unmodified, and no weak comparison for strong tags. Dates and MD5 are parameters.  *Theorems:* `C23_tag_list`, `C23_star`, `C23_dates`, `C23_data`, `C23_other_methods_refuted`, `C23_weak_comparison_refuted`.
* **C24** Cookie value quoting round-trips (proved).  *How:* induction over the bytes with token decomposition.  *State:* Every byte string; the unquote loop also terminates on every input.  *Theorems:* `C24_roundtrip`, `C24_wire_bytes`, `C24_unquote_total`, `C24_injective`.
* **C25** Cookie headers parse back to the cookies sent (partial).  *How:* regex engine on the cookie regex; induction over cookies.  *State:* Byte-level round trip for every list of legal, non-reserved names and byte values; text round trip through UTF-8 with last-wins; parser total. Findings: cookies named like an attribute (path, version, ...) are dropped; ill-formed UTF-8 raises despite errors='replace'.  *Theorems:* `C25_roundtrip`, `C25_text_roundtrip`, `C25_total`, `C25_reserved_name_refuted`, `C25_bad_utf8_refuted`.
* **C26** Set-Cookie cannot be subverted by the value (partial).  *How:* alphabet argument plus split lemma.  *State:* Proved for every value and attribute combination with a legal name, and path/expires without a semicolon (IDNA codec and clock are parameters). The unrestricted claim fails: name, path query and textual expires are not quoted.  *Theorems:* `C26_exact_attributes`, `C26_name_injection_refuted`, `C26_path_injection_refuted`, `C26_expires_injection_refuted`.
* **C27** Basic credentials round-trip (partial).  *How:* base64 model with round trip lemma.  *State:* Round trip for every user without colon and every password; missing colon and incomplete groups give None; never raises; soundness with respect to the characters of the payload. Refuted: junk characters and anything after the padding are ignored, so malformed base64 can be accepted.  *Theorems:* `C27_roundtrip`, `C27_no_colon`, `C27_bad_length`, `C27_sound`, `C27_total`, `C27_junk_refuted`.
* **C28** WWW-Authenticate challenges round-trip and digest credentials are complete (partial).  *How:* via C12.  *State:* Digest completeness both ways; exact result of reading back any challenge. Round trip fails exactly for values that begin and end with a double quote. Non-ASCII schemes not modelled (str.title).  *Theorems:* `C28_digest_complete`, `C28_digest_roundtrip`, `C28_challenge_exact`, `C28_challenge_roundtrip_partial`, `C28_set_digest_roundtrip_partial`, `C28_quoted_value_refuted`.
* **C29** Percent quoting round-trips and stays in its alphabet (proved).  *How:* induction over bytes.  *State:* Model of urllib.parse.quote over UTF-8; unbounded bytes, text and safe sets.  *Theorems:* `C29_roundtrip`, `C29_decoding_unique`, `C29_alphabet`, `C29_text_roundtrip`, `C29_text_total`.
* **C30** Selective unquoting keeps reserved characters escaped (proved).  *How:* induction over split parts.  *State:* Also documents that unquoting is not idempotent on malformed escapes.  *Theorems:* `C30_unquote`, `C30_unique`, `C30_delimiters_kept`.
* **C31** iri_to_uri yields ASCII and is idempotent (partial).  *How:* quote output alphabet, '%' in safe.  *State:* ASCII for every IRI. Idempotent for every IRI without '[' in its network location, given a well-behaved IDNA codec (parameter); with brackets it fails, see the refutation.  *Theorems:* `C31_ascii`, `C31_idempotent`, `C31_brackets_refuted`.
* **C32** WSGI string transcoding round-trips (proved).  *How:* UTF-8 codec model with round trip lemma.  *State:* Model of the UTF-8 codec with all three error handlers; both directions.  *Theorems:* `C32_roundtrip`, `C32_environ`, `C32_absent`, `C32_encodable`, `C32_replace_total`, `C32_strict_agrees`, `C32_decoded_text`.
* **C33** LimitedStream never reads past its limit (partial).  *How:* stream = remaining data + oracle of short reads; invariant by induction over histories.  *State:* Proved for histories of calls with sizes >= -1 (read) and >= 0 (readline) up to and including the first failing call, for every connection behaviour (short reads, failures); iteration yields the lines; termination of every call also proved. The full claim is false of the code: three refutations (negative read size, negative readline size, reading on after a caught ClientDisconnected).  *Theorems:* `C33_lines`, `C33_lines_unique`, `C33_limit`, `C33_terminates`, `C33_negative_read_refuted`, `C33_negative_readline_refuted`, `C33_after_disconnect_refuted`.
* **C34** A truncated request body is reported (partial).  *How:* as C33.  *State:* Proved: an end-of-body answer is given only when exactly limit bytes were delivered; reading the rest of a truncated body raises ClientDisconnected; after complete delivery every call returns empty without raising provided the connection does not fail. Refuted for a connection that fails after the limit is reached (on_exhausted reads outside the try).  *Theorems:* `C34_end_means_complete`, `C34_truncated`, `C34_complete`, `C34_complete_failing_refuted`.
* **C35** Line iteration does not depend on chunking (proved).  *How:* simulation between the buffered iterator and a one-pass line splitter.  *State:* Text streams. With bytes chunks the code raises TypeError at wsgi.py:712, which is outside the model.  *Theorems:* `C35_lines`, `C35_lines_unique`, `C35_independent`, `C35_stream_chunks`, `C35_stream_terminates`.
* **C36** Separator iteration does not depend on chunking (partial).  *How:* as C35.  *State:* Proved for every cutting that does not cut an occurrence of the separator (so for all one-character separators), and losslessness for every cutting. Refuted for separators cut by a chunk boundary.  *Theorems:* `C36_pieces`, `C36_single`, `C36_independent`, `C36_one_chunk`, `C36_pieces_unique`, `C36_lossless`, `C36_straddle_refuted`.
* **C37** DispatcherMiddleware picks the longest mount and preserves the URL (proved).  *How:* loop invariant on (script, path).  *State:* Applications are numbers; the environment is a dict of str. Termination proved.  *Theorems:* `C37_dispatcher_longest_mount`, `C37_url_preserved`.
* **C38** Static file serving cannot leave its directory (proved).  *How:* path cleaning by induction over segments.  *State:* POSIX path joining; the file system is a function argument. A Windows drive letter component is not modelled.  *Theorems:* `C38_no_traversal`, `C38_served_allowed`.
* **C39** Responses are closed whatever happens (partial).  *How:* trace semantics of the generator protocol, all stop points.  *State:* What runs is known exactly for any closing functions, also ones that raise, in all four ways a response can be used: they run in order until one raises, and the request is closed in any case. Refuted: a function registered after one that raises runs. A generator closed before its first chunk has created no response. Further findings: freeze and set_data forget to close the iterator; a response in pass-through mode that is used directly never runs its callbacks; a server that stops early has the functions run twice. WSGI middlewares between server and application are left out.  *Theorems:* `C39_finished_partial`, `C39_stopped_partial`, `C39_refused_partial`, `C39_kept`, `C39_direct`, `C39_failing`, `C39_failing_refuted`, `C39_until`, `C39_finished_exact`, `C39_stopped_exact`, `C39_refused_exact`, `C39_direct_exact`.
* **C40** Trusted host check (partial).  *How:* list recursion with TypeError case.  *State:* Sound and complete for ASCII names without further colons and lists without leading dots; C40_exact says for every host and list whether it is trusted, refused or raises. Refuted: a subdomain of a dotted entry raises TypeError, IPv6 literals are confused. IDNA is a parameter.  *Theorems:* `C40_trusted_sound_partial`, `C40_trusted_complete_partial`, `C40_untrusted_rejected_partial`, `C40_get_host_trusted`, `C40_subdomain_refuted`, `C40_exact`, `C40_ipv6_refuted`.
* **C41** EnvironHeaders agrees with the environment (partial).  *How:* environment as association list.  *State:* What is found and what is missing is characterised exactly, and whatever is found is listed. A listed header is found under its name if its variable has no small letters and no hyphens (CGI servers use neither); refuted for a lower case variable.  *Theorems:* `C41_getitem_exact`, `C41_missing_exact`, `C41_found_listed`, `C41_listed_found_exact`, `C41_lookup_partial`, `C41_complete`, `C41_len`, `C41_lower_case_refuted`.
* **C42** File wrapper streams the file exactly (proved).  *How:* stream recursion.  *State:* For files that do not fail and hand over something while there is something, and a positive buffer size.  *Theorems:* `C42_file`.
* **C43** secure_filename is safe and idempotent (proved).  *How:* character class arguments over the regex substitution and strip.  *State:* NFKD normalisation is an arbitrary function, assumed to keep ASCII text only for idempotence. On Windows an underscore precedes device names.  *Theorems:* `C43_safe_characters`, `C43_no_dots_at_ends`, `C43_no_dots_at_ends_windows`, `C43_no_device`, `C43_idempotent`, `C43_keeps_safe_names`.
* **C44** Request bodies are bounded by Content-Length (proved).  *How:* int() model and LimitedStream.  *State:* CONTENT_LENGTH as a string; the bound is C33's, for the calls and histories C33 covers.  *Theorems:* `C44_nonneg`, `C44_digits`, `C44_negative`, `C44_malformed`, `C44_bounded`, `C44_stream`.
* **C45** Content-Length equals the bytes sent (partial).  *How:* byte counting; str items refuted.  *State:* Proved over all histories of set_data, writes, freeze, make_sequence, get_data, status assignments and make_conditional. C45_exact covers every history, also with text beyond ASCII: the announced length counts characters of texts and bytes of byte strings, is never more than the bytes sent, and is their number exactly if every text in the body is ASCII. Refuted beyond ASCII. Bodies given as one bytes object and charsets other than UTF-8 are not modelled.  *Theorems:* `C45_exact`, `C45_length_partial`, `C45_refuted`.
* **C46** Bodyless responses have no body (proved).  *How:* case analysis.  *State:* All headers and all status codes; additionally all headers not concerned are sent unchanged.  *Theorems:* `C46_no_body`, `C46_length_zero`, `C46_not_modified`, `C46_others`.
* **C47** Status line and status code agree (partial).  *How:* string lemmas.  *State:* Proved for histories without blank status lines; refuted for blank ones (IndexError after the line was stored). int() of non-ASCII digits is not modelled.  *Theorems:* `C47_exact`, `C47_partial`, `C47_code`, `C47_line`, `C47_refuted`, `C47_standard`.
* **C48** Conditional responses (partial).  *How:* via C23.  *State:* Tag lists, star, dates, other methods and totality proved; empty tags refuted (the parser reads them as None). Dates and MD5 are parameters.  *Theorems:* `C48_http_dates_partial`, `C48_other_methods`, `C48_tags_partial`, `C48_star`, `C48_dates`, `C48_total`, `C48_empty_tag_refuted`.
* **C49** Content negotiation returns an acceptable representation (partial).  *How:* induction over the offers with the code's own comparison.  *State:* Soundness proved without conditions. NotAcceptable exactly when nothing is admitted, for ranges and types with one slash and no language without a content type; no other outcome if also no character sets. Refuted otherwise: TypeError with two character sets, AttributeError for a language alone, ValueError for readable headers, q=0 selected.  *Theorems:* `C49_sound`, `C49_not_acceptable_partial`, `C49_total_partial`, `C49_charset_refuted`, `C49_language_refuted`, `C49_value_error_refuted`, `C49_zero_refuted`.
* **C50** Content negotiation honours client preference (partial).  *How:* refuted (order dependence); partial for uniform specificity.  *State:* Proved (optimality and order independence) for headers in which more specific ranges never have lower quality, and plain offers. Refuted in general: order dependence, the most specific range does not decide, an offer with a language or a higher server quality beats a better one.  *Theorems:* `C50_preference_partial`, `C50_order_partial`, `C50_order_refuted`, `C50_quality_refuted`, `C50_language_refuted`, `C50_qs_refuted`.
* **C51** Media range, language and charset matching (partial).  *How:* string matching specs.  *State:* Language and charset matching exact. Media matching exact up to the extra form */subtype, which the code also matches. Qualities within [0,1] except not-a-number, which the text nan gives.  *Theorems:* `C51_media_partial`, `C51_media_refuted`, `C51_language`, `C51_charset`, `C51_quality_partial`, `C51_quality_refuted`.
* **C52** Language and charset preferences are taken into account (partial).  *How:* refuted.  *State:* Refuted: neither header has any influence on the selection.  *Theorems:* `C52_ignored_refuted`, `C52_language_refuted`, `C52_charset_refuted`.
* **C53** Endpoint dispatch is total and exact (partial).  *How:* registration histories, association lists.  *State:* Proved for every registration history (bindings, views, nested dispatchers): what is returned serves name and method; NotImplemented iff the name is unknown; MethodNotAllowed iff no binding serves. That a serving acceptable binding is then returned is proved for readable Accept headers and plain representations (C53_serves_partial); otherwise negotiation raises (C49). Refuted for requests whose Accept header cannot be read (ValueError) and for bindings with a character set (TypeError) or with a language only (AttributeError): these exceptions come from the selection itself.  *Theorems:* `C53_found`, `C53_unknown`, `C53_method`, `C53_serves_partial`, `C53_refuted`.
* **C54** Exception handlers: the most specific class wins (partial).  *How:* MRO as list of class ids.  *State:* Proved for every class order and registration history with readable headers. Refuted for nesting: adding a non-empty ExceptionDispatcher to another raises AttributeError because get_exception_handlers iterates over the classes. A call succeeds exactly if every nested dispatcher is empty, and after a failed one the lookup is among the handlers before the first that is not (C54_add_exact, C54_any_call).  *Theorems:* `C54_partial`, `C54_nested_refuted`, `C54_add_exact`, `C54_any_call`.
* **C55** Application dispatch pipeline (partial).  *How:* result monad.  *State:* Proved for every router, dispatcher content, action, handler and exception type, for readable Accept headers. Refuted for headers that cannot be read: the exception lookup raises ValueError itself, which replaces the original exception and passes by every handler.  *Theorems:* `C55_partial`, `C55_header_refuted`.
* **C56** Middleware nesting order (proved).  *How:* fold of functions.  *State:* Middleware as layers with arbitrary request and response functions; order, what each layer sees, and the result, for every list and every history of builder calls.  *Theorems:* `C56_build`, `C56_order`, `C56_sees`, `C56_result`.
* **C57** Route templates are parsed completely or rejected (proved).  *How:* regex engine on _route_re.  *State:* Every accepted template is the rendering of its pieces with distinct variable names; the only exception is ValueError; readable templates are accepted.  *Theorems:* `C57_route`, `C57_route_answers`, `C57_parsed_completely`, `C57_only_value_error`, `C57_accepts`.
* **C58** A matching route really matches (partial).  *How:* regex engine: soundness of match.  *State:* Holds for all paths without a final newline; refuted otherwise because the compiled expression ends in '$'. Completeness, determinacy for separated routes and the languages of the built-in converters are proved too.  *Theorems:* `C58_values_partial`, `C58_values`, `C58_complete`, `C58_no_instance`, `C58_separated`, `C58_builtin_plain`, `C58_string_language`, `C58_any_language`, `C58_path_language`, `C58_uuid_language`, `C58_refuted`.
* **C59** Built URLs match the route they were built from (partial).  *How:* regex engine: uniqueness under separator hypotheses.  *State:* Route level: C59_route and the converters' faithfulness. Adapter level: C59_adapter (what build gives for its own host, and matching leads back). Refuted: values ending in a slash before the optional slash, string values with a slash, dot segments through urljoin in MapAdapter.build.  *Theorems:* `C59_adapter`, `C59_route`, `C59_string_faithful`, `C59_any_faithful`, `C59_path_faithful`, `C59_int_faithful`, `C59_uuid_faithful`, `C59_refuted`, `C59_adapter_refuted`.
* **C60** Route priority does not depend on registration order (proved).  *How:* stable sort lemmas.  *State:* Maps made by any sequence of successful registrations and updates. The choice is the least answering route in the documented priority, and equal for permuted registrations when no two different routes have the same priority. Finding: a registration that fails half-way leaves the map unsorted.  *Theorems:* `C60_best`, `C60_any_order`, `C60_unique`.
* **C61** Trailing slash redirects (partial).  *How:* via C58.  *State:* Route level and adapter level (redirect URL, request that follows). Refuted: converters that refuse their text, paths ending in a newline, another better route answering the redirected request. C61_followed_partial: values only where the converters accept and no better route answers.  *Theorems:* `C61_route_partial`, `C61_leaf`, `C61_refuted`, `C61_redirect_url`, `C61_followed_partial`, `C61_other_route_refuted`.
* **C62** Redirect targets stay on the bound host (partial).  *How:* string prefix lemma.  *State:* Slash redirects: own host and a slash (C61_redirect_url). Alias, default and slash redirects: C62_partial (own host or the host of a route of the same endpoint). Refuted: a default redirect to the root has no slash after the host; redirect_to with a placeholder is an open redirect.  *Theorems:* `C62_partial`, `C62_refuted`.
* **C63** Route factories compose (partial).  *How:* structural induction on factories.  *State:* Exact description of what every factory yields; for RouteTemplate refuted: redirect_to, alias and host are dropped.  *Theorems:* `C63_subdomain`, `C63_submount`, `C63_endpoint_prefix`, `C63_template_partial`, `C63_refuted`.
* **C64** Number converters respect their bounds (proved).  *How:* decimal lemmas.  *State:* Exact acceptance and round trip for every accepted value.  *Theorems:* `C64_written`, `C64_accepts_exactly`, `C64_roundtrip`.
* **C65** URL building fails exactly when no route is suitable (partial).  *How:* list search lemma.  *State:* Complete case analysis of build; C65_relative: the exact URL for the adapter's own host, with dot segments. Partial: an exception from a converter or a missing value comes through; refuted: a variable covered by a default raises KeyError although another route is suitable.  *Theorems:* `C65_relative`, `C65_url_for`, `C65_build_partial`, `C65_refuted`.
* **C66** Matching is complete (proved).  *How:* list search lemma.  *State:* Exact: NotFound iff every registered route answers MNone; registered are exactly the compiled routes that the factories yield.  *Theorems:* `C66_not_found`, `C66_not_found_texts`, `C66_found`, `C66_registered`.
* **C67** Redirect page cannot be used for HTML injection (proved).  *How:* escape alphabet.  *State:* The body is fixed text around href and label pieces that a browser shows as exactly the converted and the given location; neither piece has a tag delimiter or quote. C67_total: every Unicode location that iri_to_uri accepts is redirected to.  *Theorems:* `C67_page`, `C67_shown`, `C67_total`, `C67_response`.
* **C68** Cached properties are computed once (proved).  *How:* state machine histories.  *State:* Over every history of reads, assignments and deletions and every behaviour of the function, including failing calls. Deletion always raises AttributeError (property without a deleter). The function is assumed not to use the property itself.  *Theorems:* `C68_reads`, `C68_once`, `C68_delete`.
* **C69** HTTP dates round-trip (partial).  *How:* calendar arithmetic and the parsedate_tz algorithm.  *State:* Partial: holds from year 100 on (written text: all years 1 to 9999; width 29 from year 1000 on). Refuted for years 1 to 99, which are read as 1969 to 2068, and for the width before year 1000. Microseconds, floats and the current time (no argument) are not modelled; the standard library's parsedate_tz is modelled, with upper and lower case exact up to U+00FF.  *Theorems:* `C69_written`, `C69_calendar`, `C69_width`, `C69_width_refuted`, `C69_round_partial`, `C69_round_refuted`, `C69_number`, `C69_instants`, `C69_aware`, `C69_formats`, `C69_property`.
* **C70** abort(code) raises the exception class registered for that code (proved).  *How:* finite table plus lookup lemma.  *State:* For any class list (C70_table), the module's own 30 classes (C70_module, C70_default) and any mapping and extra dict (C70_abort).  *Theorems:* `C70_table`, `C70_module`, `C70_abort`, `C70_abort_object`, `C70_default`.
* **C71** Query strings are read as safe ASCII (proved).  *How:* the quoting loop over bytes; alphabet and decoding by induction, spec shared with C29.  *State:* For every QUERY_STRING: only safe ASCII, same bytes.  *Theorems:* `C71_query_string`.
* **C72** Challenge parameters that need it are always quoted (proved).  *How:* case analysis on the parameter name, shape of each written parameter.  *State:* For every challenge: realm, domain, nonce, opaque and qop quoted, others token or quoted.  *Theorems:* `C72_params`.
* **C73** Values that are defaults of another route redirect to its URL (proved).  *How:* search over the routes of the endpoint in build order; exact characterisation of get_default_redirect.  *State:* Exact: redirect to the first canonical route in build order, otherwise found. Building may fail with the exceptions of C65.  *Theorems:* `C73_defaults`.
* **C74** Aliases redirect to the canonical URL, never to themselves (partial).  *How:* as C73 for make_alias_redirect_url; order of aliases and canonical routes by sort lemmas; counterexample by computation.  *State:* Exact description of the redirect; refuted: the assertion against aliases without a canonical route cannot fire, such an alias redirects to itself.  *Theorems:* `C74_alias_partial`, `C74_canonical_first`, `C74_refuted`.
* **C75** Reading an Accept header (proved).  *How:* regex engine on the Accept pieces; float() is an arbitrary function.  *State:* Proved for all headers written from ranges; float reading is an arbitrary function.  *Theorems:* `C75_read`, `C75_values`.
* **C76** append_slash_redirect stays on the server (partial).  *How:* urljoin and urlsplit models of Python 3.11; open redirects by computation.  *State:* False for paths such as /http://evil.com and '/ //evil.com' (open redirect). Proved for all paths without characters up to space and without colon, with any query.  *Theorems:* `C76_partial`, `C76_refuted`, `C76_space_refuted`.
* **C77** Header properties read back what was set (proved).  *How:* Headers model of C08; the load and dump functions are parameters.  *State:* Load functions answer or raise ValueError/TypeError; other exceptions of load functions are not modelled. Finding: None is stored as the text None.  *Theorems:* `C77_set`, `C77_refused`, `C77_delete`, `C77_absent`, `C77_content_length`.
* **C78** Reading a date never fails and never invents one (proved).  *How:* total function over the parsedate_tz model; validity of every returned date.  *State:* For the modelled parsedate_tz of Python 3.11; int() has no digit limit in the model (Python's ValueError for more than 4300 digits is caught by parsedate_tz's own handler, where the model reads a number that is then no valid date).  *Theorems:* `C78_total`.
* **C79** The Age property is a number of seconds (partial).  *How:* Date model of C69; refuted for every number.  *State:* Refuted: the property is built from parse_date and http_date, so that it reads as None for every number and writes dates.  *Theorems:* `C79_read_refuted`, `C79_write_refuted`.
* **C80** Retry-After is read as a date (partial).  *How:* Date model of C69 with calendar arithmetic for adding seconds; the clock is a parameter.  *State:* Setting and reading back is proved; that reading never raises is refuted (superscript digits: ValueError; too many seconds: OverflowError), with the exact failures in C80_read_exact. utcnow() is a parameter, without microseconds.  *Theorems:* `C80_seconds`, `C80_date`, `C80_none`, `C80_read_refuted`, `C80_read_partial`, `C80_read_exact`.
* **C81** The parameters of a request are those of its query string (partial).  *How:* model of parse_qsl and urlencode; independent relation for the pieces of a query; round trip by induction.  *State:* Query strings in ASCII, as RFC 3986 requires; the total theorem covers all bytes. Refuted: parameters with an empty value are dropped (parse_qsl without keep_blank_values).  *Theorems:* `C81_args`, `C81_roundtrip`, `C81_encodable`, `C81_total`, `C81_blank_refuted`.
* **C82** request.path begins with exactly one slash (proved).  *How:* transcoding of C32 and stripping lemmas.  *State:* Every byte sequence and every number of slashes in PATH_INFO and SCRIPT_NAME.  *Theorems:* `C82_path`, `C82_script_root`, `C82_path_shape`, `C82_script_shape`, `C82_full_path`.
* **C83** Small properties of requests say what they are documented to say (partial).  *How:* string splitting and case analysis; counterexamples by computation.  *State:* Refuted: is_secure is never True (the value is computed and not returned); max_forwards raises TypeError without the header (C83_max_forwards_exact: what it gives for every environ). access_route proved equal to the comma-separated list, for every environ.  *Theorems:* `C83_route`, `C83_direct`, `C83_secure_refuted`, `C83_secure_exact_refuted`, `C83_max_forwards_refuted`, `C83_max_forwards_partial`, `C83_max_forwards_exact`.
* **C84** The data of a request is read once and kept (proved).  *How:* C33's stream with a cache; histories by induction.  *State:* The connection is any sequence of bytes with any plan of short reads and failures.  *Theorems:* `C84_shallow`, `C84_cached`, `C84_body`, `C84_complete`, `C84_no_length`, `C84_once`.
* **C85** The address of a request leads back to it (partial).  *How:* urlsplit, quote and iri_to_uri models composed; percent-decoding relation of C29.  *State:* Explicit form of base_url, url_root and host_url proved for all texts; leading back refuted for # in the path and stray percent signs in the query, proved otherwise for UTF-8 requests to hosts that need no IDNA.  *Theorems:* `C85_base_url`, `C85_url_root`, `C85_host_url`, `C85_leads_back_partial`, `C85_hash_refuted`, `C85_percent_refuted`.
* **C86** A multipart body contains exactly the files put into it (partial).  *How:* the writer as a fold over values; the receiver as an inductive relation (first occurrence of each delimiter), shown to be a function; induction over the files.  *State:* Files only: texts always fail (C86_text_refuted), bytes are also written into the header (C86_bytes_refuted), names are not escaped (C86_forged_refuted). Receiver specified independently as a relation on bodies, proved unambiguous.  *Theorems:* `C86_files_partial`, `C86_unambiguous`, `C86_storage`, `C86_spooled`, `C86_text_refuted`, `C86_bytes_refuted`, `C86_forged_refuted`.
* **C87** An environ builder never mixes exclusive settings (proved).  *How:* builder as a record; exclusivity invariant and last-writer lemmas by induction over histories.  *State:* All histories of the builder's setters and getters.  *Theorems:* `C87_content_type`, `C87_exclusive`, `C87_asking`, `C87_last_query`, `C87_last_body`.
* **C88** The environ made for a test is the request asked for (partial).  *How:* constructor and get_environ as functions; result compared with the readers of C81, C82, C84 (request_for, get_data, args).  *State:* Method, scheme, host, script root, path and query proved for ordinary arguments; repeated query names and repeated headers are lost (refuted); a base URL without host leaves an empty host although documented otherwise (refuted).  *Theorems:* `C88_empty_data`, `C88_stream_and_data`, `C88_request`, `C88_address`, `C88_total`, `C88_data`, `C88_no_data`, `C88_args_partial`, `C88_args_refuted`, `C88_headers_partial`, `C88_headers_refuted`, `C88_base_path_refuted`, `C88_length_refuted`.
* **C89** run_wsgi_app returns everything the application sends (partial).  *How:* application = effects of the call, then of each step of its iterator; run_wsgi_app as a function on it; induction over the chunks.  *State:* Buffered variant loses data sent with write() (refuted), otherwise proved; applications that fail before start_response are not closed (refuted).  *Theorems:* `C89_never_started`, `C89_run`, `C89_buffered_partial`, `C89_any`, `C89_written_refuted`, `C89_unclosed_refuted`.
* **C90** Following redirects ends and stays on the server (partial).  *How:* application = arbitrary function of the number of the request, environ and body; loop of open() with fuel; visited pairs are distinct, so a finite set of targets bounds the loop.  *State:* Chain, end and result proved for every application; the request made for a redirect proved for plain addresses of the same server; relative addresses are refused, subdomain redirects always fail, a user name can pass for the server (refuted).  *Theorems:* `C90_chain`, `C90_ends`, `C90_result`, `C90_request`, `C90_external`, `C90_subdomain_refuted`, `C90_disguise_refuted`, `C90_relative_refuted`.
* **C91** If-Range is read as the date or the tag it carries (partial).  *How:* parse_if_range_header and to_header as functions on the date model of C69 and the tag model; a tag with at most one gap has too few words for a date.  *State:* Dates of years from 100 and tags with at most one gap proved; a quoted tag that is the text of a date is read as a date (refuted).  *Theorems:* `C91_date_partial`, `C91_tag_partial`, `C91_total`, `C91_absent`, `C91_written_date_partial`, `C91_written_tag_partial`, `C91_written_quote`, `C91_refuted`.
* **C92** set_cookie and delete_cookie add exactly the cookie asked for (proved).  *How:* set_cookie on top of dump_cookie (C23) and the date writer (C69); the attributes are looked up in the line split at semicolons.  *State:* Proved for every response and every combination of attributes, for cookie names of the characters the library allows; paths and expiry texts without semicolon. IDNA is a parameter assumed to yield bytes without semicolon.  *Theorems:* `C92_line`, `C92_attributes`, `C92_delete`.
* **C93** The entity tag set on a response is the one read and matched (partial).  *How:* set_etag, get_etag and add_etag as functions on headers; composed with make_conditional (C48).  *State:* Proved; the empty tag is excluded from the 304 theorem (see C48). MD5 is a parameter. Refuted for an entity tag that is the empty text (C93_empty_tag_refuted).  *Theorems:* `C93_set`, `C93_refused`, `C93_add_kept`, `C93_add_made`, `C93_sent_back_partial`, `C93_empty_tag_refuted`.
* **C94** Set-valued response headers mirror the set (partial).  *How:* HeaderSet calls with the callback of the response; invariant over the sequence of calls: the header is absent or one line that reads as the names.  *State:* Proved for sequences of calls that respect the hypotheses of C10 (tame) and names that fit a header line; remove() of a name with a capital letter leaves the header (refuted). C94_call_any says exactly what any single call does to set and headers, tame or not.  *Theorems:* `C94_calls_partial`, `C94_assigned`, `C94_remove_refuted`, `C94_call_any`.
* **C95** Content-Range mirrors its object (partial).  *How:* the object and the header as a pair; each call compared with the effect on the header; round trip of C21.  *State:* Proved for ranges that can be written; assigning attributes one after the other fails half way (refuted). C95_step_exact says exactly what any call does to the object and the headers, and which exception it raises.  *Theorems:* `C95_step_partial`, `C95_set`, `C95_unset`, `C95_attributes_refuted`, `C95_assigned`, `C95_step_exact`.
* **C96** mimetype and mimetype_params mirror Content-Type (partial).  *How:* get, set and parameter callback as functions on headers; per operation of the dict, with the round trip of C13.  *State:* Proved for a response that has a mimetype and parameters that can be written; without Content-Type the parameters take the place of the type (refuted), reading the header = fails (refuted).  *Theorems:* `C96_mimetype`, `C96_params_partial`, `C96_params_refuted`, `C96_reading_refuted`.
* **C97** WWW-Authenticate mirrors the challenge (partial).  *How:* the challenge as a dict with callback; per operation, with the round trip of C28; the sets qop and domain as HeaderSets whose callback sets the field.  *State:* Proved for challenges that can be written and operations the callback covers; without a type the fields are sent as Basic (refuted).  *Theorems:* `C97_fields`, `C97_calls_partial`, `C97_sets_partial`, `C97_refuted`.
* **C98** Arguments of converters are read as they were written (partial).  *How:* the regular expression as an expression of Regex.v, the loop of finditer with fuel; every match at an argument has the same captures, by inversion of the matching relation, and there is one by completeness; induction on the list.  *State:* Proved for arguments separated by a comma and a space whose values are as documented. Without the space two numbers are read as one string, negative numbers lose their sign and name, words such as nan become floats and text that cannot be read is skipped (refuted).  *Theorems:* `C98_read_back`, `C98_refuted`.
* **C99** A converter in a route accepts what its arguments say (partial).  *How:* binding of arguments to parameters, the constructors of the converters; composed of C98, C64 and the languages of the expressions.  *State:* Proved for numbers (int, string; by name or by place) and strings without names (any); unknown converters and arguments that do not fit are refused. any(1,2), any(1, 2), any(inf) and int(min=-1) do not do what they say (refuted). Arguments of float are not modelled, nor int bounds that are strings or floats.  *Theorems:* `C99_int`, `C99_int_words`, `C99_string`, `C99_any`, `C99_by_place`, `C99_refused`, `C99_any_refused`, `C99_unknown`, `C99_refuted`.
* **C100** An application answers every request by its routes, bindings and handlers (partial).  *How:* the application as a record of adapter, dispatcher and handlers built from the builder; requests are environs read by the request model; the answer is the composition of routing (C60), dispatch (C53), exception handling (C54, C55) and redirect (C61, C67), whose theorems are combined; independence by induction on the events, the map's update being idempotent.  *State:* Partial: requests whose Accept headers cannot be read, or handlers and bindings with other kinds of representation, are excluded (they raise from negotiation, C49 and C55); which redirect or routing error a route causes is left to C60-C62. The slash redirect and independence are proved in full. Refuted for a request whose Accept header cannot be read: the ValueError reaches the server although a handler for every exception exists (C100_header_refuted).  *Theorems:* `C100_partial`, `C100_served_partial`, `C100_not_found_partial`, `C100_slash`, `C100_independent`, `C100_header_refuted`.
* **C101** The builder collects what it is told and can be called again (partial).  *How:* the builder as a state with numbered decorators (the variables of their closures) and the set of bound Route objects; what each call adds is specified from the calls before it (declared decorators, earlier uses); induction on the history from the right; a second build fails by induction on the routes.  *State:* What the calls add is proved for every history. Refuted: a builder with a Route object cannot be called twice (RuntimeError), whatever happens in between; a decorator applied twice binds the second function to the endpoint of the first, and a decorator whose route was refused binds without a route when applied again.  *Theorems:* `C101_collected`, `C101_built`, `C101_again_refuted`, `C101_decorator_refuted`.
* **C102** An Accept object can be written as a header and asked about values (partial).  *How:* Accept objects written as texts over an arbitrary exact printing of floats; everything read is shown to consist of trimmed pieces without separators (invariant of the reading loop), and such pieces are read back by induction on the ranges and on the parameters; asking is the fold over the ranges.  *State:* Proved for every header that can be read and for every object built of pieces without separators. Refuted for objects built by hand: parameters are not escaped (the code has a TODO), a parameter called q overrides the quality, a value is only checked at its beginning and may contain a comma, and an object without ranges is written as a text that cannot be read.  *Theorems:* `C102_round_trip`, `C102_written`, `C102_written_refuted`, `C102_contains`, `C102_getitem`, `C102_exact`, `C102_value_text`.
* **C103** The headers of a request are shown as the objects they were written from (partial).  *How:* One table of 39 attributes over an environ; each theorem composes the model of the attribute with the round trip proved for the object (C12, C13, C16, C55, C60, C69, C91 and others), for every environ that carries the header under its CGI name.  *State:* Proved per header. Missing (partial): years before 100, tags that look like dates, parameters and directives that are empty or wear quotes, as in the claims about the objects. Refuted: an absent Max-Forwards raises a TypeError, a Content-Type of an equals sign makes mimetype raise a StopIteration.  *Theorems:* `C103_lookup`, `C103_cookies`, `C103_tags`, `C103_any_tag`, `C103_dates_partial`, `C103_if_range_date_partial`, `C103_if_range_tag_partial`, `C103_range`, `C103_cache_control_partial`, `C103_basic`, `C103_digest_partial`, `C103_content_type_partial`, `C103_numbers`, `C103_pragma_partial`, `C103_texts`, `C103_absent`, `C103_xhr`, `C103_method`, `C103_server`, `C103_refuted`.
* **C104** Request attributes do not depend on the order of reading, and closing calls everything (partial).  *How:* A request object as environ, cache and the kept options; invariant over all histories: every cached value is the value a new object gave when it was read; induction on the operations. close() as a loop over a growing list with fuel.  *State:* Proved for every history. full_path can mix a path read earlier with a query string of now if the environ is changed (example). Refuted for closing: an exception of one function keeps the later ones from being called, and a function that registers itself keeps close() from ending.  *Theorems:* `C104_order`, `C104_kept`, `C104_current`, `C104_first`, `C104_close`, `C104_registered`, `C104_close_general`, `C104_close_refuted`.
* **C105** Headers objects, their copies, slices and lists are independent (partial).  *How:* A store of lists, objects and client lists that refer to it; invariant over all histories: no two refer to the same list. Slices by a model of CPython's rules, compared with a description of the positions taken (arithmetic progression within bounds).  *State:* Proved for all histories and slices. Refuted: extending an object by itself never ends; equality ignores order and repetitions, so that equal objects can answer get() differently.  *Theorems:* `C105_independent`, `C105_copies`, `C105_constructed`, `C105_called`, `C105_sliced`, `C105_slice_deleted`, `C105_slice_set`, `C105_extended`, `C105_ends`, `C105_equal`, `C105_extend_refuted`, `C105_equal_refuted`.
* **C106** Uploaded files are saved and shown as they were sent (partial).  *How:* A file is content, position, kind and a closed flag. save() is the copying loop with fuel, bounded by the unread content; lines are described by their line feeds. The constructor and attributes are composed with the header model (C06).  *State:* Proved for all contents, sizes and failures. Refuted: iterating over a file of bytes, which uploaded files are, never ends (the sentinel is a text); a temporary file, whose name is a descriptor number, is a TypeError unless a file name is given.  *Theorems:* `C106_save`, `C106_lines_partial`, `C106_lines_refuted`, `C106_attributes`, `C106_filename`, `C106_true`, `C106_total_partial`, `C106_temporary_refuted`, `C106_type_partial`, `C106_length`, `C106_close`, `C106_total_exact`, `C106_type_exact`.
* **C107** A response made from its arguments or from an application says the same (partial).  *How:* The constructor stage by stage over the header model; from_app and force_type composed with the model of run_wsgi_app (C89), described by what an application that behaves sends; freeze through the method resolution order of the classes.  *State:* Proved for every class, argument and well-behaved application. Refuted: a status line that does not begin with a number becomes one with code 0, a blank one is an IndexError; freeze of the class Response never adds an entity tag, because BaseResponse comes before ETagResponseMixin, and no_etag is a TypeError. Finding: answers without a body get a Content-Type.  *Theorems:* `C107_force_alone`, `C107_constructor`, `C107_total`, `C107_base`, `C107_from_app_partial`, `C107_buffered_partial`, `C107_force_app_partial`, `C107_force_response`, `C107_again`, `C107_again_close`, `C107_status_refuted`, `C107_freeze_partial`, `C107_freeze_refuted`.
* **C108** What is written to a response's stream is appended to its body until it is closed (proved).  *How:* Induction over histories of stream calls; an iterator body is reduced to the list it is collected into at the first write.  *State:* Proved for all histories, over sequences and iterators.  *Theorems:* `C108_sequence`, `C108_iterator`, `C108_sent`, `C108_refused`, `C108_closed`.
* **C109** A JSON view answers with the JSON of what its action returns (partial).  *How:* json.dumps and a JSON reader are modelled; the reader returns the value by induction over the value, its text being written by dumps at any nesting level; with the theorem about responses made from arguments this gives the answer of the view.  *State:* Refuted: an environment without debug (BaseApplication has none) answers no value but None; a response of another class than Response raises TypeError; of two keys with one name (1 and the text 1) one item is lost; two surrogates next to each other arrive as one character. Floats are not modelled.  *Theorems:* `C109_value`, `C109_none`, `C109_response`, `C109_exception`, `C109_refused`, `C109_debug_refuted`, `C109_response_refuted`, `C109_keys_refuted`, `C109_surrogates_refuted`.
* **C110** Multi dicts, their copies and the caller's lists are independent (partial).  *How:* A store of numbered lists and objects; every call keeps the invariant that a list belongs to one key of one object, and refines the calls of C01; by induction over histories no list of the caller is a list of an object unless it was handed out.  *State:* Refuted: a MultiDict with a key without values cannot be pickled; deepcopy of an OrderedMultiDict brings pairs of a key together; its __setstate__ keeps the old pairs; every read of a deep copy of a CombinedMultiDict is a TypeError; MultiDict.__setstate__ shares the lists of the state.  *Theorems:* `C110_call`, `C110_lists`, `C110_handed_out`, `C110_new`, `C110_copy`, `C110_deepcopy`, `C110_pickle_partial`, `C110_pickle_refuted`, `C110_ordered`, `C110_ordered_deep_partial`, `C110_ordered_deep_refuted`, `C110_ordered_state_refuted`, `C110_combined_refuted`, `C110_combined_exact_refuted`, `C110_state_refuted`.
* **C111** A set of entity tags answers for exactly the tags that were put in (partial).  *How:* Methods over the list of the tags, in any order; membership by cases; the round trip composes the text of the set with the theorem on reading tag lists (C22).  *State:* Calling a set does not know the star (C111_call_star_refuted), and weak tags given beside a star are kept but not written (C111_star_weak_refuted). Tags given as one text are not modelled.  *Theorems:* `C111_members`, `C111_only_texts`, `C111_call`, `C111_call_data`, `C111_call_arguments`, `C111_star`, `C111_raw`, `C111_bool`, `C111_roundtrip`, `C111_call_star_refuted`, `C111_star_weak_refuted`.
* **C112** The test client sends the cookies it was given (partial).  *How:* The loop of open with the jar threaded through, the library a parameter; an inductive session relation by induction over the redirects; a simulation onto the client without a jar (C90); for set and delete an invariant relating the jar to the history, composed with the round trip of cookies (C25), of requests (C88) and addresses (C85).  *State:* The library's CookieJar is a parameter; for C112_seen it is assumed to keep raw values and to honour an expiry date in the past (a small library that does so is in the file). Findings: an environ passed twice keeps the cookies of the first time (C112_stale_refuted); a cookie without a value is sent as name=None (C112_none_refuted); cookies are sent whatever the host, path and scheme (the sent line does not depend on the environ). The clock of the jar is not modelled.  *Theorems:* `C112_session`, `C112_same_way`, `C112_no_jar`, `C112_set`, `C112_disabled`, `C112_seen`, `C112_verb`, `C112_stale_refuted`, `C112_none_refuted`.
* **C113** Immutable containers keep their hash, and their pickles and copies say the same (partial).  *How:* A container with its cached hash under any sequence of calls (induction); pickles as the constructor applied to the listed pairs; an immutable multi dict is an object of the store of C110 on which only reading methods are called: its content is an invariant of every history; fromkeys by induction from the end of the list.  *State:* Proved for all contents and histories. Refuted: clear() of an ImmutableList leaves the old hash; a key without values is lost by a pickle; an Authorization read back from a pickle or copied has no credentials; listvalues() of an ImmutableMultiDict hands out its own lists; fromkeys of the immutable multi dicts repeats values of repeated keys.  *Theorems:* `C113_hash_partial`, `C113_hash_refuted`, `C113_pickle_list`, `C113_pickle_dict`, `C113_pickle_multi`, `C113_pickle_equal_partial`, `C113_pickle_equal_refuted`, `C113_pickle_ordered`, `C113_pickle_ordered_equal`, `C113_authorization_refuted`, `C113_frozen_partial`, `C113_listvalues_refuted`, `C113_fromkeys`, `C113_fromkeys_multi`, `C113_fromkeys_refuted`, `C113_pickle_equal_exact`.
* **C114** Acceptabilities say how a range matched and can be ordered (partial).  *How:* The match qualities of C51 with the attributes computed from them, by cases on the forms of range and offer; the operators of functools.total_ordering over rational qualities: equivalence with an order of pairs stated separately, then linear arithmetic.  *State:* Attributes proved for all offers and ranges. Refuted: a closer match of lower quality and a looser one of higher quality are each greater than the other; with a quality nan an acceptability is not equal to itself. Partial: converse and transitivity where the closer match is never of lower quality.  *Theorems:* `C114_media`, `C114_language`, `C114_charset`, `C114_operators`, `C114_converse_partial`, `C114_transitive_partial`, `C114_order_refuted`, `C114_nan_refuted`.
* **C115** Form fields and files given to the test client arrive (partial).  *How:* The builder of C88 with data; the form as a multi dict made by adding pairs, described by the first values and the groups of the pairs; quoting round trip of C29; composed with the multipart reader of C86 and the stream of C84.  *State:* Partial: of several values of one field only the first is sent; a text together with a file is refused; a content type of one's own leaves the body empty (refuted with theorems).  *Theorems:* `C115_fields_partial`, `C115_files`, `C115_total`, `C115_mixed_refuted`, `C115_typed_refuted`, `C115_values_refuted`.
* **C116** A route with redirect_to sends the client to that text (proved).  *How:* A separate vocabulary of paths as lists of folders, walking along them, and of texts with placeholders; urljoin of the model shown to lead where the vocabulary says, the regular expression substitution by induction on the text; composed with C60 (which route matches). The same lemmas give the adapter level of C59 and C65.  *State:* Texts and functions. Not covered by the vocabulary: texts that climb above the top of the host (C116_finding_above_root), with blanks or with other schemes. The query of the request is dropped; a value may make the text a URL of another host (C62_refuted).  *Theorems:* `C116_text`, `C116_call`, `C116_unknown`.
* **C117** An adapter bound to an environ stands for the host that was asked (partial).  *How:* bind_to_environ over a dict environ, IDNA as parameter; hosts and labels described by relations (asked_host, below); splitting at dots inverted by join; no instance of a route on another subdomain (C58).  *State:* Proved for every environ and map; that another host finds no route is proved for routes of one subdomain each (C117_elsewhere_partial) and refuted for routes of a variable subdomain, which match with the subdomain <invalid> (C117_refuted). IDNA is a parameter.  *Theorems:* `C117_host`, `C117_host_matching`, `C117_subdomain`, `C117_given`, `C117_given_matching`, `C117_own_host`, `C117_elsewhere_partial`, `C117_match`, `C117_refuted`.
* **C118** What a route builds is its text with the values, and a query with the rest (proved).  *How:* Relations for the text of pieces, for the first variable that fails, for the remaining values in order and for the query; induction on the pieces; insertion sort shown to sort; composed with the reading of query strings (C81).  *State:* Proved. Empty values are lost when the query is read back, as the theorem says. The sort key and the charset are the defaults.  *Theorems:* `C118_built`, `C118_total`, `C118_missing`, `C118_refused`, `C118_raises`, `C118_int`, `C118_read_back`.
* **C119** Which of several readings of a path a route takes (proved).  *How:* A relation that compares two readings variable by variable; for every built-in expression a lemma that the backtracking matcher finds the reading it likes best among those that let the continuation succeed, induction on the pieces; uniqueness from asymmetry.  *State:* Proved for routes of the converters of the package; a converter of one's own is described by C58. Finding: the choice is made before the converters look at the texts, so a refused text is not tried again with another split (C119_finding_no_second_try).  *Theorems:* `C119_choice`, `C119_outcome`.
* **C120** Dispatchers take what others hold at the moment, whatever the order of sets (partial).  *How:* Dispatchers in a store by number; the loop over a live list with fuel; plain lists of bindings as specification; an invariant (every dispatcher is as if its bindings had been added one by one) gives the lookups by C53; two runs with different orders of sets are kept alike by a simulation.  *State:* Adding a dispatcher to itself ends only while it is empty, and class views without a name raise (refuted). Methods are texts; views are those that the constructor makes.  *Theorems:* `C120_adds`, `C120_self_refuted`, `C120_ends`, `C120_found`, `C120_unknown`, `C120_method`, `C120_order`, `C120_nameless_refuted`, `C120_json`.
* **C121** IRIs and URIs are converted part by part (partial).  *How:* A record of parts and how it is written; urlsplit of the written text gives the parts back (location, brackets, port, marks); escaping and unescaping as relations on texts; the conversions of the whole follow part by part, the round trip from the two and from the lists of characters.  *State:* Network locations must be present, user names and passwords not empty, ports 1 to 65535. The IDNA codec, the check of IPv6 addresses and the NFKC check are arguments. C121_same_host_refuted: http://u%40evil.org%23@good.org/ becomes an IRI whose host is evil.org. C121_finding_semicolon: a semicolon in a path and an at sign in a query do not survive the round trip.  *Theorems:* `C121_to_uri`, `C121_exists`, `C121_to_iri`, `C121_round_trip`, `C121_fixed`, `C121_backslash`, `C121_drive`, `C121_same_host_refuted`.
* **C122** An application has the mixins, converters and configuration its builder had when it was called (partial).  *How:* Classes are numbers in a world of classes with bases, search order and attributes; the class statement of Python with its C3 merge is modelled and shown to give a common order of the orders of the bases, and to fail exactly if there is none (induction over the merge, in both directions). The builder is a state machine over add_application_mixins, add_request_mixins, add_converters and config; its bases are shown to be the list without repetitions (induction over the calls). Refuted: any mixin may be added; one that derives from the base class makes every build fail.  *State:* Refuted: a mixin that derives from the base class can never be added (C122_derived_refuted).  *Theorems:* `C122_bases`, `C122_classes`, `C122_search_order`, `C122_plain`, `C122_attribute`, `C122_base_wins`, `C122_derived_refuted`, `C122_converters`.
* **C123** An environ builder can be used more than once (partial).  *How:* ModelReuse.v: the builder as an object beside the caller's streams, each with a position and a flag open; events over any history. close_values is an induction over the files; the body is related to stream_encode_multipart by an induction over the values with the positions as state; base_url goes through the model of urlsplit and urlunsplit. Refuted: only the first file of a key is closed, and files are empty in the second body.  *State:* Refuted as documented: close leaves the second and further files of a key open, and a builder with files sends them empty the second time. Proved: exactly what is closed, in which order and once; same body for builders without files; the exact bodies with files; base_url.  *Theorems:* `C123_close`, `C123_closed_once`, `C123_close_all_refuted`, `C123_again`, `C123_input`, `C123_files`, `C123_again_refuted`, `C123_base`, `C123_base_refused`.
* **C124** What the shared data middleware sends for a file is the file, or the word that it is unchanged (partial).  *How:* ModelServe.v: the answer as status, headers, wrapped bytes and a closed flag, on top of find_file (C38), is_resource_modified (C23) and http_date (C69). fnmatch, guess_type, mktime, the encoding of names and what lies on the disk are parameters; adler32 is modelled and proved equal to its closed form (sums). The decision is proved for the unquoted tag the middleware passes, by the parser's theorem for tag lists; the tag is told apart from the right, by its dashes. Refuted: other methods get 304, package data has length 0, a change within a second and of the same size is missed, a list of rules raises TypeError, Cache-Control is sent without caching.  *State:* Refuted: with caching on every method but GET and HEAD is told 304; package data that is not on a disk is announced with length 0; a change within one second that keeps the size keeps the tag; disallow given as a list, as documented, raises TypeError; without caching Cache-Control is still sent. C124_answers, C124_tags, C124_dates and C124_again cover the rest. fnmatch, guess_type, mktime, the file system and its encoding are parameters; time() is in whole seconds; a HEAD request is given the body as well (C124_finding_methods).  *Theorems:* `C124_call`, `C124_answers`, `C124_uncached`, `C124_tags`, `C124_dates`, `C124_again`, `C124_changed_partial`, `C124_tag_exact`, `C124_tag_tells`, `C124_length_partial`, `C124_method_refuted`, `C124_length_refuted`, `C124_changed_refuted`, `C124_uncached_refuted`, `C124_rules_refuted`.
* **C125** The Location header that is sent is an absolute URL of the request's own server (partial).  *How:* fix_location, root_url and get_wsgi_headers are modelled in ModelResponse. The root is shown to be the URL root of C85, its URI and that of the location come from C121 (and a new lemma for references), the joining from C63 (leads). The three stages of get_wsgi_headers are already separated for C45 and C46. SpecLocation says what a reference is and which directories the root has.  *State:* Proved for ordinary requests (C85) whose script name has no number sign; with one the location goes astray (refuted). Examples record that several Location headers may all be sent and that //host leads to another host.  *Theorems:* `C125_absolute`, `C125_as_set`, `C125_none`, `C125_content_location`, `C125_number_sign_refuted`.
* **C126** An Authorization does not change through the qop set it hands out (partial).  *How:* ModelQop has the callback of Authorization.qop over the HeaderSet of ModelHeaders and the immutable dict of ModelCallback. Induction over the calls; the invariant of C14 (set and list agree) gives that the callback is called whenever the words change.  *State:* Proved except for the last clause: a refused call has changed the set all the same. For histories of calls with which set and list of the HeaderSet agree (C14). After any history, tame or not, C126_told_any says which calls are refused and how.  *Theorems:* `C126_stays`, `C126_words`, `C126_told_partial`, `C126_known`, `C126_refused_refuted`, `C126_told_any`.
* **C127** A CombinedMultiDict shows its dicts as they are and compares by what it shows (partial).  *How:* ModelCombinedObject has a store of dicts, lists of dicts and objects known by numbers. Induction over the calls: the list of an object never changes its number, lists nobody touches keep their content, a cached hash stays. Equality composes C03 and C04.  *State:* Shown dicts, copies and first hashes for all histories. Refuted: an empty list is not kept (dicts or []); any two CombinedMultiDicts compare equal, also if they hash differently, and one equals a MultiDict only if that is empty; equality with an OrderedMultiDict depends on the side; the hash stays the old one when dicts or lists change. In-place union is left out (C05), and so are OrderedMultiDicts as wrapped dicts.  *Theorems:* `C127_shows`, `C127_copy`, `C127_empty_refuted`, `C127_hash`, `C127_hash_kept`, `C127_hash_exact`, `C127_stale_refuted`, `C127_equal_partial`, `C127_equal_refuted`, `C127_unequal_hash_refuted`.
* **C128** append_slash_redirect leads to the URL of the request with a slash after the path (partial).  *How:* composes the model of redirect (C67) with what C125 says about the Location header that is sent: the location set is a reference made of the parts of the path, converting it twice gives the escaped parts, and these lead from the root of the application downwards; inductions over the parts.  *State:* Proved for paths of printable ASCII parts without ?, #, % and colon that are not dots (any length, blanks included), and queries of characters that may stand in one. Refuted: a path beyond ASCII is encoded twice; ?, # and % of the path are not escaped; with an empty path the redirect leaves the application. Host, script name as in C125.  *Theorems:* `C128_sent_partial`, `C128_answers`, `C128_unicode_refuted`, `C128_marks_refuted`, `C128_root_refuted`.
* **C129** Every HTTP error has a text that tells its code, and wrapping an exception keeps it (partial).  *How:* the table of names against the table of standard status lines entry by entry; decimal numerals are injective and have no colon, so the first colon ends the code; class names without blanks end at the first blank.  *State:* Refuted for HTTPException itself, which has no code: str and repr raise TypeError, also for the error that abort raises around a response. C129_exact says that exactly the classes without a code are concerned.  *Theorems:* `C129_text`, `C129_distinct`, `C129_distinct_repr`, `C129_wrap`, `C129_no_code_refuted`, `C129_exact`.
* **C130** is_resource_modified compares the datetime of the application with the date of the client (partial).  *How:* the model takes datetimes as they are and compares them as Python does; for naive ones it is shown equal to the model of C23 on instants, and C69 and C78 supply the reading and writing of dates; failing calls by cases.  *State:* Years before 100 in a header are read as other years (C69). Refuted: an aware datetime, which http_date takes, raises TypeError as soon as the request has a readable If-Modified-Since, even if a list of tags decides; C130_exact says that no other call fails.  *Theorems:* `C130_order_partial`, `C130_own_date_partial`, `C130_text_partial`, `C130_tags`, `C130_aware_refuted`, `C130_exact`.
* **C131** A call of the test client sends the request asked for and wraps its answer once (partial).  *How:* open and resolve_redirect as mutually recursive functions with the wrapper as state and arbitrary applications; inductions over the number of nested calls; a client with a wrapper is compared with one without, and the answer with the end of a chain of redirects.  *State:* Refuted for get() and its like with a builder or an environ: the method they add makes it an ordinary argument, which raises TypeError. The requests themselves are in C88 to C90. C131_answer is about calls that return; that following redirects ends is C90.  *Theorems:* `C131_kept`, `C131_once`, `C131_environ`, `C131_no_environ`, `C131_answer`, `C131_method`, `C131_method_builder_refuted`.
* **C132** The repr of a response or request tells what it is and uses nothing up (partial).  *How:* the items are encoded by the function that also makes what the server gets, so the two lists are equal, also in pass-through mode; failing by the characters that UTF-8 cannot encode.  *State:* Refuted: a surrogate in a text makes repr fail with UnicodeEncodeError; C132_exact says that nothing else does. Contrast C45: the number here is that of the bytes, where the announced Content-Length counts characters.  *Theorems:* `C132_counts`, `C132_unused`, `C132_exact`, `C132_surrogate_refuted`, `C132_request`.

## What is modelled, what is not

| file | modelled | not modelled |
| --- | --- | --- |
| `datastructures.py` | MultiDict, OrderedMultiDict (with its linked buckets), CombinedMultiDict, TypeConversionDict, the immutable mixins, CallbackDict; equality and hashing of the immutable multi dicts; aliasing, copies, deep copies and pickles of MultiDict (`ModelMultiObject`); cached hashes, pickles and fromkeys of the immutable classes (`ModelFrozen`); CombinedMultiDict objects (`ModelCombinedObject`) | `__repr__` |
| `http/basic.py` | Headers (all methods), HeaderSet, quoting, list, dict and options headers, dates, the header classes, byte range validity, FileStorage over files as content and position | HeaderSet's callback, FileStorage's `__getattr__` (hands over to the stream) and `__repr__` |
| `http/cache_control.py` | Range, ContentRange, Cache-Control, entity tags and sets of them (`ModelEtagSet`), `is_resource_modified` (on instants; with naive and aware datetimes in `ModelModified`), If-Range | `generate_etag` (MD5 is a parameter) |
| `http/cookies.py` | all | the cookie's date is text, see C69 for `cookie_date` |
| `http/auth.py` | all | `Authorization`'s read-only attributes beyond lookup |
| `urls.py` | all, with `urlsplit`, `urlunsplit`, `quote`, `unquote` of Python 3.11 | IDNA, `ipaddress`, NFKC (parameters) |
| `wsgi.py` | all but `wrap_file` | the file system and `mimetypes` (parameters) |
| `routing.py` | templates, converters and their arguments, routes, factories, URLMap, MapAdapter | arguments of the float converter; sort keys and charsets other than the default |
| `accept/` | parsing, matching, selection, writing (`to_header`), `in` and lookup, attributes and operators of acceptabilities (`ModelCompare`) | `__repr__`; float parsing and printing are parameters |
| `dispatch.py`, `exception_dispatch.py`, `application.py` | bindings, lookup, `_get_response`, middleware, the builder's routes, bindings, handlers and decorators, building, `url_for`; the classes made of mixins with Python's C3 order, `add_converters`, `config` (`ModelMixins`); dispatchers as objects (`ModelFactory`) | metaclasses; the converters of a map are a parameter in ModelApplication |
| `views.py` | `get_bindings`, `expose`, `JsonView.__call__` with `json.dumps` (`ModelJson`) | floats in JSON |
| `requests.py` | 39 attributes of the request object (path, script_root, query_string, args, method, cookies, access_route, flags, URLs, host, all header attributes of the mixins) with their caching, close and call_on_close, stream, get_data; URL and host functions are arbitrary in C103/C104 and modelled in ModelWsgi; `wsgi.*` flags are texts of the environ | form and files as attributes of the same object (their parsing is modelled in ModelMultipart/ModelFormdata), repr, from_values |
| `responses.py` | status, body, freezing, headers sent, closing, make_conditional, stream, constructor, from_app, force_type, dates, Retry-After, cookies, entity tag, and the mirrored Cache-Control, Content-Range, mimetype, Vary, Content-Language, Allow, WWW-Authenticate, `__repr__` (`ModelRepr`) | bytes objects as the response attribute, other charsets |
| `utils.py`, `exceptions.py` | redirect, append_slash_redirect, cached_property, header_property, secure_filename, get_content_type, the classes, their texts (ModelErrorText), wrap and abort | codes set on instances of errors |
| `test.py` | multipart bodies, EnvironBuilder, run_wsgi_app, redirects and cookies of Client (`ModelCookieJar`, with the library's CookieJar as a parameter), its arguments and response wrapper (`ModelClientCall`) | the jar itself |

Simplifications are stated at each definition.  The general ones: Python's recursion and memory
limits and the digit limit of `int()` are ignored; `upper` is exact for ASCII, `lower`, `isdigit`
and `isspace` up to U+00FF; threads are not modelled; an environ is a dict of texts.

## Trusted base

* Coq's kernel (8.16.1) and the virtual machine behind `vm_compute`.
* `Print Assumptions` of every theorem in MANIFEST.json prints `Closed under the global context`: no
  axiom, neither of the standard library nor of this development.  No kernel check is switched off,
  nothing is admitted.
* The transcription of Python into the model.  It is checked by reading (each definition cites its
  lines) and, for the parts of Python's standard library the code rests on (`urllib.parse`,
  `base64`, `email.utils`, `str` methods, `re`), by differential tests of the model against Python's
  own functions on random inputs.  The code under study itself was never run.
* Parts that are parameters: every theorem holds for each behaviour of them, or says what it
  assumes: IDNA, `ip_address`, NFKC and NFKD, the file system, MD5, the hash of a frozenset, `float()`,
  `mimetypes.guess_type`, the clock.

## Tests of the theorems

`seeded/LOG.jsonl` lists wrong programs: each is an edit of a model definition as a realistic bug
would make it, with the theorems that then failed, or what was tightened because none did. The
entries marked automatic are small edits made by a script, one after another in every definition; for
these the theorems listed are those that rest on the lemma at which the build stopped.
