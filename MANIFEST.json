{
 "claims": [
  {
   "property": "C01",
   "status": "partial",
   "theorems": [
    "C01_refines_partial",
    "C01_empty_list_refuted",
    "C01_update_self_refuted",
    "C01_update_self_exact_refuted"
   ],
   "note": "C01_refines_partial: after any history of calls starting from any construction, every read and every returned value agrees with a reference map from keys to non-empty sequences. Left out: calls that put an empty list under a key (setlist, setlistdefault, a construction from a dict of lists); C01_empty_list_refuted shows what those break. C01_update_self_refuted: d.update(d) never ends."
  },
  {
   "property": "C02",
   "status": "partial",
   "theorems": [
    "C02_sequence_partial",
    "C02_clear_refuted",
    "C02_update_self_refuted"
   ],
   "note": "C02_sequence_partial: after any history without clear(), all reads and all results agree with one sequence of pairs; the linked buckets are modelled as a heap. C02_clear_refuted: clear() leaves the buckets linked. C02_update_self_refuted: updating with itself never ends."
  },
  {
   "property": "C03",
   "status": "partial",
   "theorems": [
    "C03_multi",
    "C03_ordered",
    "C03_ordered_equality",
    "C03_mixed_refuted",
    "C03_mixed_equality"
   ],
   "note": "C03_multi and C03_ordered cover pairs of the same class, for any value equality and any frozenset hash that respects it; C03_mixed_refuted: an ordered and a plain immutable multi dict compare equal (one way round) but hash differently."
  },
  {
   "property": "C04",
   "status": "partial",
   "theorems": [
    "C04_lookup",
    "C04_keys",
    "C04_typed_partial",
    "C04_listings_partial",
    "C04_typed_list",
    "C04_to_dict_refuted",
    "C04_to_dict_lists",
    "C04_typed_refuted"
   ],
   "note": "C04_lookup, C04_keys, C04_typed_partial, C04_listings_partial, C04_typed_list for wrapped dicts without empty lists; C04_to_dict_refuted: to_dict(flat=False) reports only the first dict's list; C04_typed_refuted: values behind a refused one in the same dict are never tried."
  },
  {
   "property": "C05",
   "status": "partial",
   "theorems": [
    "C05_unchanged_partial",
    "C05_open_refuted",
    "C05_clear_refuted"
   ],
   "note": "C05_unchanged_partial: all mutating methods of every immutable container except one each; C05_open_refuted, C05_clear_refuted: clear() of lists and headers and the in-place union of dicts are not overridden. What the mutating methods of each class are is part of the statement (SpecCallback)."
  },
  {
   "property": "C06",
   "status": "partial",
   "theorems": [
    "C06_call_partial",
    "C06_mirror_partial",
    "C06_cache_control_partial",
    "C06_attributes",
    "C06_refuted",
    "C06_line_break_refuted"
   ],
   "note": "C06_call_partial for any callback, C06_mirror_partial for histories, C06_cache_control_partial for the header of a response; C06_refuted and C06_line_break_refuted: failing updates, in-place unions and values with line breaks leave the mirror behind."
  },
  {
   "property": "C07",
   "status": "partial",
   "theorems": [
    "C07_dict_partial",
    "C07_multidict_partial",
    "C07_getlist",
    "C07_getlist_raises",
    "C07_key_error_refuted",
    "C07_multidict_exact"
   ],
   "note": "C07_dict_partial, C07_multidict_partial: get with a type returns the converted value or the default, for a converter that fails only with ValueError; C07_multidict_exact covers every converter on a MultiDict; C07_getlist and C07_getlist_raises describe typed getlist exactly. C07_key_error_refuted: on a plain TypeConversionDict a KeyError raised by the converter is swallowed and the default comes back."
  },
  {
   "property": "C08",
   "status": "proved",
   "theorems": [
    "C08_history",
    "C08_call",
    "C08_getlist",
    "C08_getitem",
    "C08_getitem_missing",
    "C08_contains",
    "C08_set_then_get",
    "C08_keywords"
   ],
   "note": "Every call and every history has the reference effect; reads by any spelling. Slices other than the full one are not modelled."
  },
  {
   "property": "C09",
   "status": "partial",
   "theorems": [
    "C09_values_one_line_partial",
    "C09_invariant",
    "C09_block_shape",
    "C09_block_lines",
    "C09_constructor_refuted",
    "C09_names_refuted",
    "C09_source",
    "C09_constructor_exact"
   ],
   "note": "Holds for every history from the empty object or the iterable constructor. Refuted for the list constructor (not validated) and for header names (never validated). After any history a value with a line break can only be one given to the list constructor (C09_source, C09_constructor_exact)."
  },
  {
   "property": "C10",
   "status": "proved",
   "theorems": [
    "C10_quote_unquote_roundtrip",
    "C10_quoted_form",
    "C10_filename_mode_refuted"
   ],
   "note": "Holds for every string, any extra_chars without a double quote. The is_filename mode (not part of the claim) does not restore a leading backslash."
  },
  {
   "property": "C11",
   "status": "partial",
   "theorems": [
    "C11_list_header_exact",
    "C11_list_header_roundtrip_partial",
    "C11_quoted_value_refuted",
    "C11_empty_value_refuted"
   ],
   "note": "Exact result proved for every list but ['']; the round trip fails exactly for values that themselves begin and end with a double quote (unquoted twice) and for ['']."
  },
  {
   "property": "C12",
   "status": "partial",
   "theorems": [
    "C12_dict_header_exact",
    "C12_dict_header_roundtrip_partial",
    "C12_quoted_value_refuted"
   ],
   "note": "Exact result for all dicts with token keys; round trip fails exactly for values that begin and end with a double quote."
  },
  {
   "property": "C13",
   "status": "partial",
   "theorems": [
    "C13_options_header_exact",
    "C13_options_header_roundtrip_partial",
    "C13_token_names",
    "C13_empty_value_refuted",
    "C13_filename_refuted",
    "C13_parse_raises_refuted"
   ],
   "note": "Fails for empty values (read back as None) and for filename values that begin with a backslash; C13_options_header_exact says for every value what comes back."
  },
  {
   "property": "C14",
   "status": "partial",
   "theorems": [
    "C14_members_listed",
    "C14_update_members",
    "C14_discard_members",
    "C14_agreement_partial",
    "C14_to_header",
    "C14_remove_upper_refuted",
    "C14_constructor_refuted",
    "C14_setitem_refuted"
   ],
   "note": "Invariant proved for histories with lower-case remove/discard and fresh item assignment from distinct names; refuted for upper-case remove, repeated constructor names and item assignment of a held name. After any history at all, what is said to be a member is iterated over and found, and membership alone follows update and discard (C14_members_listed, C14_update_members, C14_discard_members)."
  },
  {
   "property": "C15",
   "status": "proved",
   "theorems": [
    "C15_entity",
    "C15_hop_by_hop",
    "C15_classes"
   ],
   "note": "Model of the header class filters; holds for every header list."
  },
  {
   "property": "C16",
   "status": "proved",
   "theorems": [
    "C16_resolved_range",
    "C16_make_content_range",
    "C16_satisfiable_resolved",
    "C16_long_suffix_refuted"
   ],
   "note": "Claim proved, with completeness for every range but a suffix longer than the resource; that one is refused (finding, C16_long_suffix_refuted)."
  },
  {
   "property": "C17",
   "status": "partial",
   "theorems": [
    "C17_roundtrip",
    "C17_accepted_partial",
    "C17_zero_suffix_refuted",
    "C17_accepted_exact"
   ],
   "note": "Round trip proved for all increasing range lists; C17_accepted_exact gives the accepted headers and their reading exactly. Refuted: the suffix '-0' is read as the open range from 0."
  },
  {
   "property": "C18",
   "status": "partial",
   "theorems": [
    "C18_grammatical_partial",
    "C18_no_equals",
    "C18_value_error_refuted",
    "C18_type_error_refuted",
    "C18_raises_exact"
   ],
   "note": "Refuted in general (ValueError for non-numbers, TypeError after an open range); C18_raises_exact gives exactly the headers that raise and what, C18_grammatical_partial the harmless shape."
  },
  {
   "property": "C19",
   "status": "partial",
   "theorems": [
    "C19_roundtrip",
    "C19_accepts_valid",
    "C19_made",
    "C19_no_raise_partial",
    "C19_reads_exact",
    "C19_raises_exact",
    "C19_raise_refuted",
    "C19_stop_beyond_length_refuted"
   ],
   "note": "Round trip and validity proved for all; C19_reads_exact and C19_raises_exact give exactly what is read and what raises. Refuted: the parser raises for a superscript digit in the length and accepts a stop beyond the length."
  },
  {
   "property": "C20",
   "status": "partial",
   "theorems": [
    "C20_words",
    "C20_set_get",
    "C20_set_other",
    "C20_set_raises",
    "C20_header_partial",
    "C20_header_reads_partial",
    "C20_attributes",
    "C20_no_transform_refuted",
    "C20_false_refuted",
    "C20_none_refuted"
   ],
   "note": "Read-after-write characterised for every value; header round trip for every history. Refuted: no_transform=True cannot be read back, False does not remove, None raises KeyError when absent."
  },
  {
   "property": "C21",
   "status": "proved",
   "theorems": [
    "C21_roundtrip",
    "C21_rejects",
    "C21_form"
   ],
   "note": "Every tag text without a double quote, weak or strong."
  },
  {
   "property": "C22",
   "status": "partial",
   "theorems": [
    "C22_terminates_partial",
    "C22_loops_refuted",
    "C22_rounds",
    "C22_recovers_partial",
    "C22_list_loops_refuted",
    "C22_star",
    "C22_empty_tag_refuted",
    "C22_empty_written_refuted"
   ],
   "note": "Terminates on every header that does not end in a line feed and loops forever on a lone line feed (C22_rounds: one round per character is enough, or no number is); lists of non-empty quoted tags are recovered exactly; an empty tag is read as None."
  },
  {
   "property": "C23",
   "status": "partial",
   "theorems": [
    "C23_tag_list",
    "C23_star",
    "C23_dates",
    "C23_data",
    "C23_other_methods_refuted",
    "C23_weak_comparison_refuted"
   ],
   "note": "Exact for every well-formed If-None-Match list, '*', or no deciding list; documented findings: other methods always reported unmodified, and no weak comparison for strong tags. Dates and MD5 are parameters."
  },
  {
   "property": "C24",
   "status": "proved",
   "theorems": [
    "C24_roundtrip",
    "C24_wire_bytes",
    "C24_unquote_total",
    "C24_injective"
   ],
   "note": "Every byte string; the unquote loop also terminates on every input."
  },
  {
   "property": "C25",
   "status": "partial",
   "theorems": [
    "C25_roundtrip",
    "C25_text_roundtrip",
    "C25_total",
    "C25_reserved_name_refuted",
    "C25_bad_utf8_refuted"
   ],
   "note": "Byte-level round trip for every list of legal, non-reserved names and byte values; text round trip through UTF-8 with last-wins; parser total. Findings: cookies named like an attribute (path, version, ...) are dropped; ill-formed UTF-8 raises despite errors='replace'."
  },
  {
   "property": "C26",
   "status": "partial",
   "theorems": [
    "C26_exact_attributes",
    "C26_name_injection_refuted",
    "C26_path_injection_refuted",
    "C26_expires_injection_refuted"
   ],
   "note": "Proved for every value and attribute combination with a legal name, and path/expires without a semicolon (IDNA codec and clock are parameters). The unrestricted claim fails: name, path query and textual expires are not quoted."
  },
  {
   "property": "C27",
   "status": "partial",
   "theorems": [
    "C27_roundtrip",
    "C27_no_colon",
    "C27_bad_length",
    "C27_sound",
    "C27_total",
    "C27_junk_refuted"
   ],
   "note": "Round trip for every user without colon and every password; missing colon and incomplete groups give None; never raises; soundness with respect to the characters of the payload. Refuted: junk characters and anything after the padding are ignored, so malformed base64 can be accepted."
  },
  {
   "property": "C28",
   "status": "partial",
   "theorems": [
    "C28_digest_complete",
    "C28_digest_roundtrip",
    "C28_challenge_exact",
    "C28_challenge_roundtrip_partial",
    "C28_set_digest_roundtrip_partial",
    "C28_quoted_value_refuted"
   ],
   "note": "Digest completeness both ways; exact result of reading back any challenge. Round trip fails exactly for values that begin and end with a double quote. Non-ASCII schemes not modelled (str.title)."
  },
  {
   "property": "C29",
   "status": "proved",
   "theorems": [
    "C29_roundtrip",
    "C29_decoding_unique",
    "C29_alphabet",
    "C29_text_roundtrip",
    "C29_text_total"
   ],
   "note": "Model of urllib.parse.quote over UTF-8; unbounded bytes, text and safe sets."
  },
  {
   "property": "C30",
   "status": "proved",
   "theorems": [
    "C30_unquote",
    "C30_unique",
    "C30_delimiters_kept"
   ],
   "note": "Also documents that unquoting is not idempotent on malformed escapes."
  },
  {
   "property": "C31",
   "status": "partial",
   "theorems": [
    "C31_ascii",
    "C31_idempotent",
    "C31_brackets_refuted"
   ],
   "note": "ASCII for every IRI. Idempotent for every IRI without '[' in its network location, given a well-behaved IDNA codec (parameter); with brackets it fails, see the refutation."
  },
  {
   "property": "C32",
   "status": "proved",
   "theorems": [
    "C32_roundtrip",
    "C32_environ",
    "C32_absent",
    "C32_encodable",
    "C32_replace_total",
    "C32_strict_agrees",
    "C32_decoded_text"
   ],
   "note": "Model of the UTF-8 codec with all three error handlers; both directions."
  },
  {
   "property": "C33",
   "status": "partial",
   "theorems": [
    "C33_lines",
    "C33_lines_unique",
    "C33_limit",
    "C33_terminates",
    "C33_negative_read_refuted",
    "C33_negative_readline_refuted",
    "C33_after_disconnect_refuted"
   ],
   "note": "Proved for histories of calls with sizes >= -1 (read) and >= 0 (readline) up to and including the first failing call, for every connection behaviour (short reads, failures); iteration yields the lines; termination of every call also proved. The full claim is false of the code: three refutations (negative read size, negative readline size, reading on after a caught ClientDisconnected)."
  },
  {
   "property": "C34",
   "status": "partial",
   "theorems": [
    "C34_end_means_complete",
    "C34_truncated",
    "C34_complete",
    "C34_complete_failing_refuted"
   ],
   "note": "Proved: an end-of-body answer is given only when exactly limit bytes were delivered; reading the rest of a truncated body raises ClientDisconnected; after complete delivery every call returns empty without raising provided the connection does not fail. Refuted for a connection that fails after the limit is reached (on_exhausted reads outside the try)."
  },
  {
   "property": "C35",
   "status": "proved",
   "theorems": [
    "C35_lines",
    "C35_lines_unique",
    "C35_independent",
    "C35_stream_chunks",
    "C35_stream_terminates"
   ],
   "note": "Text streams. With bytes chunks the code raises TypeError at wsgi.py:712, which is outside the model."
  },
  {
   "property": "C36",
   "status": "partial",
   "theorems": [
    "C36_pieces",
    "C36_single",
    "C36_independent",
    "C36_one_chunk",
    "C36_pieces_unique",
    "C36_lossless",
    "C36_straddle_refuted"
   ],
   "note": "Proved for every cutting that does not cut an occurrence of the separator (so for all one-character separators), and losslessness for every cutting. Refuted for separators cut by a chunk boundary."
  },
  {
   "property": "C37",
   "status": "proved",
   "theorems": [
    "C37_dispatcher_longest_mount",
    "C37_url_preserved"
   ],
   "note": "Applications are numbers; the environment is a dict of str. Termination proved."
  },
  {
   "property": "C38",
   "status": "proved",
   "theorems": [
    "C38_no_traversal",
    "C38_served_allowed"
   ],
   "note": "POSIX path joining; the file system is a function argument. A Windows drive letter component is not modelled."
  },
  {
   "property": "C39",
   "status": "partial",
   "theorems": [
    "C39_finished_partial",
    "C39_stopped_partial",
    "C39_refused_partial",
    "C39_kept",
    "C39_direct",
    "C39_failing",
    "C39_failing_refuted",
    "C39_until",
    "C39_finished_exact",
    "C39_stopped_exact",
    "C39_refused_exact",
    "C39_direct_exact"
   ],
   "note": "What runs is known exactly for any closing functions, also ones that raise, in all four ways a response can be used: they run in order until one raises, and the request is closed in any case. Refuted: a function registered after one that raises runs. A generator closed before its first chunk has created no response. Further findings: freeze and set_data forget to close the iterator; a response in pass-through mode that is used directly never runs its callbacks; a server that stops early has the functions run twice. WSGI middlewares between server and application are left out."
  },
  {
   "property": "C40",
   "status": "partial",
   "theorems": [
    "C40_trusted_sound_partial",
    "C40_trusted_complete_partial",
    "C40_untrusted_rejected_partial",
    "C40_get_host_trusted",
    "C40_subdomain_refuted",
    "C40_exact",
    "C40_ipv6_refuted"
   ],
   "note": "Sound and complete for ASCII names without further colons and lists without leading dots; C40_exact says for every host and list whether it is trusted, refused or raises. Refuted: a subdomain of a dotted entry raises TypeError, IPv6 literals are confused. IDNA is a parameter."
  },
  {
   "property": "C41",
   "status": "partial",
   "theorems": [
    "C41_getitem_exact",
    "C41_missing_exact",
    "C41_found_listed",
    "C41_listed_found_exact",
    "C41_lookup_partial",
    "C41_complete",
    "C41_len",
    "C41_lower_case_refuted"
   ],
   "note": "What is found and what is missing is characterised exactly, and whatever is found is listed. A listed header is found under its name if its variable has no small letters and no hyphens (CGI servers use neither); refuted for a lower case variable."
  },
  {
   "property": "C42",
   "status": "proved",
   "theorems": [
    "C42_file"
   ],
   "note": "For files that do not fail and hand over something while there is something, and a positive buffer size."
  },
  {
   "property": "C43",
   "status": "proved",
   "theorems": [
    "C43_safe_characters",
    "C43_no_dots_at_ends",
    "C43_no_dots_at_ends_windows",
    "C43_no_device",
    "C43_idempotent",
    "C43_keeps_safe_names"
   ],
   "note": "NFKD normalisation is an arbitrary function, assumed to keep ASCII text only for idempotence. On Windows an underscore precedes device names."
  },
  {
   "property": "C44",
   "status": "proved",
   "theorems": [
    "C44_nonneg",
    "C44_digits",
    "C44_negative",
    "C44_malformed",
    "C44_bounded",
    "C44_stream"
   ],
   "note": "CONTENT_LENGTH as a string; the bound is C33's, for the calls and histories C33 covers."
  },
  {
   "property": "C45",
   "status": "partial",
   "theorems": [
    "C45_exact",
    "C45_length_partial",
    "C45_refuted"
   ],
   "note": "Proved over all histories of set_data, writes, freeze, make_sequence, get_data, status assignments and make_conditional. C45_exact covers every history, also with text beyond ASCII: the announced length counts characters of texts and bytes of byte strings, is never more than the bytes sent, and is their number exactly if every text in the body is ASCII. Refuted beyond ASCII. Bodies given as one bytes object and charsets other than UTF-8 are not modelled."
  },
  {
   "property": "C46",
   "status": "proved",
   "theorems": [
    "C46_no_body",
    "C46_length_zero",
    "C46_not_modified",
    "C46_others"
   ],
   "note": "All headers and all status codes; additionally all headers not concerned are sent unchanged."
  },
  {
   "property": "C47",
   "status": "partial",
   "theorems": [
    "C47_exact",
    "C47_partial",
    "C47_code",
    "C47_line",
    "C47_refuted",
    "C47_standard"
   ],
   "note": "Proved for histories without blank status lines; refuted for blank ones (IndexError after the line was stored). int() of non-ASCII digits is not modelled."
  },
  {
   "property": "C48",
   "status": "partial",
   "theorems": [
    "C48_http_dates_partial",
    "C48_other_methods",
    "C48_tags_partial",
    "C48_star",
    "C48_dates",
    "C48_total",
    "C48_empty_tag_refuted"
   ],
   "note": "Tag lists, star, dates, other methods and totality proved; empty tags refuted (the parser reads them as None). Dates and MD5 are parameters."
  },
  {
   "property": "C49",
   "status": "partial",
   "theorems": [
    "C49_sound",
    "C49_not_acceptable_partial",
    "C49_total_partial",
    "C49_charset_refuted",
    "C49_language_refuted",
    "C49_value_error_refuted",
    "C49_zero_refuted"
   ],
   "note": "Soundness proved without conditions. NotAcceptable exactly when nothing is admitted, for ranges and types with one slash and no language without a content type; no other outcome if also no character sets. Refuted otherwise: TypeError with two character sets, AttributeError for a language alone, ValueError for readable headers, q=0 selected."
  },
  {
   "property": "C50",
   "status": "partial",
   "theorems": [
    "C50_preference_partial",
    "C50_order_partial",
    "C50_order_refuted",
    "C50_quality_refuted",
    "C50_language_refuted",
    "C50_qs_refuted"
   ],
   "note": "Proved (optimality and order independence) for headers in which more specific ranges never have lower quality, and plain offers. Refuted in general: order dependence, the most specific range does not decide, an offer with a language or a higher server quality beats a better one."
  },
  {
   "property": "C51",
   "status": "partial",
   "theorems": [
    "C51_media_partial",
    "C51_media_refuted",
    "C51_language",
    "C51_charset",
    "C51_quality_partial",
    "C51_quality_refuted"
   ],
   "note": "Language and charset matching exact. Media matching exact up to the extra form */subtype, which the code also matches. Qualities within [0,1] except not-a-number, which the text nan gives."
  },
  {
   "property": "C52",
   "status": "partial",
   "theorems": [
    "C52_ignored_refuted",
    "C52_language_refuted",
    "C52_charset_refuted"
   ],
   "note": "Refuted: neither header has any influence on the selection."
  },
  {
   "property": "C53",
   "status": "partial",
   "theorems": [
    "C53_found",
    "C53_unknown",
    "C53_method",
    "C53_serves_partial",
    "C53_refuted"
   ],
   "note": "Proved for every registration history (bindings, views, nested dispatchers): what is returned serves name and method; NotImplemented iff the name is unknown; MethodNotAllowed iff no binding serves. That a serving acceptable binding is then returned is proved for readable Accept headers and plain representations (C53_serves_partial); otherwise negotiation raises (C49). Refuted for requests whose Accept header cannot be read (ValueError) and for bindings with a character set (TypeError) or with a language only (AttributeError): these exceptions come from the selection itself."
  },
  {
   "property": "C54",
   "status": "partial",
   "theorems": [
    "C54_partial",
    "C54_nested_refuted",
    "C54_add_exact",
    "C54_any_call"
   ],
   "note": "Proved for every class order and registration history with readable headers. Refuted for nesting: adding a non-empty ExceptionDispatcher to another raises AttributeError because get_exception_handlers iterates over the classes. A call succeeds exactly if every nested dispatcher is empty, and after a failed one the lookup is among the handlers before the first that is not (C54_add_exact, C54_any_call)."
  },
  {
   "property": "C55",
   "status": "partial",
   "theorems": [
    "C55_partial",
    "C55_header_refuted"
   ],
   "note": "Proved for every router, dispatcher content, action, handler and exception type, for readable Accept headers. Refuted for headers that cannot be read: the exception lookup raises ValueError itself, which replaces the original exception and passes by every handler."
  },
  {
   "property": "C56",
   "status": "proved",
   "theorems": [
    "C56_build",
    "C56_order",
    "C56_sees",
    "C56_result"
   ],
   "note": "Middleware as layers with arbitrary request and response functions; order, what each layer sees, and the result, for every list and every history of builder calls."
  },
  {
   "property": "C57",
   "status": "proved",
   "theorems": [
    "C57_route",
    "C57_route_answers",
    "C57_parsed_completely",
    "C57_only_value_error",
    "C57_accepts"
   ],
   "note": "Every accepted template is the rendering of its pieces with distinct variable names; the only exception is ValueError; readable templates are accepted."
  },
  {
   "property": "C58",
   "status": "partial",
   "theorems": [
    "C58_values_partial",
    "C58_values",
    "C58_complete",
    "C58_no_instance",
    "C58_separated",
    "C58_builtin_plain",
    "C58_string_language",
    "C58_any_language",
    "C58_path_language",
    "C58_uuid_language",
    "C58_refuted"
   ],
   "note": "Holds for all paths without a final newline; refuted otherwise because the compiled expression ends in '$'. Completeness, determinacy for separated routes and the languages of the built-in converters are proved too."
  },
  {
   "property": "C59",
   "status": "partial",
   "theorems": [
    "C59_adapter",
    "C59_route",
    "C59_string_faithful",
    "C59_any_faithful",
    "C59_path_faithful",
    "C59_int_faithful",
    "C59_uuid_faithful",
    "C59_refuted",
    "C59_adapter_refuted"
   ],
   "note": "Route level: C59_route and the converters' faithfulness. Adapter level: C59_adapter (what build gives for its own host, and matching leads back). Refuted: values ending in a slash before the optional slash, string values with a slash, dot segments through urljoin in MapAdapter.build."
  },
  {
   "property": "C60",
   "status": "proved",
   "theorems": [
    "C60_best",
    "C60_any_order",
    "C60_unique"
   ],
   "note": "Maps made by any sequence of successful registrations and updates. The choice is the least answering route in the documented priority, and equal for permuted registrations when no two different routes have the same priority. Finding: a registration that fails half-way leaves the map unsorted."
  },
  {
   "property": "C61",
   "status": "partial",
   "theorems": [
    "C61_route_partial",
    "C61_leaf",
    "C61_refuted",
    "C61_redirect_url",
    "C61_followed_partial",
    "C61_other_route_refuted"
   ],
   "note": "Route level and adapter level (redirect URL, request that follows). Refuted: converters that refuse their text, paths ending in a newline, another better route answering the redirected request. C61_followed_partial: values only where the converters accept and no better route answers."
  },
  {
   "property": "C62",
   "status": "partial",
   "theorems": [
    "C62_partial",
    "C62_refuted"
   ],
   "note": "Slash redirects: own host and a slash (C61_redirect_url). Alias, default and slash redirects: C62_partial (own host or the host of a route of the same endpoint). Refuted: a default redirect to the root has no slash after the host; redirect_to with a placeholder is an open redirect."
  },
  {
   "property": "C63",
   "status": "partial",
   "theorems": [
    "C63_subdomain",
    "C63_submount",
    "C63_endpoint_prefix",
    "C63_template_partial",
    "C63_refuted"
   ],
   "note": "Exact description of what every factory yields; for RouteTemplate refuted: redirect_to, alias and host are dropped."
  },
  {
   "property": "C64",
   "status": "proved",
   "theorems": [
    "C64_written",
    "C64_accepts_exactly",
    "C64_roundtrip"
   ],
   "note": "Exact acceptance and round trip for every accepted value."
  },
  {
   "property": "C65",
   "status": "partial",
   "theorems": [
    "C65_relative",
    "C65_url_for",
    "C65_build_partial",
    "C65_refuted"
   ],
   "note": "Complete case analysis of build; C65_relative: the exact URL for the adapter's own host, with dot segments. Partial: an exception from a converter or a missing value comes through; refuted: a variable covered by a default raises KeyError although another route is suitable."
  },
  {
   "property": "C66",
   "status": "proved",
   "theorems": [
    "C66_not_found",
    "C66_not_found_texts",
    "C66_found",
    "C66_registered"
   ],
   "note": "Exact: NotFound iff every registered route answers MNone; registered are exactly the compiled routes that the factories yield."
  },
  {
   "property": "C67",
   "status": "proved",
   "theorems": [
    "C67_page",
    "C67_shown",
    "C67_total",
    "C67_response"
   ],
   "note": "The body is fixed text around href and label pieces that a browser shows as exactly the converted and the given location; neither piece has a tag delimiter or quote. C67_total: every Unicode location that iri_to_uri accepts is redirected to."
  },
  {
   "property": "C68",
   "status": "proved",
   "theorems": [
    "C68_reads",
    "C68_once",
    "C68_delete"
   ],
   "note": "Over every history of reads, assignments and deletions and every behaviour of the function, including failing calls. Deletion always raises AttributeError (property without a deleter). The function is assumed not to use the property itself."
  },
  {
   "property": "C69",
   "status": "partial",
   "theorems": [
    "C69_written",
    "C69_calendar",
    "C69_width",
    "C69_width_refuted",
    "C69_round_partial",
    "C69_round_refuted",
    "C69_number",
    "C69_instants",
    "C69_aware",
    "C69_formats",
    "C69_property"
   ],
   "note": "Partial: holds from year 100 on (written text: all years 1 to 9999; width 29 from year 1000 on). Refuted for years 1 to 99, which are read as 1969 to 2068, and for the width before year 1000. Microseconds, floats and the current time (no argument) are not modelled; the standard library's parsedate_tz is modelled, with upper and lower case exact up to U+00FF."
  },
  {
   "property": "C70",
   "status": "proved",
   "theorems": [
    "C70_table",
    "C70_module",
    "C70_abort",
    "C70_abort_object",
    "C70_default"
   ],
   "note": "For any class list (C70_table), the module's own 30 classes (C70_module, C70_default) and any mapping and extra dict (C70_abort)."
  },
  {
   "property": "C71",
   "status": "proved",
   "theorems": [
    "C71_query_string"
   ],
   "note": "For every QUERY_STRING: only safe ASCII, same bytes."
  },
  {
   "property": "C72",
   "status": "proved",
   "theorems": [
    "C72_params"
   ],
   "note": "For every challenge: realm, domain, nonce, opaque and qop quoted, others token or quoted."
  },
  {
   "property": "C73",
   "status": "proved",
   "theorems": [
    "C73_defaults"
   ],
   "note": "Exact: redirect to the first canonical route in build order, otherwise found. Building may fail with the exceptions of C65."
  },
  {
   "property": "C74",
   "status": "partial",
   "theorems": [
    "C74_alias_partial",
    "C74_canonical_first",
    "C74_refuted"
   ],
   "note": "Exact description of the redirect; refuted: the assertion against aliases without a canonical route cannot fire, such an alias redirects to itself."
  },
  {
   "property": "C75",
   "status": "proved",
   "theorems": [
    "C75_read",
    "C75_values"
   ],
   "note": "Proved for all headers written from ranges; float reading is an arbitrary function."
  },
  {
   "property": "C76",
   "status": "partial",
   "theorems": [
    "C76_partial",
    "C76_refuted",
    "C76_space_refuted"
   ],
   "note": "False for paths such as /http://evil.com and '/ //evil.com' (open redirect). Proved for all paths without characters up to space and without colon, with any query."
  },
  {
   "property": "C77",
   "status": "proved",
   "theorems": [
    "C77_set",
    "C77_refused",
    "C77_delete",
    "C77_absent",
    "C77_content_length"
   ],
   "note": "Load functions answer or raise ValueError/TypeError; other exceptions of load functions are not modelled. Finding: None is stored as the text None."
  },
  {
   "property": "C78",
   "status": "proved",
   "theorems": [
    "C78_total"
   ],
   "note": "For the modelled parsedate_tz of Python 3.11; int() has no digit limit in the model (Python's ValueError for more than 4300 digits is caught by parsedate_tz's own handler, where the model reads a number that is then no valid date)."
  },
  {
   "property": "C79",
   "status": "partial",
   "theorems": [
    "C79_read_refuted",
    "C79_write_refuted"
   ],
   "note": "Refuted: the property is built from parse_date and http_date, so that it reads as None for every number and writes dates."
  },
  {
   "property": "C80",
   "status": "partial",
   "theorems": [
    "C80_seconds",
    "C80_date",
    "C80_none",
    "C80_read_refuted",
    "C80_read_partial",
    "C80_read_exact"
   ],
   "note": "Setting and reading back is proved; that reading never raises is refuted (superscript digits: ValueError; too many seconds: OverflowError), with the exact failures in C80_read_exact. utcnow() is a parameter, without microseconds."
  },
  {
   "property": "C81",
   "status": "partial",
   "theorems": [
    "C81_args",
    "C81_roundtrip",
    "C81_encodable",
    "C81_total",
    "C81_blank_refuted"
   ],
   "note": "Query strings in ASCII, as RFC 3986 requires; the total theorem covers all bytes. Refuted: parameters with an empty value are dropped (parse_qsl without keep_blank_values)."
  },
  {
   "property": "C82",
   "status": "proved",
   "theorems": [
    "C82_path",
    "C82_script_root",
    "C82_path_shape",
    "C82_script_shape",
    "C82_full_path"
   ],
   "note": "Every byte sequence and every number of slashes in PATH_INFO and SCRIPT_NAME."
  },
  {
   "property": "C83",
   "status": "partial",
   "theorems": [
    "C83_route",
    "C83_direct",
    "C83_secure_refuted",
    "C83_secure_exact_refuted",
    "C83_max_forwards_refuted",
    "C83_max_forwards_partial",
    "C83_max_forwards_exact"
   ],
   "note": "Refuted: is_secure is never True (the value is computed and not returned); max_forwards raises TypeError without the header (C83_max_forwards_exact: what it gives for every environ). access_route proved equal to the comma-separated list, for every environ."
  },
  {
   "property": "C84",
   "status": "proved",
   "theorems": [
    "C84_shallow",
    "C84_cached",
    "C84_body",
    "C84_complete",
    "C84_no_length",
    "C84_once"
   ],
   "note": "The connection is any sequence of bytes with any plan of short reads and failures."
  },
  {
   "property": "C85",
   "status": "partial",
   "theorems": [
    "C85_base_url",
    "C85_url_root",
    "C85_host_url",
    "C85_leads_back_partial",
    "C85_hash_refuted",
    "C85_percent_refuted"
   ],
   "note": "Explicit form of base_url, url_root and host_url proved for all texts; leading back refuted for # in the path and stray percent signs in the query, proved otherwise for UTF-8 requests to hosts that need no IDNA."
  },
  {
   "property": "C86",
   "status": "partial",
   "theorems": [
    "C86_files_partial",
    "C86_unambiguous",
    "C86_storage",
    "C86_spooled",
    "C86_text_refuted",
    "C86_bytes_refuted",
    "C86_forged_refuted"
   ],
   "note": "Files only: texts always fail (C86_text_refuted), bytes are also written into the header (C86_bytes_refuted), names are not escaped (C86_forged_refuted). Receiver specified independently as a relation on bodies, proved unambiguous."
  },
  {
   "property": "C87",
   "status": "proved",
   "theorems": [
    "C87_content_type",
    "C87_exclusive",
    "C87_asking",
    "C87_last_query",
    "C87_last_body"
   ],
   "note": "All histories of the builder's setters and getters."
  },
  {
   "property": "C88",
   "status": "partial",
   "theorems": [
    "C88_empty_data",
    "C88_stream_and_data",
    "C88_request",
    "C88_address",
    "C88_total",
    "C88_data",
    "C88_no_data",
    "C88_args_partial",
    "C88_args_refuted",
    "C88_headers_partial",
    "C88_headers_refuted",
    "C88_base_path_refuted",
    "C88_length_refuted"
   ],
   "note": "Method, scheme, host, script root, path and query proved for ordinary arguments; repeated query names and repeated headers are lost (refuted); a base URL without host leaves an empty host although documented otherwise (refuted)."
  },
  {
   "property": "C89",
   "status": "partial",
   "theorems": [
    "C89_never_started",
    "C89_run",
    "C89_buffered_partial",
    "C89_any",
    "C89_written_refuted",
    "C89_unclosed_refuted"
   ],
   "note": "Buffered variant loses data sent with write() (refuted), otherwise proved; applications that fail before start_response are not closed (refuted)."
  },
  {
   "property": "C90",
   "status": "partial",
   "theorems": [
    "C90_chain",
    "C90_ends",
    "C90_result",
    "C90_request",
    "C90_external",
    "C90_subdomain_refuted",
    "C90_disguise_refuted",
    "C90_relative_refuted"
   ],
   "note": "Chain, end and result proved for every application; the request made for a redirect proved for plain addresses of the same server; relative addresses are refused, subdomain redirects always fail, a user name can pass for the server (refuted)."
  },
  {
   "property": "C91",
   "status": "partial",
   "theorems": [
    "C91_date_partial",
    "C91_tag_partial",
    "C91_total",
    "C91_absent",
    "C91_written_date_partial",
    "C91_written_tag_partial",
    "C91_written_quote",
    "C91_refuted"
   ],
   "note": "Dates of years from 100 and tags with at most one gap proved; a quoted tag that is the text of a date is read as a date (refuted)."
  },
  {
   "property": "C92",
   "status": "proved",
   "theorems": [
    "C92_line",
    "C92_attributes",
    "C92_delete"
   ],
   "note": "Proved for every response and every combination of attributes, for cookie names of the characters the library allows; paths and expiry texts without semicolon. IDNA is a parameter assumed to yield bytes without semicolon."
  },
  {
   "property": "C93",
   "status": "partial",
   "theorems": [
    "C93_set",
    "C93_refused",
    "C93_add_kept",
    "C93_add_made",
    "C93_sent_back_partial",
    "C93_empty_tag_refuted"
   ],
   "note": "Proved; the empty tag is excluded from the 304 theorem (see C48). MD5 is a parameter. Refuted for an entity tag that is the empty text (C93_empty_tag_refuted)."
  },
  {
   "property": "C94",
   "status": "partial",
   "theorems": [
    "C94_calls_partial",
    "C94_assigned",
    "C94_remove_refuted",
    "C94_call_any"
   ],
   "note": "Proved for sequences of calls that respect the hypotheses of C10 (tame) and names that fit a header line; remove() of a name with a capital letter leaves the header (refuted). C94_call_any says exactly what any single call does to set and headers, tame or not."
  },
  {
   "property": "C95",
   "status": "partial",
   "theorems": [
    "C95_step_partial",
    "C95_set",
    "C95_unset",
    "C95_attributes_refuted",
    "C95_assigned",
    "C95_step_exact"
   ],
   "note": "Proved for ranges that can be written; assigning attributes one after the other fails half way (refuted). C95_step_exact says exactly what any call does to the object and the headers, and which exception it raises."
  },
  {
   "property": "C96",
   "status": "partial",
   "theorems": [
    "C96_mimetype",
    "C96_params_partial",
    "C96_params_refuted",
    "C96_reading_refuted"
   ],
   "note": "Proved for a response that has a mimetype and parameters that can be written; without Content-Type the parameters take the place of the type (refuted), reading the header = fails (refuted)."
  },
  {
   "property": "C97",
   "status": "partial",
   "theorems": [
    "C97_fields",
    "C97_calls_partial",
    "C97_sets_partial",
    "C97_refuted"
   ],
   "note": "Proved for challenges that can be written and operations the callback covers; without a type the fields are sent as Basic (refuted)."
  },
  {
   "property": "C98",
   "status": "partial",
   "theorems": [
    "C98_read_back",
    "C98_refuted"
   ],
   "note": "Proved for arguments separated by a comma and a space whose values are as documented. Without the space two numbers are read as one string, negative numbers lose their sign and name, words such as nan become floats and text that cannot be read is skipped (refuted)."
  },
  {
   "property": "C99",
   "status": "partial",
   "theorems": [
    "C99_int",
    "C99_int_words",
    "C99_string",
    "C99_any",
    "C99_by_place",
    "C99_refused",
    "C99_any_refused",
    "C99_unknown",
    "C99_refuted"
   ],
   "note": "Proved for numbers (int, string; by name or by place) and strings without names (any); unknown converters and arguments that do not fit are refused. any(1,2), any(1, 2), any(inf) and int(min=-1) do not do what they say (refuted). Arguments of float are not modelled, nor int bounds that are strings or floats."
  },
  {
   "property": "C100",
   "status": "partial",
   "theorems": [
    "C100_partial",
    "C100_served_partial",
    "C100_not_found_partial",
    "C100_slash",
    "C100_independent",
    "C100_header_refuted"
   ],
   "note": "Partial: requests whose Accept headers cannot be read, or handlers and bindings with other kinds of representation, are excluded (they raise from negotiation, C49 and C55); which redirect or routing error a route causes is left to C60-C62. The slash redirect and independence are proved in full. Refuted for a request whose Accept header cannot be read: the ValueError reaches the server although a handler for every exception exists (C100_header_refuted)."
  },
  {
   "property": "C101",
   "status": "partial",
   "theorems": [
    "C101_collected",
    "C101_built",
    "C101_again_refuted",
    "C101_decorator_refuted"
   ],
   "note": "What the calls add is proved for every history. Refuted: a builder with a Route object cannot be called twice (RuntimeError), whatever happens in between; a decorator applied twice binds the second function to the endpoint of the first, and a decorator whose route was refused binds without a route when applied again."
  },
  {
   "property": "C102",
   "status": "partial",
   "theorems": [
    "C102_round_trip",
    "C102_written",
    "C102_written_refuted",
    "C102_contains",
    "C102_getitem",
    "C102_exact",
    "C102_value_text"
   ],
   "note": "Proved for every header that can be read and for every object built of pieces without separators. Refuted for objects built by hand: parameters are not escaped (the code has a TODO), a parameter called q overrides the quality, a value is only checked at its beginning and may contain a comma, and an object without ranges is written as a text that cannot be read."
  },
  {
   "property": "C103",
   "status": "partial",
   "theorems": [
    "C103_lookup",
    "C103_cookies",
    "C103_tags",
    "C103_any_tag",
    "C103_dates_partial",
    "C103_if_range_date_partial",
    "C103_if_range_tag_partial",
    "C103_range",
    "C103_cache_control_partial",
    "C103_basic",
    "C103_digest_partial",
    "C103_content_type_partial",
    "C103_numbers",
    "C103_pragma_partial",
    "C103_texts",
    "C103_absent",
    "C103_xhr",
    "C103_method",
    "C103_server",
    "C103_refuted"
   ],
   "note": "Proved per header. Missing (partial): years before 100, tags that look like dates, parameters and directives that are empty or wear quotes, as in the claims about the objects. Refuted: an absent Max-Forwards raises a TypeError, a Content-Type of an equals sign makes mimetype raise a StopIteration."
  },
  {
   "property": "C104",
   "status": "partial",
   "theorems": [
    "C104_order",
    "C104_kept",
    "C104_current",
    "C104_first",
    "C104_close",
    "C104_registered",
    "C104_close_general",
    "C104_close_refuted"
   ],
   "note": "Proved for every history. full_path can mix a path read earlier with a query string of now if the environ is changed (example). Refuted for closing: an exception of one function keeps the later ones from being called, and a function that registers itself keeps close() from ending."
  },
  {
   "property": "C105",
   "status": "partial",
   "theorems": [
    "C105_independent",
    "C105_copies",
    "C105_constructed",
    "C105_called",
    "C105_sliced",
    "C105_slice_deleted",
    "C105_slice_set",
    "C105_extended",
    "C105_ends",
    "C105_equal",
    "C105_extend_refuted",
    "C105_equal_refuted"
   ],
   "note": "Proved for all histories and slices. Refuted: extending an object by itself never ends; equality ignores order and repetitions, so that equal objects can answer get() differently."
  },
  {
   "property": "C106",
   "status": "partial",
   "theorems": [
    "C106_save",
    "C106_lines_partial",
    "C106_lines_refuted",
    "C106_attributes",
    "C106_filename",
    "C106_true",
    "C106_total_partial",
    "C106_temporary_refuted",
    "C106_type_partial",
    "C106_length",
    "C106_close",
    "C106_total_exact",
    "C106_type_exact"
   ],
   "note": "Proved for all contents, sizes and failures. Refuted: iterating over a file of bytes, which uploaded files are, never ends (the sentinel is a text); a temporary file, whose name is a descriptor number, is a TypeError unless a file name is given."
  },
  {
   "property": "C107",
   "status": "partial",
   "theorems": [
    "C107_force_alone",
    "C107_constructor",
    "C107_total",
    "C107_base",
    "C107_from_app_partial",
    "C107_buffered_partial",
    "C107_force_app_partial",
    "C107_force_response",
    "C107_again",
    "C107_again_close",
    "C107_status_refuted",
    "C107_freeze_partial",
    "C107_freeze_refuted"
   ],
   "note": "Proved for every class, argument and well-behaved application. Refuted: a status line that does not begin with a number becomes one with code 0, a blank one is an IndexError; freeze of the class Response never adds an entity tag, because BaseResponse comes before ETagResponseMixin, and no_etag is a TypeError. Finding: answers without a body get a Content-Type."
  },
  {
   "property": "C108",
   "status": "proved",
   "theorems": [
    "C108_sequence",
    "C108_iterator",
    "C108_sent",
    "C108_refused",
    "C108_closed"
   ],
   "note": "Proved for all histories, over sequences and iterators."
  },
  {
   "property": "C109",
   "status": "partial",
   "theorems": [
    "C109_value",
    "C109_none",
    "C109_response",
    "C109_exception",
    "C109_refused",
    "C109_debug_refuted",
    "C109_response_refuted",
    "C109_keys_refuted",
    "C109_surrogates_refuted"
   ],
   "note": "Refuted: an environment without debug (BaseApplication has none) answers no value but None; a response of another class than Response raises TypeError; of two keys with one name (1 and the text 1) one item is lost; two surrogates next to each other arrive as one character. Floats are not modelled."
  },
  {
   "property": "C110",
   "status": "partial",
   "theorems": [
    "C110_call",
    "C110_lists",
    "C110_handed_out",
    "C110_new",
    "C110_copy",
    "C110_deepcopy",
    "C110_pickle_partial",
    "C110_pickle_refuted",
    "C110_ordered",
    "C110_ordered_deep_partial",
    "C110_ordered_deep_refuted",
    "C110_ordered_state_refuted",
    "C110_combined_refuted",
    "C110_combined_exact_refuted",
    "C110_state_refuted"
   ],
   "note": "Refuted: a MultiDict with a key without values cannot be pickled; deepcopy of an OrderedMultiDict brings pairs of a key together; its __setstate__ keeps the old pairs; every read of a deep copy of a CombinedMultiDict is a TypeError; MultiDict.__setstate__ shares the lists of the state."
  },
  {
   "property": "C111",
   "status": "partial",
   "theorems": [
    "C111_members",
    "C111_only_texts",
    "C111_call",
    "C111_call_data",
    "C111_call_arguments",
    "C111_star",
    "C111_raw",
    "C111_bool",
    "C111_roundtrip",
    "C111_call_star_refuted",
    "C111_star_weak_refuted"
   ],
   "note": "Calling a set does not know the star (C111_call_star_refuted), and weak tags given beside a star are kept but not written (C111_star_weak_refuted). Tags given as one text are not modelled."
  },
  {
   "property": "C112",
   "status": "partial",
   "theorems": [
    "C112_session",
    "C112_same_way",
    "C112_no_jar",
    "C112_set",
    "C112_disabled",
    "C112_seen",
    "C112_verb",
    "C112_stale_refuted",
    "C112_none_refuted"
   ],
   "note": "The library's CookieJar is a parameter; for C112_seen it is assumed to keep raw values and to honour an expiry date in the past (a small library that does so is in the file). Findings: an environ passed twice keeps the cookies of the first time (C112_stale_refuted); a cookie without a value is sent as name=None (C112_none_refuted); cookies are sent whatever the host, path and scheme (the sent line does not depend on the environ). The clock of the jar is not modelled."
  },
  {
   "property": "C113",
   "status": "partial",
   "theorems": [
    "C113_hash_partial",
    "C113_hash_refuted",
    "C113_pickle_list",
    "C113_pickle_dict",
    "C113_pickle_multi",
    "C113_pickle_equal_partial",
    "C113_pickle_equal_refuted",
    "C113_pickle_ordered",
    "C113_pickle_ordered_equal",
    "C113_authorization_refuted",
    "C113_frozen_partial",
    "C113_listvalues_refuted",
    "C113_fromkeys",
    "C113_fromkeys_multi",
    "C113_fromkeys_refuted",
    "C113_pickle_equal_exact"
   ],
   "note": "Proved for all contents and histories. Refuted: clear() of an ImmutableList leaves the old hash; a key without values is lost by a pickle; an Authorization read back from a pickle or copied has no credentials; listvalues() of an ImmutableMultiDict hands out its own lists; fromkeys of the immutable multi dicts repeats values of repeated keys."
  },
  {
   "property": "C114",
   "status": "partial",
   "theorems": [
    "C114_media",
    "C114_language",
    "C114_charset",
    "C114_operators",
    "C114_converse_partial",
    "C114_transitive_partial",
    "C114_order_refuted",
    "C114_nan_refuted"
   ],
   "note": "Attributes proved for all offers and ranges. Refuted: a closer match of lower quality and a looser one of higher quality are each greater than the other; with a quality nan an acceptability is not equal to itself. Partial: converse and transitivity where the closer match is never of lower quality."
  },
  {
   "property": "C115",
   "status": "partial",
   "theorems": [
    "C115_fields_partial",
    "C115_files",
    "C115_total",
    "C115_mixed_refuted",
    "C115_typed_refuted",
    "C115_values_refuted"
   ],
   "note": "Partial: of several values of one field only the first is sent; a text together with a file is refused; a content type of one's own leaves the body empty (refuted with theorems)."
  },
  {
   "property": "C116",
   "status": "proved",
   "theorems": [
    "C116_text",
    "C116_call",
    "C116_unknown"
   ],
   "note": "Texts and functions. Not covered by the vocabulary: texts that climb above the top of the host (C116_finding_above_root), with blanks or with other schemes. The query of the request is dropped; a value may make the text a URL of another host (C62_refuted)."
  },
  {
   "property": "C117",
   "status": "partial",
   "theorems": [
    "C117_host",
    "C117_host_matching",
    "C117_subdomain",
    "C117_given",
    "C117_given_matching",
    "C117_own_host",
    "C117_elsewhere_partial",
    "C117_match",
    "C117_refuted"
   ],
   "note": "Proved for every environ and map; that another host finds no route is proved for routes of one subdomain each (C117_elsewhere_partial) and refuted for routes of a variable subdomain, which match with the subdomain <invalid> (C117_refuted). IDNA is a parameter."
  },
  {
   "property": "C118",
   "status": "proved",
   "theorems": [
    "C118_built",
    "C118_total",
    "C118_missing",
    "C118_refused",
    "C118_raises",
    "C118_int",
    "C118_read_back"
   ],
   "note": "Proved. Empty values are lost when the query is read back, as the theorem says. The sort key and the charset are the defaults."
  },
  {
   "property": "C119",
   "status": "proved",
   "theorems": [
    "C119_choice",
    "C119_outcome"
   ],
   "note": "Proved for routes of the converters of the package; a converter of one's own is described by C58. Finding: the choice is made before the converters look at the texts, so a refused text is not tried again with another split (C119_finding_no_second_try)."
  },
  {
   "property": "C120",
   "status": "partial",
   "theorems": [
    "C120_adds",
    "C120_self_refuted",
    "C120_ends",
    "C120_found",
    "C120_unknown",
    "C120_method",
    "C120_order",
    "C120_nameless_refuted",
    "C120_json"
   ],
   "note": "Adding a dispatcher to itself ends only while it is empty, and class views without a name raise (refuted). Methods are texts; views are those that the constructor makes."
  },
  {
   "property": "C121",
   "status": "partial",
   "theorems": [
    "C121_to_uri",
    "C121_exists",
    "C121_to_iri",
    "C121_round_trip",
    "C121_fixed",
    "C121_backslash",
    "C121_drive",
    "C121_same_host_refuted"
   ],
   "note": "Network locations must be present, user names and passwords not empty, ports 1 to 65535. The IDNA codec, the check of IPv6 addresses and the NFKC check are arguments. C121_same_host_refuted: http://u%40evil.org%23@good.org/ becomes an IRI whose host is evil.org. C121_finding_semicolon: a semicolon in a path and an at sign in a query do not survive the round trip."
  },
  {
   "property": "C122",
   "status": "partial",
   "theorems": [
    "C122_bases",
    "C122_classes",
    "C122_search_order",
    "C122_plain",
    "C122_attribute",
    "C122_base_wins",
    "C122_derived_refuted",
    "C122_converters"
   ],
   "note": "Refuted: a mixin that derives from the base class can never be added (C122_derived_refuted)."
  },
  {
   "property": "C123",
   "status": "partial",
   "theorems": [
    "C123_close",
    "C123_closed_once",
    "C123_close_all_refuted",
    "C123_again",
    "C123_input",
    "C123_files",
    "C123_again_refuted",
    "C123_base",
    "C123_base_refused"
   ],
   "note": "Refuted as documented: close leaves the second and further files of a key open, and a builder with files sends them empty the second time. Proved: exactly what is closed, in which order and once; same body for builders without files; the exact bodies with files; base_url."
  },
  {
   "property": "C124",
   "status": "partial",
   "theorems": [
    "C124_call",
    "C124_answers",
    "C124_uncached",
    "C124_tags",
    "C124_dates",
    "C124_again",
    "C124_changed_partial",
    "C124_tag_exact",
    "C124_tag_tells",
    "C124_length_partial",
    "C124_method_refuted",
    "C124_length_refuted",
    "C124_changed_refuted",
    "C124_uncached_refuted",
    "C124_rules_refuted"
   ],
   "note": "Refuted: with caching on every method but GET and HEAD is told 304; package data that is not on a disk is announced with length 0; a change within one second that keeps the size keeps the tag; disallow given as a list, as documented, raises TypeError; without caching Cache-Control is still sent. C124_answers, C124_tags, C124_dates and C124_again cover the rest. fnmatch, guess_type, mktime, the file system and its encoding are parameters; time() is in whole seconds; a HEAD request is given the body as well (C124_finding_methods)."
  },
  {
   "property": "C125",
   "status": "partial",
   "theorems": [
    "C125_absolute",
    "C125_as_set",
    "C125_none",
    "C125_content_location",
    "C125_number_sign_refuted"
   ],
   "note": "Proved for ordinary requests (C85) whose script name has no number sign; with one the location goes astray (refuted). Examples record that several Location headers may all be sent and that //host leads to another host."
  },
  {
   "property": "C126",
   "status": "partial",
   "theorems": [
    "C126_stays",
    "C126_words",
    "C126_told_partial",
    "C126_known",
    "C126_refused_refuted",
    "C126_told_any"
   ],
   "note": "Proved except for the last clause: a refused call has changed the set all the same. For histories of calls with which set and list of the HeaderSet agree (C14). After any history, tame or not, C126_told_any says which calls are refused and how."
  },
  {
   "property": "C127",
   "status": "partial",
   "theorems": [
    "C127_shows",
    "C127_copy",
    "C127_empty_refuted",
    "C127_hash",
    "C127_hash_kept",
    "C127_hash_exact",
    "C127_stale_refuted",
    "C127_equal_partial",
    "C127_equal_refuted",
    "C127_unequal_hash_refuted"
   ],
   "note": "Shown dicts, copies and first hashes for all histories. Refuted: an empty list is not kept (dicts or []); any two CombinedMultiDicts compare equal, also if they hash differently, and one equals a MultiDict only if that is empty; equality with an OrderedMultiDict depends on the side; the hash stays the old one when dicts or lists change. In-place union is left out (C05), and so are OrderedMultiDicts as wrapped dicts."
  },
  {
   "property": "C128",
   "status": "partial",
   "theorems": [
    "C128_sent_partial",
    "C128_answers",
    "C128_unicode_refuted",
    "C128_marks_refuted",
    "C128_root_refuted"
   ],
   "note": "Proved for paths of printable ASCII parts without ?, #, % and colon that are not dots (any length, blanks included), and queries of characters that may stand in one. Refuted: a path beyond ASCII is encoded twice; ?, # and % of the path are not escaped; with an empty path the redirect leaves the application. Host, script name as in C125."
  },
  {
   "property": "C129",
   "status": "partial",
   "theorems": [
    "C129_text",
    "C129_distinct",
    "C129_distinct_repr",
    "C129_wrap",
    "C129_no_code_refuted",
    "C129_exact"
   ],
   "note": "Refuted for HTTPException itself, which has no code: str and repr raise TypeError, also for the error that abort raises around a response. C129_exact says that exactly the classes without a code are concerned."
  },
  {
   "property": "C130",
   "status": "partial",
   "theorems": [
    "C130_order_partial",
    "C130_own_date_partial",
    "C130_text_partial",
    "C130_tags",
    "C130_aware_refuted",
    "C130_exact"
   ],
   "note": "Years before 100 in a header are read as other years (C69). Refuted: an aware datetime, which http_date takes, raises TypeError as soon as the request has a readable If-Modified-Since, even if a list of tags decides; C130_exact says that no other call fails."
  },
  {
   "property": "C131",
   "status": "partial",
   "theorems": [
    "C131_kept",
    "C131_once",
    "C131_environ",
    "C131_no_environ",
    "C131_answer",
    "C131_method",
    "C131_method_builder_refuted"
   ],
   "note": "Refuted for get() and its like with a builder or an environ: the method they add makes it an ordinary argument, which raises TypeError. The requests themselves are in C88 to C90. C131_answer is about calls that return; that following redirects ends is C90."
  },
  {
   "property": "C132",
   "status": "partial",
   "theorems": [
    "C132_counts",
    "C132_unused",
    "C132_exact",
    "C132_surrogate_refuted",
    "C132_request"
   ],
   "note": "Refuted: a surrogate in a text makes repr fail with UnicodeEncodeError; C132_exact says that nothing else does. Contrast C45: the number here is that of the bytes, where the announced Content-Length counts characters."
  }
 ]
}