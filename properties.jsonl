{"id": "C01", "title": "MultiDict behaves as a map from keys to value lists", "statement": "After any sequence of public MultiDict calls, what the reads return (d[k], get, getlist, items, items(multi=True), lists, len, membership, to_dict) is what a plain insertion-ordered association of keys to value lists would return after the same sequence, and each call raises exactly when that reference would.", "quantifier": "every history of add / setlist / __setitem__ / setdefault / setlistdefault / update / pop / popitem / poplist / popitemlist / del / clear calls, with arbitrary keys and values, and every read made afterwards", "why_tests_cant": "The number of histories is unbounded and the interesting disagreements (empty lists left behind, pop after setlist) appear only for particular interleavings.", "anchors": ["verktyg/datastructures.py: MultiDict", "verktyg/datastructures.py: iter_multi_items"]}
{"id": "C02", "title": "OrderedMultiDict keeps one global insertion order", "statement": "After any sequence of public OrderedMultiDict calls, items(multi=True) yields exactly the (key, value) pairs that were added and not since removed, in the order in which they were added; items(), lists(), getlist(k), d[k], iteration, len and membership all agree with that one sequence.", "quantifier": "every history of add / setlist / __setitem__ / setdefault / update / pop / popitem / poplist / popitemlist / del / clear, and every read made afterwards", "why_tests_cant": "The order is kept in a mutable doubly linked list with head and tail pointers; unlinking bugs show only for particular shapes of history, of which there are infinitely many.", "anchors": ["verktyg/datastructures.py: OrderedMultiDict", "verktyg/datastructures.py: _omd_bucket"]}
{"id": "C03", "title": "Equal immutable multi dicts hash equally", "statement": "Whenever two immutable multi dicts compare equal, their hashes are equal, so they can be used as dict keys and set members.", "quantifier": "every pair of ImmutableMultiDict / ImmutableOrderedMultiDict values", "why_tests_cant": "A hash/equality violation needs one particular pair among infinitely many.", "anchors": ["verktyg/datastructures.py: ImmutableMultiDictMixin", "verktyg/datastructures.py: ImmutableDictMixin.__hash__", "verktyg/datastructures.py: OrderedMultiDict.__eq__"]}
{"id": "C04", "title": "CombinedMultiDict lookup order", "statement": "A read of a combined multi dict looks in the wrapped dicts from first to last: d[k] and get(k) return the first dict's first value for k, getlist(k) is the concatenation of every dict's list for k in order, keys are the union without duplicates, get(k, type=f) returns the first value that f accepts, and every way of listing the content reports the same values.", "quantifier": "every list of wrapped multi dicts, every key, every conversion function", "why_tests_cant": "Ranges over arbitrary lists of arbitrary dicts and arbitrary conversion functions.", "anchors": ["verktyg/datastructures.py: CombinedMultiDict"]}
{"id": "C05", "title": "Immutable containers never change", "statement": "Every mutating call on an immutable container raises TypeError and leaves the content as it was, whatever sequence of calls came before.", "quantifier": "every immutable container (list, dict, multi dict, ordered multi dict, combined multi dict, headers), every sequence of mutating calls", "why_tests_cant": "A test can only try the mutators its author thought of; the claim is about every method and every sequence.", "anchors": ["verktyg/datastructures.py: ImmutableListMixin", "verktyg/datastructures.py: ImmutableDictMixin", "verktyg/datastructures.py: ImmutableMultiDictMixin", "verktyg/http/basic.py: ImmutableHeadersMixin"]}
{"id": "C06", "title": "Change callbacks keep a mirrored header in step", "statement": "A dict created with an on_update callback calls it once for each call that succeeded in changing it and only after the change is complete, so a header rewritten from the dict by the callback equals the header computed from the dict's final content after any sequence of mutations.", "quantifier": "every history of mutating calls on a CallbackDict or cache-control object, including calls that raise", "why_tests_cant": "A missed notification shows up only after a particular operation in a particular state.", "anchors": ["verktyg/datastructures.py: UpdateDictMixin", "verktyg/datastructures.py: CallbackDict", "verktyg/http/cache_control.py: _CacheControl"]}
{"id": "C07", "title": "Typed lookup falls back to the default", "statement": "get(key, default, type) returns the converted stored value exactly when the key is present and conversion does not raise ValueError; in every other case it returns the default, and other errors of the conversion function propagate.", "quantifier": "every dict content, key, default and conversion function", "why_tests_cant": "Quantifies over arbitrary conversion functions.", "anchors": ["verktyg/datastructures.py: TypeConversionDict.get", "verktyg/datastructures.py: MultiDict.getlist"]}
{"id": "C08", "title": "Headers is a case-insensitive ordered multimap", "statement": "After any sequence of Headers calls, lookup by any spelling of a name sees exactly the entries stored under any spelling of it in order; set() leaves exactly one entry for the name, at the place of its first occurrence; remove() leaves none; no call changes or reorders entries of other names.", "quantifier": "every header list, every history of add / set / setdefault / remove / pop / extend calls, every spelling of every name", "why_tests_cant": "Histories and header lists are unbounded.", "anchors": ["verktyg/http/basic.py: Headers"]}
{"id": "C09", "title": "No header splitting through header values", "statement": "No header value stored through the Headers API contains a carriage return or line feed, so the serialised header block has exactly one line per stored header.", "quantifier": "every history of Headers constructor and mutating calls with arbitrary value strings", "why_tests_cant": "Security property over all strings and all entry points.", "anchors": ["verktyg/http/basic.py: Headers.__init__", "verktyg/http/basic.py: Headers._validate_value", "verktyg/http/basic.py: Headers.add", "verktyg/http/basic.py: Headers.set", "verktyg/http/basic.py: Headers.__str__"]}
{"id": "C10", "title": "Header value quoting round-trips", "statement": "unquote_header_value(quote_header_value(v)) == v for every string v, and the quoted form is either a plain token or a double-quoted string in which every inner quote is escaped.", "quantifier": "every string v, with allow_token true or false", "why_tests_cant": "Unquoting uses two successive global replaces; runs of backslashes next to quotes of any length have to work.", "anchors": ["verktyg/http/basic.py: quote_header_value", "verktyg/http/basic.py: unquote_header_value"]}
{"id": "C11", "title": "List headers round-trip", "statement": "parse_list_header(dump_header(items)) gives back items.", "quantifier": "every list of strings", "why_tests_cant": "All lists of all strings, including commas, quotes, backslashes, blanks.", "anchors": ["verktyg/http/basic.py: dump_header", "verktyg/http/basic.py: parse_list_header"]}
{"id": "C12", "title": "Dict headers round-trip", "statement": "parse_dict_header(dump_header(mapping)) gives back the mapping, with bare keys read back as None.", "quantifier": "every mapping from token keys to strings or None", "why_tests_cant": "All mappings with arbitrary value strings.", "anchors": ["verktyg/http/basic.py: dump_header", "verktyg/http/basic.py: parse_dict_header"]}
{"id": "C13", "title": "Option headers round-trip", "statement": "parse_options_header(dump_options_header(h, options)) gives back h and the options.", "quantifier": "every main value and every mapping of option names to strings or None", "why_tests_cant": "Parsing is by a regular expression with optional parts; correctness for every value cannot be enumerated.", "anchors": ["verktyg/http/basic.py: dump_options_header", "verktyg/http/basic.py: parse_options_header", "verktyg/http/basic.py: _option_header_piece_re"]}
{"id": "C14", "title": "HeaderSet membership and iteration agree", "statement": "After any sequence of HeaderSet calls, a name is reported as contained exactly when it appears (in some spelling) in iteration order and in to_header(), and each name appears once.", "quantifier": "every history of add / remove / discard / update / clear / __setitem__ / __delitem__ calls with names in any spelling", "why_tests_cant": "Two redundant structures are maintained by hand; only particular histories separate them.", "anchors": ["verktyg/http/basic.py: HeaderSet"]}
{"id": "C15", "title": "Entity and hop-by-hop header filtering", "statement": "remove_entity_headers and remove_hop_by_hop_headers delete exactly the headers of the respective class that are not explicitly allowed, whatever their spelling, and keep everything else unchanged and in order.", "quantifier": "every header list and every allowed set", "why_tests_cant": "All lists of all headers in all spellings.", "anchors": ["verktyg/http/basic.py: remove_entity_headers", "verktyg/http/basic.py: remove_hop_by_hop_headers", "verktyg/http/basic.py: is_entity_header", "verktyg/http/basic.py: is_hop_by_hop_header"]}
{"id": "C16", "title": "A satisfiable byte range is resolved inside the resource", "statement": "range_for_length(n) either returns None or a pair (s, e) with 0 <= s < e <= n that designates exactly the bytes requested and present; make_content_range then succeeds with that range.", "quantifier": "every parsed Range object and every resource length", "why_tests_cant": "All integers, suffix and open ranges.", "anchors": ["verktyg/http/cache_control.py: Range.range_for_length", "verktyg/http/cache_control.py: Range.make_content_range", "verktyg/http/basic.py: is_byte_range_valid"]}
{"id": "C17", "title": "Range headers round-trip and parsed ranges are well formed", "statement": "parse_range_header(Range(units, ranges).to_header()) gives back the units and ranges for every well-formed increasing list of ranges, and anything parse_range_header accepts is well formed: each begin is below its end and ranges are increasing and disjoint.", "quantifier": "every unit name, every list of ranges, every header string", "why_tests_cant": "All lists of ranges and all header strings.", "anchors": ["verktyg/http/cache_control.py: Range.to_header", "verktyg/http/cache_control.py: parse_range_header"]}
{"id": "C18", "title": "Malformed Range headers yield None", "statement": "parse_range_header returns None for a malformed header and never raises.", "quantifier": "every header string", "why_tests_cant": "Absence of exceptions over all strings.", "anchors": ["verktyg/http/cache_control.py: parse_range_header"]}
{"id": "C19", "title": "Content-Range round-trips", "statement": "parse_content_range_header(ContentRange(...).to_header()) gives back the same units, start, stop and length; anything the parser accepts denotes a valid range; the parser never raises.", "quantifier": "every unit name and every valid (start, stop, length); every header string", "why_tests_cant": "All integers and all header strings.", "anchors": ["verktyg/http/cache_control.py: ContentRange", "verktyg/http/cache_control.py: parse_content_range_header", "verktyg/http/basic.py: is_byte_range_valid"]}
{"id": "C20", "title": "Cache-Control directives round-trip", "statement": "Setting a cache-control directive through its attribute and reading it back gives the value set; setting None or False removes it; parsing the header written for a cache-control object gives the same directives.", "quantifier": "every history of attribute assignments, every directive value", "why_tests_cant": "Histories of assignments and all values.", "anchors": ["verktyg/http/cache_control.py: _CacheControl", "verktyg/http/cache_control.py: parse_cache_control_header", "verktyg/http/cache_control.py: cache_property"]}
{"id": "C21", "title": "Entity tag quoting round-trips", "statement": "unquote_etag(quote_etag(tag, weak)) == (tag, weak) for every tag, and quote_etag rejects tags that contain a double quote.", "quantifier": "every tag string and both weak flags", "why_tests_cant": "All strings.", "anchors": ["verktyg/http/cache_control.py: quote_etag", "verktyg/http/cache_control.py: unquote_etag"]}
{"id": "C22", "title": "Entity tag lists: the parser terminates and recovers every tag", "statement": "parse_etags terminates on every string, and for a list of tags written as an If-None-Match header it yields exactly the strong and weak tags written.", "quantifier": "every header string; every list of tags", "why_tests_cant": "Termination on all inputs cannot be tested.", "anchors": ["verktyg/http/cache_control.py: parse_etags", "verktyg/http/cache_control.py: _etag_re", "verktyg/http/cache_control.py: ETags"]}
{"id": "C23", "title": "Conditional request decision", "statement": "is_resource_modified reports a GET or HEAD resource as unmodified exactly when If-None-Match is present and matches the resource's tag, or no tag list decides and If-Modified-Since is not older than the (whole-second) modification time.", "quantifier": "every method, tag, tag list, modification date and header combination", "why_tests_cant": "All combinations of headers, tags and dates.", "anchors": ["verktyg/http/cache_control.py: is_resource_modified", "verktyg/http/cache_control.py: ETags.contains_raw"]}
{"id": "C24", "title": "Cookie value quoting round-trips", "statement": "Unquoting the quoted form of a cookie value gives the same bytes, and the quoted form contains no separator, control or non-ASCII byte.", "quantifier": "every byte string", "why_tests_cant": "All byte strings, including ones that look like octal escapes.", "anchors": ["verktyg/http/cookies.py: _cookie_quote", "verktyg/http/cookies.py: _cookie_unquote"]}
{"id": "C25", "title": "Cookie headers parse back to the cookies sent", "statement": "For any list of cookies with legal names, parsing the Cookie header built from their quoted values gives back exactly those names and values in order.", "quantifier": "every list of (legal name, arbitrary byte value)", "why_tests_cant": "The parser is a backtracking regular expression; all lists of all values.", "anchors": ["verktyg/http/cookies.py: _cookie_parse_impl", "verktyg/http/cookies.py: parse_cookie", "verktyg/http/cookies.py: _cookie_re"]}
{"id": "C26", "title": "Set-Cookie cannot be subverted by the value", "statement": "The Set-Cookie value produced by dump_cookie splits at its ';' separators into the name=value pair followed by exactly the attributes requested: no value can add or hide an attribute.", "quantifier": "every legal name, every value, every combination of attributes", "why_tests_cant": "Injection freedom over all values.", "anchors": ["verktyg/http/cookies.py: dump_cookie", "verktyg/http/cookies.py: _make_cookie_domain"]}
{"id": "C27", "title": "Basic credentials round-trip", "statement": "parse_authorization_header applied to 'Basic ' + base64(user:password) gives back the user and password, and malformed base64 or a missing colon yields None.", "quantifier": "every user name without a colon and every password", "why_tests_cant": "All byte strings through a base64 codec.", "anchors": ["verktyg/http/auth.py: parse_authorization_header", "verktyg/http/auth.py: Authorization"]}
{"id": "C28", "title": "WWW-Authenticate challenges round-trip and digest credentials are complete", "statement": "Parsing the header written for a WWW-Authenticate challenge gives back its scheme and parameters; a digest Authorization header is accepted only when username, realm, nonce, uri and response are all present, and nc and cnonce too if qop is.", "quantifier": "every challenge and every header string", "why_tests_cant": "All parameter dictionaries.", "anchors": ["verktyg/http/auth.py: WWWAuthenticate.to_header", "verktyg/http/auth.py: parse_www_authenticate_header", "verktyg/http/auth.py: parse_authorization_header"]}
{"id": "C29", "title": "Percent quoting round-trips and stays in its alphabet", "statement": "Percent-decoding the percent-quoted form of a string with any safe set that does not contain '%' gives back the string, and the quoted form contains only unreserved characters, the safe characters and percent escapes.", "quantifier": "every byte string and every safe set", "why_tests_cant": "All byte strings and safe sets.", "anchors": ["verktyg/urls.py: iri_to_uri", "verktyg/routing.py: BaseConverter.to_url", "verktyg/routing.py: Route.build"]}
{"id": "C30", "title": "Selective unquoting keeps reserved characters escaped", "statement": "uri_to_iri's component decoding never turns an escape of a reserved character into the bare character, decodes every other well-formed escape, and leaves malformed escapes as they are.", "quantifier": "every byte string and every set of reserved bytes", "why_tests_cant": "All byte strings, including malformed escapes.", "anchors": ["verktyg/urls.py: _safe_urlunquote_to_bytes", "verktyg/urls.py: uri_to_iri"]}
{"id": "C31", "title": "iri_to_uri yields ASCII and is idempotent", "statement": "The result of iri_to_uri contains only ASCII characters, and applying iri_to_uri to it again changes nothing.", "quantifier": "every path, query and fragment string", "why_tests_cant": "All Unicode strings.", "anchors": ["verktyg/urls.py: iri_to_uri", "verktyg/urls.py: _encode_netloc"]}
{"id": "C32", "title": "WSGI string transcoding round-trips", "statement": "wsgi_decoding_dance(wsgi_encoding_dance(s)) == s for every text s; decoding arbitrary bytes with error replacement never fails and agrees with strict decoding on well-formed input.", "quantifier": "every text and every byte string", "why_tests_cant": "All texts and all byte strings.", "anchors": ["verktyg/wsgi.py: wsgi_decoding_dance", "verktyg/wsgi.py: wsgi_encoding_dance", "verktyg/wsgi.py: get_path_info"]}
{"id": "C33", "title": "LimitedStream never reads past its limit", "statement": "Whatever sequence of read / readline / readlines / iteration / exhaust calls is made and however the underlying stream splits its data, the bytes taken from the underlying stream never exceed the limit, and the data returned concatenates to a prefix of the underlying data.", "quantifier": "every history of calls with arbitrary sizes, every underlying stream behaviour", "why_tests_cant": "All call histories against all short-read behaviours.", "anchors": ["verktyg/wsgi.py: LimitedStream"]}
{"id": "C34", "title": "A truncated request body is reported", "statement": "If the underlying stream ends before the limit, the reading client is told (ClientDisconnected) rather than given a short body as if complete; when all limit bytes were delivered, further reads return empty and never raise.", "quantifier": "every stream content, limit, and sequence of reads", "why_tests_cant": "All truncation points.", "anchors": ["verktyg/wsgi.py: LimitedStream.read", "verktyg/wsgi.py: LimitedStream.on_disconnect", "verktyg/wsgi.py: LimitedStream.on_exhausted"]}
{"id": "C35", "title": "Line iteration does not depend on chunking", "statement": "make_line_iter yields the lines (ended by \\n, \\r or \\r\\n) of the concatenated stream, whatever chunk boundaries the stream uses.", "quantifier": "every text and every way of cutting it into non-empty chunks", "why_tests_cant": "Exponentially many chunkings of infinitely many texts; a CR at the end of a chunk is the classical failure.", "anchors": ["verktyg/wsgi.py: make_line_iter"]}
{"id": "C36", "title": "Separator iteration does not depend on chunking", "statement": "make_chunk_iter yields the pieces of the concatenated stream between separators, whatever chunk boundaries the stream uses.", "quantifier": "every text, separator and way of cutting the text into chunks", "why_tests_cant": "All texts, separators and chunkings.", "anchors": ["verktyg/wsgi.py: make_chunk_iter"]}
{"id": "C37", "title": "DispatcherMiddleware picks the longest mount and preserves the URL", "statement": "The request goes to the application mounted at the longest registered prefix of the path that ends at a '/' boundary, or the default if none, and SCRIPT_NAME + PATH_INFO is the same before and after.", "quantifier": "every set of mounts, every SCRIPT_NAME and PATH_INFO", "why_tests_cant": "All mount tables and paths.", "anchors": ["verktyg/wsgi.py: DispatcherMiddleware"]}
{"id": "C38", "title": "Static file serving cannot leave its directory", "statement": "For every request path the file name SharedDataMiddleware looks up lies under the exported directory: the relative name has no '..' or empty component and is not absolute.", "quantifier": "every request path and every export table", "why_tests_cant": "Path traversal freedom over all strings.", "anchors": ["verktyg/wsgi.py: SharedDataMiddleware.__call__", "verktyg/wsgi.py: SharedDataMiddleware.get_directory_loader"]}
{"id": "C39", "title": "Responses are closed whatever happens", "statement": "For every response served through an application, on_close callbacks and the body iterator's close run once when the body is fully iterated, and at least once if the server stops after any number of chunks or the body raises part-way.", "quantifier": "every number of chunks consumed before the server stops, every failure point of the body, every list of callbacks", "why_tests_cant": "All crash points.", "anchors": ["verktyg/wsgi.py: ClosingIterator", "verktyg/responses.py: BaseResponse.close / call_on_close / __call__", "verktyg/application.py: BaseApplication._wsgi_inner / __call__"]}
{"id": "C40", "title": "Trusted host check", "statement": "host_is_trusted returns True only if the host without port equals a trusted name or is a subdomain of a trusted name given with a leading dot, and returns True whenever that is so.", "quantifier": "every host name and every list of trusted names", "why_tests_cant": "Security decision over all strings.", "anchors": ["verktyg/wsgi.py: host_is_trusted", "verktyg/wsgi.py: get_host"]}
{"id": "C41", "title": "EnvironHeaders agrees with the environment", "statement": "Every header obtained by iterating over a request's headers can be looked up by that name, in any spelling, giving the same value, and len() is the number of headers iterated.", "quantifier": "every WSGI environment", "why_tests_cant": "All environments.", "anchors": ["verktyg/wsgi.py: EnvironHeaders"]}
{"id": "C42", "title": "File wrapper streams the file exactly", "statement": "FileWrapper yields chunks whose concatenation is the remaining content of the file, none empty and none larger than the buffer size.", "quantifier": "every file content, position and buffer size", "why_tests_cant": "All contents and sizes.", "anchors": ["verktyg/wsgi.py: FileWrapper"]}
{"id": "C43", "title": "secure_filename is safe and idempotent", "statement": "The result of secure_filename consists only of ASCII letters, digits, '_', '.', '-', contains no path separator, does not begin or end with '.' or '_' and so is never '.' or '..', and secure_filename of the result is the result.", "quantifier": "every string", "why_tests_cant": "Security property over all Unicode strings.", "anchors": ["verktyg/utils.py: secure_filename"]}
{"id": "C44", "title": "Request bodies are bounded by Content-Length", "statement": "get_content_length never returns a negative number and ignores malformed values; get_input_stream never lets an application read beyond it and yields an empty stream when the length is unknown, unless the server marks the input as terminated.", "quantifier": "every environment", "why_tests_cant": "All header strings and environments.", "anchors": ["verktyg/wsgi.py: get_content_length", "verktyg/wsgi.py: get_input_stream"]}
{"id": "C45", "title": "Content-Length equals the bytes sent", "statement": "When the server is given an automatically computed Content-Length, it equals the number of bytes of the body that is then sent.", "quantifier": "every response body built by any sequence of set_data and stream writes of text or bytes", "why_tests_cant": "All bodies and histories; wrong only for particular contents.", "anchors": ["verktyg/responses.py: BaseResponse.get_wsgi_headers", "verktyg/responses.py: BaseResponse.iter_encoded", "verktyg/responses.py: ResponseStream"]}
{"id": "C46", "title": "Bodyless responses have no body", "statement": "A response to HEAD, or with status 1xx, 204 or 304, sends no body bytes; 1xx and 204 announce length 0 and 304 carries no entity headers other than Expires and Content-Location.", "quantifier": "every response, status code and header list", "why_tests_cant": "All header lists and statuses.", "anchors": ["verktyg/responses.py: BaseResponse.get_wsgi_headers", "verktyg/responses.py: BaseResponse.get_app_iter"]}
{"id": "C47", "title": "Status line and status code agree", "statement": "After any sequence of status and status_code assignments, the numeric code is the number at the start of the status line.", "quantifier": "every history of assignments of integers and strings", "why_tests_cant": "All strings and integers.", "anchors": ["verktyg/responses.py: BaseResponse.status / status_code"]}
{"id": "C48", "title": "Conditional responses", "statement": "make_conditional turns a GET or HEAD response into 304 exactly when the request's validators match the response's ETag or Last-Modified; otherwise it leaves the status alone, and other methods are never affected.", "quantifier": "every request header combination, method and response", "why_tests_cant": "All header combinations.", "anchors": ["verktyg/responses.py: ETagResponseMixin.make_conditional", "verktyg/http/cache_control.py: is_resource_modified"]}
{"id": "C49", "title": "Content negotiation returns an acceptable representation", "statement": "select_representation returns one of the offered representations that matches the Accept header, and raises NotAcceptable exactly when none matches.", "quantifier": "every list of representations and every list of accepted ranges", "why_tests_cant": "All lists of offers and ranges.", "anchors": ["verktyg/accept/__init__.py: select_representation", "verktyg/accept/__init__.py: Representation.acceptability", "verktyg/accept/_base.py: Value.acceptability"]}
{"id": "C50", "title": "Content negotiation honours client preference", "statement": "The representation selected has the highest quality the client assigned, with the most specific matching range deciding the quality of each, independent of the order of the ranges in the header.", "quantifier": "every list of representations and accepted ranges", "why_tests_cant": "Optimality over all lists and orders.", "anchors": ["verktyg/accept/_base.py: Acceptability", "verktyg/accept/__init__.py: Acceptability", "verktyg/accept/__init__.py: select_representation"]}
{"id": "C51", "title": "Media range, language and charset matching", "statement": "A media type matches a range exactly when the range is */*, type/* with the same type, or the same type and subtype; a language matches a range exactly when the range is '*' or equals the tag or a prefix of it ending at '-'; quality values are always within [0, 1].", "quantifier": "every value and range", "why_tests_cant": "All strings.", "anchors": ["verktyg/accept/content_type.py", "verktyg/accept/language.py", "verktyg/accept/charset.py", "verktyg/accept/_base.py: Range / Value"]}
{"id": "C52", "title": "Language and charset preferences are taken into account", "statement": "A representation declared with a language (charset) is only selected if Accept-Language (Accept-Charset) admits it.", "quantifier": "every list of representations and every accept header triple", "why_tests_cant": "All combinations of headers.", "anchors": ["verktyg/accept/__init__.py: Representation.acceptability"]}
{"id": "C53", "title": "Endpoint dispatch is total and exact", "statement": "Dispatcher.lookup finds a binding registered under the given name and method (GET bindings also serve HEAD when no HEAD binding exists); an unknown name is reported as not implemented, a known name without the method as method not allowed, and no binding is ever returned for another name or method.", "quantifier": "every dispatcher content and registration order, every name and method", "why_tests_cant": "All registration histories.", "anchors": ["verktyg/dispatch.py: Dispatcher"]}
{"id": "C54", "title": "Exception handlers: the most specific class wins", "statement": "ExceptionDispatcher.lookup returns a handler registered for the first class in the exception type's method resolution order that has an acceptable handler, and none if no class has one; nested dispatchers contribute their handlers.", "quantifier": "every class hierarchy, every registration history", "why_tests_cant": "All hierarchies and registrations.", "anchors": ["verktyg/exception_dispatch.py: ExceptionDispatcher"]}
{"id": "C55", "title": "Application dispatch pipeline", "statement": "Every request yields either the endpoint's response, or the response of the selected exception handler for the exception raised while routing, dispatching or handling; an exception without handler propagates to the server unchanged.", "quantifier": "every router, dispatcher, handler behaviour and exception", "why_tests_cant": "All handler behaviours and exceptions.", "anchors": ["verktyg/application.py: BaseApplication._get_response"]}
{"id": "C56", "title": "Middleware nesting order", "statement": "Middlewares added to an application wrap it in the order added: the last one added sees the request first and the response last.", "quantifier": "every list of middlewares", "why_tests_cant": "All lists.", "anchors": ["verktyg/application.py: ApplicationBuilder.add_middleware", "verktyg/application.py: BaseApplication.__init__ / __call__"]}
{"id": "C57", "title": "Route templates are parsed completely or rejected", "statement": "Parsing a route template either yields pieces whose rendering is the template, with variable names all distinct, or raises ValueError; no part of the template is silently dropped.", "quantifier": "every template string", "why_tests_cant": "Regular expression based tokenizer over all strings.", "anchors": ["verktyg/routing.py: parse_route", "verktyg/routing.py: Route.compile"]}
{"id": "C58", "title": "A matching route really matches", "statement": "When a route matches a path, the path is the route's static text with each variable replaced by a text in that variable's converter language, and the values returned are those converters' interpretations of exactly those texts plus the route's defaults.", "quantifier": "every route of static parts and converters, every path", "why_tests_cant": "All routes and paths.", "anchors": ["verktyg/routing.py: Route.match", "verktyg/routing.py: Route.compile", "verktyg/routing.py: BaseConverter"]}
{"id": "C59", "title": "Built URLs match the route they were built from", "statement": "Building a URL from a route and converter-valid values and matching it again yields the same endpoint and values.", "quantifier": "every route without ambiguous neighbours and every tuple of valid values", "why_tests_cant": "All routes and values.", "anchors": ["verktyg/routing.py: Route.build", "verktyg/routing.py: Route.match", "verktyg/routing.py: converters' to_url / to_python"]}
{"id": "C60", "title": "Route priority does not depend on registration order", "statement": "Among routes whose sort keys differ, the route chosen for a path is the same for every order of registration, and it is the smallest matching route in the documented priority.", "quantifier": "every set of routes, every registration order, every path", "why_tests_cant": "All permutations.", "anchors": ["verktyg/routing.py: URLMap.update", "verktyg/routing.py: Route.match_compare_key", "verktyg/routing.py: MapAdapter.match"]}
{"id": "C61", "title": "Trailing slash redirects", "statement": "For a strict-slash branch route requested without its trailing slash the adapter redirects to the same path plus '/', the redirected request matches the same route with the same values and no further redirect, and leaf routes never match with an extra slash.", "quantifier": "every branch or leaf route and path", "why_tests_cant": "All paths, absence of redirect loops.", "anchors": ["verktyg/routing.py: Route.match", "verktyg/routing.py: MapAdapter.match"]}
{"id": "C62", "title": "Redirect targets stay on the bound host", "statement": "Every redirect URL produced while matching begins with the bound scheme and the server's own host name followed by '/', whatever the request path contains.", "quantifier": "every request path, query and bound adapter", "why_tests_cant": "Open-redirect freedom over all strings.", "anchors": ["verktyg/routing.py: MapAdapter.make_redirect_url", "verktyg/routing.py: MapAdapter.match"]}
{"id": "C63", "title": "Route factories compose", "statement": "Submount, Subdomain, EndpointPrefix and RouteTemplate yield the wrapped routes in order with only the documented field changed.", "quantifier": "every nested factory expression", "why_tests_cant": "All nestings.", "anchors": ["verktyg/routing.py: Submount", "verktyg/routing.py: Subdomain", "verktyg/routing.py: EndpointPrefix", "verktyg/routing.py: RouteTemplate", "verktyg/routing.py: RouteTemplateFactory"]}
{"id": "C64", "title": "Number converters respect their bounds", "statement": "An integer converter accepts exactly the digit strings with the declared number of digits whose value is within min and max, and a value it accepts is rendered back to a string that it accepts with the same value.", "quantifier": "every digit string and every converter configuration", "why_tests_cant": "All integers and configurations.", "anchors": ["verktyg/routing.py: NumberConverter", "verktyg/routing.py: IntegerConverter"]}
{"id": "C65", "title": "URL building fails exactly when no route is suitable", "statement": "MapAdapter.build raises BuildError exactly when no route for the endpoint is suitable for the given values and method, and otherwise uses the first suitable route in build order.", "quantifier": "every URL map, endpoint, value dict and method", "why_tests_cant": "All maps.", "anchors": ["verktyg/routing.py: MapAdapter.build", "verktyg/routing.py: Route.suitable_for", "verktyg/routing.py: Route.build_compare_key"]}
{"id": "C66", "title": "Matching is complete", "statement": "MapAdapter.match raises NotFound exactly when no registered, non-build-only route matches the host and path; build-only routes are never returned.", "quantifier": "every URL map and path", "why_tests_cant": "All maps and paths.", "anchors": ["verktyg/routing.py: MapAdapter.match", "verktyg/routing.py: Route.match"]}
{"id": "C67", "title": "Redirect page cannot be used for HTML injection", "statement": "The HTML body produced by redirect() contains the target only in escaped form: no '<', '>' or quote of the location survives.", "quantifier": "every location string", "why_tests_cant": "XSS freedom over all strings.", "anchors": ["verktyg/utils.py: redirect", "verktyg/utils.py: append_slash_redirect"]}
{"id": "C68", "title": "Cached properties are computed once", "statement": "A cached property calls its function at most once per object between assignments, and always returns the value of that call or the last assignment.", "quantifier": "every history of reads, writes and deletions", "why_tests_cant": "All histories.", "anchors": ["verktyg/utils.py: cached_property"]}
{"id": "C69", "title": "HTTP dates round-trip", "statement": "parse_date(http_date(t)) == t for every whole-second UTC time, in the fixed-width RFC 1123 format.", "quantifier": "every calendar date and time of day", "why_tests_cant": "All dates, including leap years and century boundaries.", "anchors": ["verktyg/http/basic.py: http_date", "verktyg/http/basic.py: _dump_date", "verktyg/http/basic.py: parse_date"]}
{"id": "C70", "title": "abort(code) raises the exception class registered for that code", "statement": "Every class in the default table carries the status code it is registered under, abort(code) raises exactly that class, and unknown codes raise LookupError.", "quantifier": "every integer code and every extra mapping", "why_tests_cant": "All integers and mappings.", "anchors": ["verktyg/exceptions.py: default_exceptions / Aborter / abort"]}
{"id": "C71", "title": "Query strings are read as safe ASCII", "statement": "The query string read from the WSGI environment contains only unreserved characters, the characters ':&%=+$!*'(),' and percent escapes, and stands for the same bytes as the raw QUERY_STRING.", "quantifier": "every QUERY_STRING", "why_tests_cant": "All byte strings, including malformed escapes.", "anchors": ["verktyg/wsgi.py: get_query_string"]}
{"id": "C72", "title": "Challenge parameters that need it are always quoted", "statement": "In a written WWW-Authenticate header the parameters realm, domain, nonce, opaque and qop are always quoted-strings, and every other parameter is a token or a quoted-string.", "quantifier": "every challenge", "why_tests_cant": "All parameter dictionaries.", "anchors": ["verktyg/http/auth.py: WWWAuthenticate.to_header"]}
{"id": "C73", "title": "Values that are defaults of another route redirect to its URL", "statement": "When a request matches a route with values that another route of the same endpoint and argument names (earlier in build order, with defaults and not build-only) has as its defaults, the adapter redirects to that route's URL; otherwise the route is found with exactly its values.", "quantifier": "every map, adapter, path and query string", "why_tests_cant": "All sets of routes with defaults.", "anchors": ["verktyg/routing.py: MapAdapter.get_default_redirect", "verktyg/routing.py: Route.provides_defaults_for", "verktyg/routing.py: Route.suitable_for"]}
{"id": "C74", "title": "Aliases redirect to the canonical URL, never to themselves", "statement": "A request that matches an alias is redirected to the URL built for the same endpoint and values, where canonical routes are tried before aliases; an alias without a canonical route is reported, not redirected to itself.", "quantifier": "every map, adapter, path and query string", "why_tests_cant": "All sets of routes and aliases.", "anchors": ["verktyg/routing.py: MapAdapter.make_alias_redirect_url", "verktyg/routing.py: MapAdapter.match"]}
{"id": "C75", "title": "Reading an Accept header", "statement": "A header written from media ranges with parameters, with white space around any piece, is read as exactly those ranges in order, each with its parameters other than q and the number of [0, 1] closest to its q, or 1 if it has none; a value is taken as a media range exactly when it is a token or '*', a slash, and something beginning with a letter, digit or '*'.", "quantifier": "every list of ranges and every way of spacing them, and every text", "why_tests_cant": "All headers and all placements of white space.", "anchors": ["verktyg/accept/_base.py: split_accept_string, Range", "verktyg/accept/content_type.py: parse_accept_header"]}
{"id": "C76", "title": "append_slash_redirect stays on the server", "statement": "The Location header of append_slash_redirect() is a reference to the same server: it has no scheme and does not begin with two slashes.", "quantifier": "every environ, path and query string", "why_tests_cant": "An open redirect hides in unusual paths; all paths must be covered.", "anchors": ["verktyg/utils.py: append_slash_redirect", "verktyg/utils.py: redirect", "verktyg/urls.py: iri_to_uri"]}
{"id": "C77", "title": "Header properties read back what was set", "statement": "After a header property is set, its header has exactly the dumped value, reading it gives the loaded value (the default if it cannot be loaded) and all other headers are unchanged; deleting it restores the default; a read-only property can be neither set nor deleted; Content-Length holds every integer.", "quantifier": "every property, every header list and every value", "why_tests_cant": "All header lists, with any spelling and repetition of the name.", "anchors": ["verktyg/utils.py: header_property", "verktyg/responses.py: content_length"]}
{"id": "C78", "title": "Reading a date never fails and never invents one", "statement": "parse_date() raises no exception for any text; what it returns is None or a date of the Gregorian calendar with a valid time of day, in the years 1 to 9999.", "quantifier": "every text, and None", "why_tests_cant": "A stray comma or colon in a header must not fail a request; all texts must be covered.", "anchors": ["verktyg/http/basic.py: parse_date"]}
{"id": "C79", "title": "The Age property is a number of seconds", "statement": "As its documentation says, the Age property of a response reads and writes non-negative decimal integers, representing time in seconds.", "quantifier": "every header list and every number", "why_tests_cant": "All numbers.", "anchors": ["verktyg/responses.py: CommonResponseDescriptorsMixin.age"]}
{"id": "C80", "title": "Retry-After is read as a date", "statement": "Set to n seconds the property reads as the time n seconds from now, set to a date as that date, and set to None it is absent; other headers are unchanged and reading never raises.", "quantifier": "every header list, current time, date and number of seconds", "why_tests_cant": "All dates and numbers and all texts of the header.", "anchors": ["verktyg/responses.py: CommonResponseDescriptorsMixin._get_retry_after, _set_retry_after"]}
{"id": "C81", "title": "The parameters of a request are those of its query string", "statement": "request.args has every name and value of the query string, decoded from form encoding, the values of a name in the order of arrival; what urlencode() writes is read back; no query string makes it raise.", "quantifier": "every query string and every list of names and values", "why_tests_cant": "All texts, escapes and repetitions of names.", "anchors": ["verktyg/requests.py: BaseRequest.args"]}
{"id": "C82", "title": "request.path begins with exactly one slash", "statement": "request.path is the path the client asked for, as text, with exactly one slash in front; script_root is the script name without slashes at its end; full_path adds the query string; invalid bytes never raise.", "quantifier": "every environ a server can build", "why_tests_cant": "All byte sequences and numbers of slashes.", "anchors": ["verktyg/requests.py: BaseRequest.path, script_root, full_path"]}
{"id": "C83", "title": "Small properties of requests say what they are documented to say", "statement": "access_route lists the addresses of X-Forwarded-For; is_secure is True exactly over https; max_forwards is the number sent or None.", "quantifier": "every environ", "why_tests_cant": "All environs, present and missing headers.", "anchors": ["verktyg/requests.py: BaseRequest.access_route, is_secure, CommonRequestDescriptorsMixin.max_forwards"]}
{"id": "C84", "title": "The data of a request is read once and kept", "statement": "get_data() gives exactly as many bytes as announced, from the beginning of what the client sent; once kept, every later call gives the same bytes and the input is not touched again; without a Content-Length nothing is read; a shallow request never reads.", "quantifier": "every sequence of calls, every content and behaviour of the input", "why_tests_cant": "All interleavings of calls and all partial reads.", "anchors": ["verktyg/requests.py: BaseRequest.get_data, stream", "verktyg/wsgi.py: get_input_stream"]}
{"id": "C85", "title": "The address of a request leads back to it", "statement": "request.url, taken apart again, names the scheme, host, path and query of the request; base_url, url_root and host_url are its documented parts.", "quantifier": "every environ over http or https with a host that needs no translation", "why_tests_cant": "All paths and queries, with all reserved characters.", "anchors": ["verktyg/wsgi.py: get_current_url", "verktyg/requests.py: BaseRequest.url, base_url, url_root, host_url"]}
{"id": "C86", "title": "A multipart body contains exactly the files put into it", "statement": "A receiver who reads the body that stream_encode_multipart() makes finds exactly the files given, in order, with their keys, names, types and contents; it does not matter whether the body is kept in memory or in a temporary file; form values are sent like files.", "quantifier": "every list of keys with values, every content that does not contain the boundary, every threshold", "why_tests_cant": "All contents and sizes and all combinations of keys, names and types.", "anchors": ["verktyg/test.py: stream_encode_multipart, encode_multipart"]}
{"id": "C87", "title": "An environ builder never mixes exclusive settings", "statement": "However a builder is used, it never has an input stream together with a form or files, nor a query string together with arguments; what was set last counts; asking for the form, files or arguments raises AttributeError exactly when the other setting is present.", "quantifier": "every sequence of settings and questions", "why_tests_cant": "All histories, of any length.", "anchors": ["verktyg/test.py: EnvironBuilder.form, files, input_stream, query_string, args"]}
{"id": "C88", "title": "The environ made for a test is the request asked for", "statement": "create_environ() makes the environ of a request with the method, scheme, host, script root, path, query, headers and data asked for, as the application and the Request object read them.", "quantifier": "every path, query, base URL, header and data", "why_tests_cant": "All texts, ports, escapes and combinations of arguments.", "anchors": ["verktyg/test.py: EnvironBuilder.__init__, get_environ, create_environ"]}
{"id": "C89", "title": "run_wsgi_app returns everything the application sends", "statement": "run_wsgi_app() returns the status and headers passed to start_response and every chunk sent, by write() or by iteration, in order, and closes the result once.", "quantifier": "every application, starting at once or late, failing or not", "why_tests_cant": "All orders of start_response, write and chunks.", "anchors": ["verktyg/test.py: run_wsgi_app"]}
{"id": "C90", "title": "Following redirects ends and stays on the server", "statement": "Client.open() with follow_redirects never visits the same address with the same code twice, ends when the application has finitely many addresses to send to, returns a response that is no redirect, requests exactly the addresses the redirects named and never another server.", "quantifier": "every application, whatever it answers to each request", "why_tests_cant": "All applications and all chains of redirects.", "anchors": ["verktyg/test.py: Client.open, Client.resolve_redirect"]}
{"id": "C91", "title": "If-Range is read as the date or the tag it carries", "statement": "parse_if_range_header() reads a header that carries an HTTP date as this date and one that carries an entity tag as this tag, never both, never fails, and reads what IfRange.to_header() writes.", "quantifier": "every header, every date, every tag", "why_tests_cant": "All dates in all formats, and all tags, among them tags that look like dates.", "anchors": ["verktyg/http/cache_control.py: IfRange, parse_if_range_header"]}
{"id": "C92", "title": "set_cookie and delete_cookie add exactly the cookie asked for", "statement": "set_cookie() adds one Set-Cookie header of one line and leaves all others; the line has the name, the value and exactly the attributes asked for, with the moment of expiry, the seconds, the path and the domain given; delete_cookie() sends an empty cookie that has expired.", "quantifier": "every response, name, value and combination of attributes", "why_tests_cant": "All texts, dates and combinations of attributes.", "anchors": ["verktyg/responses.py: BaseResponse.set_cookie, BaseResponse.delete_cookie"]}
{"id": "C93", "title": "The entity tag set on a response is the one read and matched", "statement": "get_etag() returns what set_etag() set; a tag that cannot be written is refused and nothing changes; add_etag() leaves a tag alone unless told otherwise; a client that sends the tag back is answered 304.", "quantifier": "every response, every tag, every body", "why_tests_cant": "All tags and all headers already there.", "anchors": ["verktyg/responses.py: ETagResponseMixin.add_etag, set_etag, get_etag, make_conditional"]}
{"id": "C94", "title": "Set-valued response headers mirror the set", "statement": "Whatever calls are made on the set returned by Response.vary, content_language or allow, the header always lists exactly the names in the set, is absent if there are none, and no other header changes; assigning names does the same.", "quantifier": "every header line and every sequence of calls on the set", "why_tests_cant": "All histories of calls, of any length.", "anchors": ["verktyg/responses.py: CommonResponseDescriptorsMixin._set_property", "verktyg/http/basic.py: HeaderSet"]}
{"id": "C95", "title": "Content-Range mirrors its object", "statement": "Every change of the object Response.content_range returns is in the header: it is the text of the range, which reads back as the range, and absent if there are no units; set() takes exactly the valid ranges and changes nothing otherwise.", "quantifier": "every range object, every header and every change", "why_tests_cant": "All numbers and all orders of changes.", "anchors": ["verktyg/responses.py: _get_content_range, _set_content_range", "verktyg/http/cache_control.py: ContentRange"]}
{"id": "C96", "title": "mimetype and mimetype_params mirror Content-Type", "statement": "Assigning a mimetype and reading it gives it back; every change of the dict of parameters is in Content-Type, keeps the mimetype and no other parameter, and reads back as the dict.", "quantifier": "every mimetype, every header and every operation on the dict", "why_tests_cant": "All texts, with quotes and separators in them.", "anchors": ["verktyg/responses.py: _get_mimetype, _set_mimetype, _get_mimetype_params"]}
{"id": "C97", "title": "WWW-Authenticate mirrors the challenge", "statement": "Every change of the challenge Response.www_authenticate returns, by attribute, set_basic, set_digest, dict method or the sets qop and domain, is in the header: reading it gives the same fields; it is absent if there are none, and no other header changes.", "quantifier": "every challenge, every header and every operation", "why_tests_cant": "All fields, values and operations.", "anchors": ["verktyg/responses.py: WWWAuthenticateMixin.www_authenticate", "verktyg/http/auth.py: WWWAuthenticate"]}
{"id": "C98", "title": "Arguments of converters are read as they were written", "statement": "parse_converter_args() reads arguments separated by a comma and a space, with or without names, as exactly the values written: None, True, False, decimal numbers, words and strings in quotation marks, whatever these contain; values without a name keep their order, and of a name given twice the last value counts.", "quantifier": "every list of arguments, of any length, with all texts", "why_tests_cant": "All texts in quotation marks and all combinations of names and values; the reader is a regular expression with many alternatives.", "anchors": ["verktyg/routing.py: _converter_args_re, _pythonize, parse_converter_args"]}
{"id": "C99", "title": "A converter in a route accepts what its arguments say", "statement": "The int converter with fixed_digits, min and max accepts exactly the numerals within the bounds and of that length; the string converter with minlength, maxlength and length exactly the texts without a slash of such a length; the any converter exactly its items; unknown converters and arguments are refused.", "quantifier": "every combination of arguments and every text", "why_tests_cant": "All numbers, items and texts.", "anchors": ["verktyg/routing.py: UnicodeConverter, AnyConverter, IntegerConverter, Route.get_converter"]}
{"id": "C100", "title": "An application answers every request by its routes, bindings and handlers", "statement": "For an application built by ApplicationBuilder, every request that can be read is answered by the action of a binding for the endpoint of the best matching route and for the method, called with the values of the route, or else the reason (no route, a redirect, nothing bound, wrong method, not acceptable, an exception of the action) reaches the right exception handler; a missing slash is answered by 301 to the same path with a slash below the application's root; no answer depends on what was asked before.", "quantifier": "every sequence of builder calls, every request, every sequence of requests and url_for calls", "why_tests_cant": "All combinations of routes, bindings, handlers and requests, and all histories of the application.", "anchors": ["verktyg/application.py: BaseApplication.__init__, _get_response, _default_redirect_handler, url_for", "verktyg/routing.py: MapAdapter.match", "verktyg/dispatch.py: Dispatcher.lookup"]}
{"id": "C101", "title": "The builder collects what it is told and can be called again", "statement": "After any sequence of calls on an ApplicationBuilder its routes, bindings and handlers are exactly those that the calls added, in order; every function decorated by expose is bound to its endpoint for each method, together with its route; calling the builder makes an application of exactly these, any number of times.", "quantifier": "every sequence of calls on a builder", "why_tests_cant": "All histories of calls, with failing calls, reused decorators and several builds.", "anchors": ["verktyg/application.py: ApplicationBuilder", "verktyg/views.py: expose, View", "verktyg/routing.py: Route.bind"]}
{"id": "C102", "title": "An Accept object can be written as a header and asked about values", "statement": "Writing an Accept object as a header and reading that header gives an equal object, for each of the three headers; a value is in the object exactly when one of its ranges admits it, and looking it up gives the acceptability found by such a range or a KeyError; a match is called exact exactly when the range is the value itself.", "quantifier": "every readable header, every object built of any number of ranges, every value", "why_tests_cant": "All headers with all white space, parameters and qualities.", "anchors": ["verktyg/accept/_base.py: Range.to_header, Accept.to_header, Accept.__contains__, Accept.__getitem__, Value.to_header", "verktyg/accept/content_type.py: ContentType.to_header, exact_match"]}
{"id": "C103", "title": "The headers of a request are shown as the objects they were written from", "statement": "A header written from cookies, entity tags, a date, an If-Range value, ranges, cache directives, credentials, a media type with parameters, a number or a list of names is shown by the request attribute for it as the same cookies, tags, date and so on; an absent header is shown as none or as an empty object; headers are found under their name in any capitals.", "quantifier": "every environ and every object that can be written", "why_tests_cant": "All texts, dates, tags and numbers, and all other contents of the environ.", "anchors": ["verktyg/requests.py: BaseRequest.cookies, ETagRequestMixin, AuthorizationMixin, CommonRequestDescriptorsMixin", "verktyg/datastructures.py: EnvironHeaders"]}
{"id": "C104", "title": "Request attributes do not depend on the order of reading, and closing calls everything", "statement": "However often and in whatever order attributes are read, each shows what a new request object would show; once read, an attribute that is kept stays the same even if the environ changes, and the others show the environ of now; close() closes the files and calls the registered functions, each once, in order.", "quantifier": "every environ, every sequence of readings and changes, every set of files and functions", "why_tests_cant": "All histories of any length.", "anchors": ["verktyg/requests.py: BaseRequest, close, call_on_close", "verktyg/utils.py: cached_property"]}
{"id": "C105", "title": "Headers objects, their copies, slices and lists are independent", "statement": "Whatever is done, a call on one Headers object changes no other object and no list: copies, slices, lists passed to the constructor and lists taken out share nothing; a copy has the same lines; slices are read, deleted and assigned as the slice says, for every start, stop and step, and nothing changes if a value is refused; two objects are equal exactly if they have the same lines.", "quantifier": "every history of any number of objects and lists, every slice", "why_tests_cant": "All histories, and all combinations of starts, stops, steps and lengths.", "anchors": ["verktyg/http/basic.py: Headers.__init__, __getitem__, __setitem__, __delitem__, copy, to_wsgi_list, extend, __eq__"]}
{"id": "C106", "title": "Uploaded files are saved and shown as they were sent", "statement": "save() writes exactly the unread content of the file, to a path, which is then closed whatever happens, or behind what a file of the caller holds, which stays open; a failing write leaves a beginning and its exception comes out; iterating yields the lines; the attributes show what the file was made with, and the file name is that given or that of the stream unless it is a name in angle brackets.", "quantifier": "every content, position, buffer size, pattern of failing writes and set of arguments", "why_tests_cant": "All contents, block sizes and failures.", "anchors": ["verktyg/http/basic.py: FileStorage"]}
{"id": "C107", "title": "A response made from its arguments or from an application says the same", "statement": "A new response has the type, headers, status and data it was given, or the defaults of its class; one made from an application by from_app or force_type has the application's status line, headers (a missing type is added), chunks and failure, and closes its result; a response served and made into a response again says the same; freezing makes the body a list of bytes, announces its length and adds an entity tag.", "quantifier": "every class, every combination of arguments, every application that behaves, every body", "why_tests_cant": "All arguments, and all orders in which applications start, write, yield and fail.", "anchors": ["verktyg/responses.py: BaseResponse.__init__, force_type, from_app, __call__, freeze, ETagResponseMixin.freeze, Response"]}
{"id": "C108", "title": "What is written to a response's stream is appended to its body until it is closed", "statement": "All that is written by write and writelines before the stream is closed is sent after the body, in order; the announced length disappears with the first write and nothing else changes; after closing every write, flush and isatty is refused and changes nothing.", "quantifier": "every history of calls on the stream and every body", "why_tests_cant": "All histories of any length, over lists and iterators.", "anchors": ["verktyg/responses.py: ResponseStream, ResponseStreamMixin"]}
{"id": "C109", "title": "A JSON view answers with the JSON of what its action returns", "statement": "A JSON view whose action returns a value of texts, numbers, booleans, None, lists and dictionaries answers 200 with type application/json, the right length, and a text from which a JSON reader gets the value back (keys as texts), laid out for reading or compactly; None gives 204 with no body; a response and an exception pass unchanged; exactly the values with something else inside are refused, with a TypeError.", "quantifier": "every value of any depth, with and without debugging", "why_tests_cant": "All nested values and all texts.", "anchors": ["verktyg/views.py: JsonView.__call__"]}
{"id": "C110", "title": "Multi dicts, their copies and the caller's lists are independent", "statement": "A call on one multi dict changes no other multi dict and no list of the caller; lists passed in are copied, and lists got out are copies except those of setlistdefault and listvalues, which are the lists of their key; copies, deep copies and pickles read back are new objects with the same content in the same order.", "quantifier": "every history of any number of objects and lists", "why_tests_cant": "All histories with aliasing.", "anchors": ["verktyg/datastructures.py: MultiDict.__init__, copy, deepcopy, __getstate__, __setstate__, setlist, setlistdefault, listvalues, poplist", "verktyg/datastructures.py: OrderedMultiDict.__reduce_ex__, __setstate__", "verktyg/datastructures.py: CombinedMultiDict"]}
{"id": "C111", "title": "A set of entity tags answers for exactly the tags that were put in", "statement": "Membership, iteration, as_set and calling agree on which strong and weak tags a set holds; a star holds every tag; a written tag is matched by the strong tags, and by the weak ones only if it is weak; the set is true exactly if it holds something; its text, read back, is the same set.", "quantifier": "every set of tags, in every order of iteration", "why_tests_cant": "All sets and all texts.", "anchors": ["verktyg/http/cache_control.py: ETags", "verktyg/http/cache_control.py: parse_etags"]}
{"id": "C112", "title": "The test client sends the cookies it was given", "statement": "Along all redirects each request of a client with a cookie jar carries the cookies the jar holds at that moment, and the Set-Cookie headers of each response go into it in order; cookies do not change which requests are made; set_cookie gives the jar the header a server would send; after any sequence of set_cookie and delete_cookie for a server and path the application reads exactly the cookies set and not deleted since; get, post and so on enforce their method.", "quantifier": "every application, every cookie library, every chain of redirects, every history of cookies, names and values", "why_tests_cant": "All histories and values, all applications that answer differently each time.", "anchors": ["verktyg/test.py: _TestCookieJar, _TestCookieHeaders, Client.run_wsgi_app, set_cookie, delete_cookie, open, get, post", "verktyg/http/cookies.py: dump_cookie, parse_cookie"]}
{"id": "C113", "title": "Immutable containers keep their hash, and their pickles and copies say the same", "statement": "The hash of an immutable container is that of its content every time it is asked for; what is read back from a pickle has the same content in the same order, compares equal and hashes equally; nothing done to copies, deep copies or lists passed in or got out changes an immutable multi dict; fromkeys gives each key once with the value.", "quantifier": "every content, every history of calls and of objects around it", "why_tests_cant": "All contents and histories, including aliasing.", "anchors": ["verktyg/datastructures.py: ImmutableListMixin.__hash__, __reduce_ex__", "verktyg/datastructures.py: ImmutableDictMixin.fromkeys, __reduce_ex__, __hash__", "verktyg/datastructures.py: ImmutableMultiDictMixin.__reduce_ex__", "verktyg/http/auth.py: Authorization"]}
{"id": "C114", "title": "Acceptabilities say how a range matched and can be ordered", "statement": "The attributes of the result of matching an offer with a range say which parts of the range were those of the offer, how many parts it named and whether the match was exact; of two acceptabilities exactly one of less, equal and greater holds, less is the converse of greater, and greater is transitive.", "quantifier": "every offer, range and pair of acceptabilities", "why_tests_cant": "All texts and all qualities.", "anchors": ["verktyg/accept/_base.py: Acceptability", "verktyg/accept/content_type.py: ContentTypeAcceptability", "verktyg/accept/language.py: LanguageAcceptability", "verktyg/accept/charset.py: CharsetAcceptability"]}
{"id": "C115", "title": "Form fields and files given to the test client arrive", "statement": "Fields of a test request given as texts or bytes arrive as a urlencoded body whose pieces mean their names and values in order; files arrive as the parts of a multipart body with their names, types and contents; the announced type, boundary and length are those of the body, the application reads exactly this body, and such data is never refused.", "quantifier": "every list of fields or files, every name, value, boundary and argument of the request", "why_tests_cant": "All texts, bytes and files.", "anchors": ["verktyg/test.py: EnvironBuilder.__init__, content_type, form, files, get_environ", "verktyg/test.py: FileMultiDict.add_file, stream_encode_multipart"]}
{"id": "C116", "title": "A route with redirect_to sends the client to that text", "statement": "A matched route with a redirect_to text answers with a redirect to the text, every placeholder replaced by the value as its converter writes it, resolved against the root of the application on its own host: dot segments are resolved, a leading slash means the top of the host, a URL stays as it is; a redirect_to function is called with the values; a placeholder without a variable or value is a KeyError.", "quantifier": "every map, adapter, route, values, text with any number of placeholders; paths of any depth whose dot segments stay below the top", "why_tests_cant": "All texts, values and depths.", "anchors": ["verktyg/routing.py:1367-1385 MapAdapter.match (redirect_to)", "verktyg/routing.py:120 _simple_route_re", "urllib.parse.urljoin"]}
{"id": "C117", "title": "An adapter bound to an environ stands for the host that was asked", "statement": "bind_to_environ takes the host from the Host header or from the server name and port; with a server name given, the subdomain is what stands before it in the host, whatever the case, and the URLs of the adapter are for the host that was asked; a request for a host that is not below the server name finds no route; matching without arguments matches the path of the environ, and its query is carried along.", "quantifier": "every map, environ, host of any number of labels, server name", "why_tests_cant": "All hosts, all routes.", "anchors": ["verktyg/routing.py:1158-1235 URLMap.bind_to_environ", "verktyg/routing.py:1111-1156 URLMap.bind", "verktyg/routing.py:1257-1270 MapAdapter.__init__"]}
{"id": "C118", "title": "What a route builds is its text with the values, and a query with the rest", "statement": "Route.build writes the static text of domain and path percent-encoded and every variable as its converter writes the value; values for which the route has neither a variable nor a default become a query in the order of their names, which a request reads back; the first variable without a value is a KeyError, the first value its converter refuses makes the route give up.", "quantifier": "every route, every dict of values", "why_tests_cant": "All routes, values and names.", "anchors": ["verktyg/routing.py:680-714 Route.build"]}
{"id": "C119", "title": "Which of several readings of a path a route takes", "statement": "If a path can be read in several ways as an instance of a route whose converters are built in, Route.match takes exactly one of them: going through the variables from left to right, string, int, float and uuid take the longest text that still lets the rest of the path match, path the shortest, any the item listed first. That reading alone decides the answer: the request for a missing slash, the converted values, or no match if a converter refuses its text; other readings are not tried.", "quantifier": "For all routes of built-in converters (any number of variables), all paths and all ways of reading them.", "why_tests_cant": "The number of readings grows with the length of the path and the number of variables; a test shows one path.", "anchors": ["verktyg/routing.py:592-680 Route.compile, match", "verktyg/routing.py:820-984 converters"]}
{"id": "C120", "title": "Dispatchers take what others hold at the moment, whatever the order of sets", "statement": "Adding bindings, views, class views and other dispatchers to a dispatcher makes it hold, behind what it held, the bindings that each of them gives at that moment (a view: one for each method asked for, GET if none was named; a class view: one for each of GET, HEAD, POST, PUT, DELETE it has; a dispatcher: what it holds) and changes no other dispatcher; after any calls every dispatcher answers by the bindings it holds; no answer depends on the order in which sets yield their elements.", "quantifier": "every number of dispatchers, every history of constructors and add_bindings between them, every order of sets, every lookup", "why_tests_cant": "The order of a set of strings changes with each process; the sharing between nested dispatchers shows only in long histories.", "anchors": ["verktyg/dispatch.py:12-101 Binding, Dispatcher", "verktyg/views.py:34-82, 100-111 View, ClassView, JsonView, expose"]}
{"id": "C121", "title": "IRIs and URIs are converted part by part", "statement": "iri_to_uri of a URL with a network location lowers scheme and host, encodes the labels of a host that is not ASCII, escapes in user name, password, path, query and fragment every character that is neither unreserved nor listed for that part by the upper case escapes of its UTF-8 bytes, and keeps the port and the brackets of an IPv6 address; uri_to_iri undoes the escapes but those listed for the part and decodes the labels of an ASCII host; going there and back gives the IRI again, with scheme and host lowered, unless it has characters that only one of the two lists names; url_fix does what iri_to_uri does with its own lists, writes spaces in query and fragment as plus signs, reads backslashes as slashes and a drive letter after file:// as part of the path. A URI and its IRI name the same host (refuted: an escaped at sign in the user name becomes a bare one).", "quantifier": "every scheme, user name, password, host (also IPv6), port, path, query and fragment; every IDNA codec", "why_tests_cant": "All texts, all combinations of parts and all codecs.", "anchors": ["verktyg/urls.py:105-170 uri_to_iri", "verktyg/urls.py:173-204 _encode_netloc", "verktyg/urls.py:207-244 iri_to_uri", "verktyg/urls.py:247-290 url_fix"]}
{"id": "C122", "title": "An application has the mixins, converters and configuration its builder had when it was called", "statement": "Calling an ApplicationBuilder makes a new application class and a new request class whose bases are the base class followed by the mixins, each once, in the order in which they were first added, whatever else was called in between. The order in which Python searches the classes starts with the base class, keeps the order of the mixins and of the classes that each of them is made of, and contains each class once; building fails with TypeError exactly if there is no such order. An attribute is that of the first class in the order that has it, so that what the base class itself has no mixin can change. Mixins that derive from nothing but object can always be added. A converter is the one last added under its name, or else the map's own, and the configuration is what was last set.", "quantifier": "for all worlds of classes that programs can make, all base classes, all sequences of calls of the builder of any length, all names of attributes, converters and settings", "why_tests_cant": "Tests add one or two mixins that derive from object; that a class made of mixins exists, and in which order it is searched, depends on the whole history of calls and on everything the mixins derive from", "anchors": ["verktyg/application.py:109-154", "verktyg/application.py:214-230", "verktyg/application.py:34", "verktyg/routing.py:1053-1055"]}
{"id": "C123", "title": "An environ builder can be used more than once", "statement": "A builder that is closed closes the files it was given, once, whatever closing them raises, and never closes anything again. Asked several times for its environ it gives the same body and the same length each time, as long as nobody touched what it was given; an input stream is sent from the place it stands at and keeps that place. base_url reads back the address that was set, with one slash at the end; an address with a query is refused and changes nothing.", "quantifier": "every builder, every history of settings, files, closings and requests, every state of the caller's files (position, closed, failing to close)", "why_tests_cant": "the tests build one environ per builder and close it without looking at the files; second files of a key, failing files and repeated use do not occur", "anchors": ["verktyg/test.py:EnvironBuilder.close", "verktyg/test.py:EnvironBuilder.get_environ", "verktyg/test.py:EnvironBuilder._get_base_url", "verktyg/test.py:EnvironBuilder._set_base_url"]}
{"id": "C124", "title": "What the shared data middleware sends for a file is the file, or the word that it is unchanged", "statement": "A request that finds no file, or one whose base name the rule forbids, is passed on and nothing is opened. Otherwise the one file found is opened and either all its bytes are sent with status 200, its type, length, time of change and the current date, or status 304 is sent without a body and the file is closed. With caching on, the answer to GET and HEAD is 304 exactly if If-None-Match lists the file's tag or a star, or, without tags, if the file was not changed after the second If-Modified-Since names; a client that sends back the tag or the date it was given is told that the file is unchanged; the old tag of a file whose second of change or size is another brings the new bytes. The tag is made of the seconds, the size and the checksum of the name and tells these apart. Other methods are not answered as if they were conditional, the length announced is that of the body, a list of rules is accepted, and without caching no caching header is sent (refuted).", "quantifier": "every file (bytes, time, size, on disk or in a package), every setting, every clock, every tag list and date, every method, every path and every set of exports", "why_tests_cant": "All times, tags, dates and methods; tests ask once with GET and never send back what they were given.", "anchors": ["verktyg/wsgi.py:380-417 SharedDataMiddleware.__init__", "verktyg/wsgi.py:459-466 generate_etag", "verktyg/wsgi.py:468-520 __call__"]}
{"id": "C125", "title": "The Location header that is sent is an absolute URL of the request's own server", "statement": "A response that has a Location header is sent with the URL to which that location leads, seen from the root of the application in the request: a relative location is resolved against scheme, host and script name, a location beginning with one slash against the host, a full URL stays. Everything that may not stand in a URL is percent-encoded. With autocorrect_location_header off the location is only encoded. Content-Location is only encoded, in either case.", "quantifier": "all environs of ordinary requests, all script names, all locations that are references or full URLs, all responses", "why_tests_cant": "locations, script names and hosts are unbounded texts and each of the three conversions (URL of the request, URI of the location, joining) has its own escaping rules", "anchors": ["verktyg/responses.py:496-573", "verktyg/wsgi.py:46-103", "verktyg/urls.py:207-244"]}
{"id": "C126", "title": "An Authorization does not change through the qop set it hands out", "statement": "Authorization.qop gives the words of the qop field of the header, in their order. Whatever is called on that set, the authorization stays as it was read, and asked again it gives the words of the header. A call that changes the words of the set is refused with TypeError and leaves the set as it was; adding a word that is already there is not refused.", "quantifier": "all authorizations, all histories of calls on the set handed out", "why_tests_cant": "histories of calls are unbounded and the set, its callback and the immutable dict behind it each decide whether a call is refused", "anchors": ["verktyg/http/auth.py:19-73", "verktyg/http/basic.py:958-1101", "verktyg/datastructures.py:137-156"]}
{"id": "C127", "title": "A CombinedMultiDict shows its dicts as they are and compares by what it shows", "statement": "A CombinedMultiDict made from a list of dicts goes through the dicts that the list holds when it is asked, as they are then. A copy keeps the dicts that the original had, whatever happens to the list of the original. CombinedMultiDicts and multi dicts that show the same values under every key compare equal, others do not; those that show the same pairs hash equally, and those that compare equal hash equally.", "quantifier": "all stores of dicts, lists and objects, all histories of making, copying, hashing and changing them", "why_tests_cant": "histories and aliasing are unbounded; which objects share a list depends on the whole history", "anchors": ["verktyg/datastructures.py:809-941", "verktyg/datastructures.py:131-135", "verktyg/datastructures.py:655-678"]}
{"id": "C128", "title": "append_slash_redirect leads to the URL of the request with a slash after the path", "statement": "The response that append_slash_redirect makes for a request whose path does not end with a slash is sent with one Location header: the URL of that request (scheme, host, root of the application, path as it was asked for, query) with a slash after the path. It has the status that was asked for.", "quantifier": "all ordinary requests, all paths without a final slash, all queries, all status codes", "why_tests_cant": "paths, script names and queries are unbounded texts that go through decoding by the server, two conversions to URIs and a join", "anchors": ["verktyg/utils.py:185-235", "verktyg/responses.py:496-573", "verktyg/urls.py:207-244"]}
{"id": "C129", "title": "Every HTTP error has a text that tells its code, and wrapping an exception keeps it", "statement": "str of an HTTP error is its code, a colon and the name of the status whose capitals stand in the status line, or Unknown Error; repr is the name of the class with this text. Errors of different codes have different texts, errors with the same repr have classes of one name and code. A class made by wrap has the text of the HTTP error and is caught wherever either of its two bases would be.", "quantifier": "all classes of HTTP errors with any integer code, all exceptions wrapped, all names", "why_tests_cant": "codes are unbounded integers and classes are made by applications, so the texts cannot be listed", "anchors": ["verktyg/exceptions.py:63-156"]}
{"id": "C130", "title": "is_resource_modified compares the datetime of the application with the date of the client", "statement": "Given the datetime of the last modification, naive or aware and with any microseconds, or a text for it, is_resource_modified reports a GET or HEAD request without tags as unmodified exactly if the resource was modified at or before the second that If-Modified-Since names; in particular for the date the application had sent. A list of tags decides alone. No call fails.", "quantifier": "all datetimes, all microseconds, all offsets from UTC, all dates in the formats of HTTP, all tags and lists of tags", "why_tests_cant": "the date goes through writing and reading with a calendar of ten thousand years, and the comparison depends on the kind of the datetime", "anchors": ["verktyg/http/cache_control.py:583-623", "verktyg/http/basic.py:694-762"]}
{"id": "C131", "title": "A call of the test client sends the request asked for and wraps its answer once", "statement": "Client.open() sends the environ of a builder or the dict it is given alone, and otherwise the request built of all arguments except as_tuple, buffered and follow_redirects; it returns the last answer, wrapped exactly once, with its environ if asked for. The response wrapper is the same afterwards, also if the call fails. get(), post() and the others do what open() does, with their method.", "quantifier": "all applications, builders, arguments, wrappers and chains of redirects", "why_tests_cant": "redirected requests are nested calls that take the wrapper away and set it again, also when they fail, for chains of any length", "anchors": ["verktyg/test.py:709-858"]}
{"id": "C132", "title": "The repr of a response or request tells what it is and uses nothing up", "statement": "repr() of a response gives its status line and, for a sequence body, the number of bytes that are sent for it; for an iterator it says that it is streamed. It takes nothing from the body and never fails. repr() of a request gives address and method, or says that the environ is not valid.", "quantifier": "all responses, bodies, status lines; all requests, valid or not", "why_tests_cant": "the number has to be that of the bytes of texts of any characters, which is not their length", "anchors": ["verktyg/responses.py:208-217", "verktyg/requests.py:157-171"]}
