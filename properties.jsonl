{"id": "C01", "title": "HTTP date round trip", "statement": "Writing an instant into a date header (Date, Expires, Last-Modified, If-Modified-Since, If-Unmodified-Since, Retry-After) and parsing that header text back yields the same instant truncated to whole seconds.", "quantifier": "every instant from the Unix epoch up to the last second of year 9999", "why_tests_cant": "About 2.5e11 seconds; calendar bugs hide at isolated instants (leap centuries, year ends).", "anchors": ["src/utils/date.rs: fmt_http_date, parse_http_date, HttpDate", "src/cache/expires.rs", "src/other/date.rs", "src/conditional/last_modified.rs"]}
{"id": "C02", "title": "Formatted date is the true Gregorian date", "statement": "The text produced for an instant is the IMF-fixdate of the proleptic Gregorian UTC calendar: the right weekday, day, month, year, hour, minute, second; i.e. it agrees with counting days one by one from Thursday 1 January 1970.", "quantifier": "every instant from the epoch to the end of year 9999", "why_tests_cant": "2.9 million days; tests check a handful.", "anchors": ["src/utils/date.rs: impl From<SystemTime> for HttpDate, impl Display for HttpDate"]}
{"id": "C03", "title": "The three date syntaxes agree", "statement": "The IMF-fixdate, RFC 850 and asctime spellings of the same instant all parse to that instant.", "quantifier": "every instant to year 9999 (1970-2069 for the two-digit-year RFC 850 form)", "why_tests_cant": "Unbounded-looking domain, three parsers.", "anchors": ["src/utils/date.rs: parse_imf_fixdate, parse_rfc850_date, parse_asctime"]}
{"id": "C04", "title": "Date parsing is total and errors are 400", "statement": "Parsing any text as an HTTP date never panics; it either returns an instant between 1970 and the first days of year 10000, or an error with status 400.", "quantifier": "every string", "why_tests_cant": "Slicing and arithmetic panics depend on lengths and contents of arbitrary strings.", "anchors": ["src/utils/date.rs: parse_http_date, is_valid, impl From<HttpDate> for SystemTime"]}
{"id": "C05", "title": "Date parsing accepts only real dates", "statement": "A date text that parses denotes an existing calendar day whose weekday matches, and its numerals are plain digits.", "quantifier": "every string accepted by the date parser", "why_tests_cant": "The set of accepted strings is infinite-like; tests list a few rejects.", "anchors": ["src/utils/date.rs: is_valid, parse_imf_fixdate, parse_rfc850_date, parse_asctime"]}
{"id": "C06", "title": "Date formatting fails only outside 1970-9999", "statement": "Formatting an instant panics exactly when it is before the epoch or not before year 10000.", "quantifier": "every instant, including sub-second parts and pre-epoch instants", "why_tests_cant": "Infinite domain.", "anchors": ["src/utils/date.rs: impl From<SystemTime> for HttpDate"]}
{"id": "C07", "title": "Method names", "statement": "Parsing a method name is case-insensitive, accepts exactly the registered names, and is inverse to printing: a string parses to method m iff its ASCII upper-casing is the printed name of m; distinct methods have distinct names.", "quantifier": "every string and every method", "why_tests_cant": "Infinite set of strings.", "anchors": ["src/method.rs: impl FromStr for Method, impl AsRef<str> for Method"]}
{"id": "C08", "title": "Method safety classification", "statement": "A method is reported safe iff it is registered as safe by IANA (GET, HEAD, OPTIONS, PRI, PROPFIND, REPORT, SEARCH, TRACE).", "quantifier": "every method", "why_tests_cant": "Needs the whole table.", "anchors": ["src/method.rs: Method::is_safe"]}
{"id": "C09", "title": "Status code numbers", "statement": "Converting a number to a status code succeeds iff the number is one of the supported codes, and then converting back returns the same number; converting a code to a number and back returns the code.", "quantifier": "every 16-bit number and every status code", "why_tests_cant": "65536 inputs and 60 variants; tests sample.", "anchors": ["src/status_code.rs: TryFrom<u16>, From<StatusCode> for u16"]}
{"id": "C10", "title": "Status code classes", "statement": "Each status code belongs to exactly one of informational, success, redirection, client error, server error, given by its hundreds digit, and has a non-empty canonical reason.", "quantifier": "every status code", "why_tests_cant": "Whole table.", "anchors": ["src/status_code.rs: is_informational, is_success, is_redirection, is_client_error, is_server_error, canonical_reason"]}
{"id": "C11", "title": "Status code deserialization rejects unsupported numbers", "statement": "Deserializing an integer gives a status code only if that integer is a supported code; serialize then deserialize is the identity.", "quantifier": "every 64-bit integer", "why_tests_cant": "2^64 inputs.", "anchors": ["src/status_code.rs: mod serde StatusCodeU16Visitor"]}
{"id": "C12", "title": "Version names and order", "statement": "Deserialization inverts printing, rejects everything else, and the version order is the protocol order (total, 0.9<1.0<1.1<2<3).", "quantifier": "every string, every pair of versions", "why_tests_cant": "Infinite set of strings.", "anchors": ["src/version.rs"]}
{"id": "C13", "title": "Headers behave as a case-insensitive multimap", "statement": "After any sequence of insert, append, remove and in-place edits, looking up a name returns exactly the values an abstract map from lower-cased names to value lists would hold; names differing only in ASCII case are the same name.", "quantifier": "every history of operations and every name and value", "why_tests_cant": "Unbounded histories.", "anchors": ["src/headers/headers.rs", "src/headers/header_name.rs"]}
{"id": "C14", "title": "A failed header operation changes nothing", "statement": "insert/append with a value that does not convert leaves the header map as it was.", "quantifier": "every header map, name and value", "why_tests_cant": "All states.", "anchors": ["src/headers/headers.rs: insert, append"]}
{"id": "C15", "title": "Header text is ASCII and names are lower case", "statement": "Every name and value reachable through the checked constructors is ASCII and every stored name is lower case, after any history.", "quantifier": "every history of operations", "why_tests_cant": "Unbounded histories.", "anchors": ["src/headers/header_name.rs", "src/headers/header_value.rs", "src/headers/headers.rs"]}
{"id": "C16", "title": "A present header has at least one value", "statement": "If looking up a header succeeds, its first and last values exist (last(), as_str() and the typed header parsers do not panic on it).", "quantifier": "every history of operations", "why_tests_cant": "Unbounded histories.", "anchors": ["src/headers/header_values.rs: last, Deref, append", "src/headers/headers.rs: insert"]}
{"id": "C17", "title": "Iteration visits every value exactly once", "statement": "Iterating the values of a header map yields every stored value exactly once, whatever the hash order, and the iterator's size_hint bounds the number of remaining items.", "quantifier": "every header map, every hash order", "why_tests_cant": "All states and orders.", "anchors": ["src/headers/values.rs: next, size_hint", "src/headers/headers.rs: values"]}
{"id": "C18", "title": "Header name equality", "statement": "A header name equals a string iff the string is ASCII and they are equal ignoring ASCII case.", "quantifier": "every name and string", "why_tests_cant": "Infinite.", "anchors": ["src/headers/header_name.rs: PartialEq<str>, FromStr"]}
{"id": "C19", "title": "Media type print/parse round trip", "statement": "Printing any media type obtained from the parser and parsing the text again gives the same media type.", "quantifier": "every string accepted by the media type parser", "why_tests_cant": "Infinite inputs with quoting and escapes.", "anchors": ["src/mime/parse.rs: parse, format"]}
{"id": "C20", "title": "Media type parser output is well formed", "statement": "A parsed media type has non-empty lower-case token type and subtype, essence 'type/subtype', and distinct lower-case token parameter names; parsing never panics.", "quantifier": "every string", "why_tests_cant": "Infinite.", "anchors": ["src/mime/parse.rs: parse"]}
{"id": "C21", "title": "Media type parameters", "statement": "Looking a parameter up is case-insensitive in the name and returns the first occurrence in the text; removing it returns the same value and makes it absent while leaving other parameters alone.", "quantifier": "every parsed media type and every ASCII name", "why_tests_cant": "Infinite.", "anchors": ["src/mime/mod.rs: param, remove_param"]}
{"id": "C22", "title": "Media range matching is a preorder", "statement": "A media type matches itself, matching is transitive, everything matches */*, and a type with more parameters matches the one with fewer.", "quantifier": "every pair/triple of parsed media types", "why_tests_cant": "Infinite.", "anchors": ["src/mime/mod.rs: subset_eq"]}
{"id": "C23", "title": "Media type to header value is ASCII", "statement": "The header value made from a media type is valid ASCII header text.", "quantifier": "every media type", "why_tests_cant": "Infinite.", "anchors": ["src/headers/header_value.rs: impl From<Mime> for HeaderValue"]}
{"id": "C24", "title": "Reading a body yields its content", "statement": "For any sequence of read calls with any buffer sizes and any behaviour of the underlying reader (short reads, pending, errors), the bytes delivered are, in order, a prefix of the content, never exceed the declared length, and all of it is delivered by the time end-of-file is reported.", "quantifier": "every reader behaviour, every schedule of buffer sizes", "why_tests_cant": "Unbounded schedules.", "anchors": ["src/body.rs: impl AsyncRead for Body, from_reader, from_bytes"]}
{"id": "C25", "title": "Body length accounting", "statement": "A body's reported length is the declared total and never changes by reading; the number of delivered bytes never exceeds it.", "quantifier": "every schedule of reads", "why_tests_cant": "Unbounded schedules.", "anchors": ["src/body.rs: len, is_empty, poll_read"]}
{"id": "C26", "title": "Chaining bodies concatenates", "statement": "Reading a chain of two partially read bodies yields the rest of the first followed by the rest of the second, and its length is the sum of what remains when both are known and unknown otherwise.", "quantifier": "all bodies, partial reads, schedules", "why_tests_cant": "Unbounded schedules.", "anchors": ["src/body.rs: chain"]}
{"id": "C27", "title": "into_bytes/into_string return exactly the content", "statement": "Collecting a body built from bytes or a string returns those bytes; from_string keeps the media type text/plain utf-8; reading failures surface as 422.", "quantifier": "every content", "why_tests_cant": "Infinite.", "anchors": ["src/body.rs: into_bytes, into_string, from_bytes, from_string"]}
{"id": "C28", "title": "Buffered reading respects the declared length", "statement": "Reading a body through AsyncBufRead delivers the same bytes as reading through AsyncRead.", "quantifier": "every body and schedule", "why_tests_cant": "Unbounded.", "anchors": ["src/body.rs: impl AsyncBufRead for Body"]}
{"id": "C29", "title": "Setting a body sets Content-Type only when absent", "statement": "After set_body, the Content-Type header is unchanged if one was present, otherwise it is the media type of the body if it has one; no other header changes; the old body is returned by replace/take.", "quantifier": "every message state and body", "why_tests_cant": "All states.", "anchors": ["src/request.rs: replace_body, copy_content_type_from_body", "src/response.rs: replace_body"]}
{"id": "C30", "title": "Trailers handed out at most once", "statement": "send_trailers can be obtained at most once per message; a receiver yields exactly the trailers sent, or nothing if the sender is dropped; messages are never duplicated or invented.", "quantifier": "every interleaving of sender, receiver and drops", "why_tests_cant": "Schedules.", "anchors": ["src/request.rs: send_trailers, recv_trailers", "src/trailers.rs: Sender, Receiver", "src/response.rs: send_trailers, send_upgrade, recv_upgrade"]}
{"id": "C31", "title": "Cloning a message", "statement": "A clone has the same method/status, URL, headers and version and an empty body; changing either afterwards does not affect the other; trailers of one are not consumed by the other.", "quantifier": "every message and subsequent history", "why_tests_cant": "All states, histories.", "anchors": ["src/request.rs: impl Clone", "src/response.rs: impl Clone"]}
{"id": "C32", "title": "Request host and remote resolution", "statement": "host() prefers the Forwarded host, then the first X-Forwarded-Host entry, then Host, then the URL; remote() prefers the forwarded for, then the peer address; well-formed Forwarded headers are interpreted the same way as by the Forwarded header parser.", "quantifier": "every request", "why_tests_cant": "Infinite header texts.", "anchors": ["src/request.rs: host, remote, forwarded_header_part, forwarded_for"]}
{"id": "C33", "title": "Extensions behave as a type-indexed map", "statement": "After any history of insert/remove/clear, get of a type returns the last inserted value of that type, insert/remove return the previous one, other types are unaffected.", "quantifier": "every history", "why_tests_cant": "Unbounded histories.", "anchors": ["src/extensions.rs"]}
{"id": "C34", "title": "Errors carry the status they were given", "statement": "Attaching a status to a Result/Option yields exactly that status on failure, leaves successes untouched (without evaluating or validating the status), and the last status attached wins; converting any std error gives 500.", "quantifier": "every result, status, sequence of attachments", "why_tests_cant": "All combinations.", "anchors": ["src/error.rs", "src/status.rs", "src/macros.rs"]}
{"id": "C35", "title": "Forwarded header round trip", "statement": "Building a Forwarded value and parsing its header text gives the same value.", "quantifier": "every Forwarded value built through the setters", "why_tests_cant": "Infinite.", "anchors": ["src/proxies/forwarded.rs: header_value, parse"]}
{"id": "C36", "title": "Forwarded parsing never panics", "statement": "Parsing any Forwarded / X-Forwarded-* header returns a value or a parse error.", "quantifier": "every header text", "why_tests_cant": "Infinite.", "anchors": ["src/proxies/forwarded.rs: parse, parse_forwarded_pair, match_ignore_case, starts_with_ignore_case", "src/parse_utils.rs"]}
{"id": "C37", "title": "Forwarded parsing follows RFC 7239", "statement": "The for values are those of the header in order, and by/host/proto are the given ones; a repeated parameter is an error; X-Forwarded-* headers are used only when Forwarded is absent, and by at most one kind.", "quantifier": "every header text of the RFC 7239 grammar", "why_tests_cant": "Infinite.", "anchors": ["src/proxies/forwarded.rs: from_headers, from_x_headers, parse_for"]}
{"id": "C38", "title": "Token and quoted-string parsing", "statement": "A token is the longest run of tchar; a quoted string is decoded by removing the quotes and backslashes per RFC 7230, accepting exactly the RFC grammar, and never splits a character.", "quantifier": "every string", "why_tests_cant": "Infinite.", "anchors": ["src/parse_utils.rs: parse_token, parse_quoted_string, tchar, vchar"]}
{"id": "C39", "title": "ETag round trip", "statement": "Formatting an ETag and parsing it gives the same ETag with the same strength; parsing accepts exactly the RFC 7232 entity-tag grammar.", "quantifier": "every tag value and every string", "why_tests_cant": "Infinite.", "anchors": ["src/conditional/etag.rs"]}
{"id": "C40", "title": "If-Match / If-None-Match round trip", "statement": "Writing a list of ETags (and wildcard) to the header and reading it back gives the same list and wildcard.", "quantifier": "every list of valid ETags", "why_tests_cant": "Infinite.", "anchors": ["src/conditional/if_match.rs", "src/conditional/if_none_match.rs"]}
{"id": "C41", "title": "Vary round trip", "statement": "Writing a Vary list and reading it back gives the same names in order and the same wildcard.", "quantifier": "every list of header names", "why_tests_cant": "Infinite.", "anchors": ["src/conditional/vary.rs"]}
{"id": "C42", "title": "Cache-Control round trip", "statement": "Writing a list of cache directives and parsing it back gives the same list; unknown directives are skipped; directive names are case-insensitive.", "quantifier": "every list of directives, every header text", "why_tests_cant": "Infinite.", "anchors": ["src/cache/cache_control/cache_control.rs", "src/cache/cache_control/cache_directive.rs"]}
{"id": "C43", "title": "Age round trip", "statement": "Writing an age in whole seconds and reading it back gives the same age.", "quantifier": "every duration of whole seconds", "why_tests_cant": "2^64 values; float conversion.", "anchors": ["src/cache/age.rs"]}
{"id": "C44", "title": "Clear-Site-Data", "statement": "Round trip of every directive list and wildcard; parsing arbitrary header text does not panic.", "quantifier": "every list, every header text", "why_tests_cant": "Infinite.", "anchors": ["src/cache/clear_site_data/mod.rs", "src/cache/clear_site_data/directive.rs"]}
{"id": "C45", "title": "Basic auth round trip", "statement": "Encoding a username and password and decoding the header gives the same pair.", "quantifier": "every username and password", "why_tests_cant": "Infinite.", "anchors": ["src/auth/basic_auth.rs", "src/auth/authorization.rs"]}
{"id": "C46", "title": "Authorization round trip", "statement": "Writing scheme and credentials and reading back gives the same scheme and credentials; scheme names are case-insensitive.", "quantifier": "every scheme and credentials string", "why_tests_cant": "Infinite.", "anchors": ["src/auth/authorization.rs", "src/auth/authentication_scheme.rs"]}
{"id": "C47", "title": "WWW-Authenticate round trip", "statement": "Writing scheme and realm and reading back gives the same scheme and realm.", "quantifier": "every scheme and realm string", "why_tests_cant": "Infinite.", "anchors": ["src/auth/www_authenticate.rs"]}
{"id": "C48", "title": "Weight sort", "statement": "Sorting proposals by weight yields a permutation ordered by decreasing weight, with later declared first among equal weights, unweighted ones last; the result does not depend on the sort algorithm.", "quantifier": "every list of proposals", "why_tests_cant": "All lists.", "anchors": ["src/utils/mod.rs: sort_by_weight"]}
{"id": "C49", "title": "Encoding negotiation picks the best acceptable", "statement": "Accept-Encoding / TE negotiation returns an available coding of maximal weight among those proposed (latest wins ties), falls back to the first available only with a wildcard, otherwise 406.", "quantifier": "every proposal list and every available list", "why_tests_cant": "All lists.", "anchors": ["src/content/accept_encoding.rs: negotiate", "src/transfer/te.rs: negotiate"]}
{"id": "C50", "title": "A coding refused with q=0 is never chosen, and an omitted q means 1", "statement": "Per RFC 7231: weight 0 means not acceptable, missing weight means 1.", "quantifier": "every proposal list", "why_tests_cant": "All lists.", "anchors": ["src/content/accept_encoding.rs: negotiate", "src/content/encoding_proposal.rs"]}
{"id": "C51", "title": "Media type negotiation", "statement": "Accept negotiation returns an available type matching a proposal of maximal weight, else the first available under wildcard, else 406.", "quantifier": "every proposal list and available list", "why_tests_cant": "All lists.", "anchors": ["src/content/accept.rs: negotiate"]}
{"id": "C52", "title": "Weights stay in range and survive printing", "statement": "Every weight in a proposal is between 0 and 1 (NaN, negative and larger are refused); a weight with at most three decimals survives print and parse.", "quantifier": "every f32 weight and every weight text", "why_tests_cant": "2^32 weights, infinite texts.", "anchors": ["src/content/encoding_proposal.rs: new", "src/content/media_type_proposal.rs: new", "src/utils/mod.rs: parse_weight"]}
{"id": "C53", "title": "Accept-Encoding / TE round trip", "statement": "Writing a list of proposals and wildcard and parsing back gives the same list (weights to three decimals).", "quantifier": "every proposal list", "why_tests_cant": "Infinite.", "anchors": ["src/content/accept_encoding.rs: header_value, from_headers", "src/transfer/te.rs"]}
{"id": "C54", "title": "Content-Encoding / Transfer-Encoding parsing does not panic", "statement": "Parsing any header text returns a value or an error, never a panic; a recognised coding is returned.", "quantifier": "every header text", "why_tests_cant": "Infinite.", "anchors": ["src/content/content_encoding.rs: from_headers", "src/transfer/transfer_encoding.rs: from_headers"]}
{"id": "C55", "title": "Content-Length", "statement": "Round trip of every length; every non-number or overflow is a 400 error.", "quantifier": "every u64 and every header text", "why_tests_cant": "2^64.", "anchors": ["src/content/content_length.rs"]}
{"id": "C56", "title": "Content-Type header", "statement": "Round trip of every parsed media type; malformed is 400.", "quantifier": "every media type, every text", "why_tests_cant": "Infinite.", "anchors": ["src/content/content_type.rs"]}
{"id": "C57", "title": "Retry-After", "statement": "Round trip of delays (whole seconds) and dates; anything else is 400.", "quantifier": "every delay, instant, text", "why_tests_cant": "Infinite.", "anchors": ["src/other/retry_after.rs"]}
{"id": "C58", "title": "Expect", "statement": "Only 100-continue is accepted, everything else is 400.", "quantifier": "every text", "why_tests_cant": "Infinite.", "anchors": ["src/other/expect.rs"]}
{"id": "C59", "title": "Allow round trip", "statement": "Writing a set of methods and reading it back gives the same set, whatever the hash order.", "quantifier": "every set of methods, every order", "why_tests_cant": "2^39 sets.", "anchors": ["src/server/allow.rs"]}
{"id": "C60", "title": "HSTS round trip", "statement": "Writing a Strict-Transport-Security policy and reading it back gives the same policy.", "quantifier": "every policy", "why_tests_cant": "Infinite.", "anchors": ["src/security/strict_transport_security.rs"]}
{"id": "C61", "title": "CSP value is independent of hash order and of repeated application", "statement": "The header value is the same for every hash iteration order, contains each directive once with its sources in order, and applying the policy twice sets the same value.", "quantifier": "every sequence of builder calls, every order", "why_tests_cant": "Unbounded.", "anchors": ["src/security/csp.rs"]}
{"id": "C62", "title": "Security header helpers", "statement": "security::default sets the documented headers whatever was there before and leaves others alone; powered_by(None) removes X-Powered-By.", "quantifier": "every header map", "why_tests_cant": "All states.", "anchors": ["src/security/mod.rs"]}
{"id": "C63", "title": "Trace context round trip", "statement": "Formatting a trace context and parsing it keeps version, trace id, flags and yields the id as parent id.", "quantifier": "every context", "why_tests_cant": "2^200 contexts.", "anchors": ["src/trace/trace_context.rs"]}
{"id": "C64", "title": "Trace context parsing is total with 400 errors", "statement": "Parsing any traceparent text returns a context or a 400 error, never a panic.", "quantifier": "every text", "why_tests_cant": "Infinite.", "anchors": ["src/trace/trace_context.rs: from_headers"]}
{"id": "C65", "title": "Child span", "statement": "A child keeps trace id, version and flags and has the parent's id as parent id; set_sampled changes only the sampled bit.", "quantifier": "every context", "why_tests_cant": "2^200.", "anchors": ["src/trace/trace_context.rs: child, set_sampled, sampled"]}
{"id": "C66", "title": "Server-Timing round trip and totality", "statement": "Writing metrics and reading back gives the same names and descriptions; parsing any text does not panic.", "quantifier": "every metric list, every text", "why_tests_cant": "Infinite.", "anchors": ["src/trace/server_timing/parse.rs", "src/trace/server_timing/metric.rs"]}
{"id": "C67", "title": "Conversion from/to http crate keeps all headers", "statement": "Converting header maps to and from the http crate keeps every name with all its values in order.", "quantifier": "every header map", "why_tests_cant": "All states.", "anchors": ["src/hyperium_http.rs"]}
{"id": "C68", "title": "Typed header parsers use the last value", "statement": "For single-valued typed headers (ETag, Age, Content-Length, Expires, ...), when a header has several values the last one decides.", "quantifier": "every header map", "why_tests_cant": "All states.", "anchors": ["src/cache/age.rs", "src/conditional/etag.rs", "src/content/content_length.rs"]}
{"id": "C69", "title": "Predefined media types", "statement": "Every predefined media type constant prints to ASCII text that parses back to that same constant; a media type chosen by file extension is always one of these constants.", "quantifier": "every constant, every extension string", "why_tests_cant": "Whole tables and all strings.", "anchors": ["src/mime/constants.rs", "src/mime/mod.rs: from_extension"]}
{"id": "C70", "title": "Every legal Accept-Encoding / TE header is read", "statement": "A header made of names with optional weights as RFC 7231 5.3.1 allows (including optional white space before the weight, any case of q, and a weighted wildcard) is parsed without an error and without losing an element the crate knows.", "quantifier": "every header text of the RFC grammar", "why_tests_cant": "Infinitely many texts.", "anchors": ["src/utils/mod.rs: parse_weight", "src/content/encoding_proposal.rs: from_str", "src/transfer/encoding_proposal.rs: from_str"]}
{"id": "C71", "title": "Accept round trip", "statement": "Writing a list of media type proposals and parsing the header back gives the same list (weights to three decimals).", "quantifier": "every list of media types with parameters and weights", "why_tests_cant": "Infinite.", "anchors": ["src/content/accept.rs: header_value, from_headers", "src/content/media_type_proposal.rs"]}
{"id": "C72", "title": "Date-valued headers", "statement": "Expires, Last-Modified, If-Modified-Since, If-Unmodified-Since and Date: every instant up to the end of the year 9999 is read back cut to whole seconds, writing any other instant panics, and reading any text gives a whole second in that range or a 400 error.", "quantifier": "every header, instant, text", "why_tests_cant": "Infinite.", "anchors": ["src/cache/expires.rs", "src/conditional/last_modified.rs", "src/conditional/if_modified_since.rs", "src/conditional/if_unmodified_since.rs", "src/other/date.rs"]}
{"id": "C73", "title": "Headers holding a URL", "statement": "Content-Location, Referer, SourceMap and Timing-Allow-Origin: a written URL is read back unchanged (for a URL library whose printed URLs parse back), relative references are resolved against the base, and malformed text is an error, never a panic. Whoever reads Referer, SourceMap or the like gets the whole URL, its fragment included; that what is written keeps RFC 9110's rule that a Referer has no fragment and no userinfo is false.", "quantifier": "every URL, base, list and text, any URL library meeting the contract", "why_tests_cant": "Infinite.", "anchors": ["src/content/content_location.rs", "src/other/referer.rs", "src/other/source_map.rs", "src/security/timing_allow_origin.rs"]}
{"id": "C74", "title": "A list header may be spread over several values", "statement": "For every list-valued typed header (If-Match, If-None-Match, Vary, Cache-Control, Clear-Site-Data, Accept-Encoding, TE, Accept, Allow, Server-Timing, Timing-Allow-Origin), reading several values gives the same result as reading the one value obtained by joining them with commas.", "quantifier": "every header map, every list of values", "why_tests_cant": "The number and content of the values is unbounded, and the equality must hold for failures and panics as well as successes.", "anchors": ["src/conditional/vary.rs", "src/cache/cache_control/cache_control.rs", "src/content/accept.rs", "src/transfer/te.rs", "src/trace/server_timing/mod.rs", "src/security/timing_allow_origin.rs"]}
{"id": "C75", "title": "Reading a header, writing it and reading it again changes nothing", "statement": "For every header map from which a typed header can be read (ETag, If-Match, If-None-Match, Vary, Cache-Control, Age, Clear-Site-Data, Authorization, Basic credentials, WWW-Authenticate, Accept, Accept-Encoding, TE, Content-Encoding, Transfer-Encoding, Content-Length, Content-Type, the five date headers, Retry-After, Expect, Allow, Strict-Transport-Security, Content-Location, Referer, SourceMap, Timing-Allow-Origin, Forwarded), applying the value that was read to any header map and reading it from there gives the same value.", "quantifier": "every header map that can be read and every header map written to, no bound on values or lengths", "why_tests_cant": "A test fixes a header text; the claim is about everything a reader accepts, including texts no writer produces (odd case, blanks, several values, long weights).", "anchors": ["src/conditional/etag.rs", "src/conditional/vary.rs", "src/cache/cache_control/cache_control.rs", "src/cache/age.rs", "src/auth", "src/content", "src/transfer", "src/other", "src/server/allow.rs", "src/security", "src/proxies/forwarded.rs"]}
{"id": "C76", "title": "A header value stays on its line", "statement": "What a typed header writes contains no carriage return, line feed or NUL, so a value can never start a second header: for all values of Cache-Control, Age, Content-Length, Clear-Site-Data, Accept-Encoding, TE, Content-Encoding, Transfer-Encoding, Allow, Strict-Transport-Security, the date headers, Retry-After, trace contexts and Basic credentials the text is even printable ASCII; for media types that were parsed (Content-Type, Accept) and for entity tags that were read from a header it is free of line breaks and NUL. Header names and values, and the constructors taking free text (ETag, Authorization, WWW-Authenticate, Vary, Server-Timing, Content-Security-Policy), should refuse such text too.", "quantifier": "every value of each typed header; every text passed to the free-text constructors", "why_tests_cant": "The injected text is unbounded and the guarantee is a negative one: no input produces a break.", "anchors": ["src/headers/header_value.rs", "src/headers/header_name.rs", "src/conditional/etag.rs", "src/mime/parse.rs", "src/auth/basic_auth.rs", "src/content/accept.rs", "src/utils/date.rs", "src/trace/trace_context.rs"]}
{"id": "C77", "title": "Predefined header names are distinct, well formed and found in any spelling", "statement": "The predefined header names are 65 different non-empty RFC 7230 tokens in lower case. Text converts to, and compares equal to, one of them exactly when it is that name up to ASCII case. A header stored under any spelling is what the constant reads, and what every other constant reads is unchanged.", "quantifier": "every predefined name, every text, every header map", "why_tests_cant": "Spellings are exponentially many and header maps unbounded.", "anchors": ["src/headers/constants.rs", "src/headers/header_name.rs", "src/headers/headers.rs"]}
{"id": "C78", "title": "Reason phrases are those of the IANA registry", "statement": "Every status the library knows is registered, its canonical reason is the phrase registered for its number, the phrase is printable ASCII starting with a capital letter (so it can be written on a status line), and no two statuses share a phrase.", "quantifier": "every status code of the library", "why_tests_cant": "The registry is a table of dozens of rows; tests sample a few of them.", "anchors": ["src/status_code.rs"]}
{"id": "C79", "title": "Unreadable headers are client errors and never panics", "statement": "When a stored header cannot be read as its typed form, the error carries a 400 status (the peer sent it), and reading never panics, whatever ASCII text is stored.", "quantifier": "every header map, for each typed header with a from_headers function", "why_tests_cant": "The stored text is unbounded, and the claim covers every failing path of every reader.", "anchors": ["src/conditional", "src/cache", "src/auth", "src/content", "src/other", "src/security", "src/server/allow.rs", "src/trace", "src/proxies/forwarded.rs", "src/transfer"]}
{"id": "C80", "title": "Optional white space around header elements is insignificant", "statement": "Two header values that differ only in the blanks around their list elements, or around the whole value, are read as the same typed header.", "quantifier": "every pair of header maps whose values differ only in surrounding blanks, for each typed header", "why_tests_cant": "Pads of any length at any number of positions.", "anchors": ["src/conditional", "src/cache", "src/auth", "src/content", "src/other", "src/security", "src/server/allow.rs", "src/trace/server_timing", "src/transfer"]}
{"id": "C81", "title": "Numbers with a decimal point are read and printed correctly rounded", "statement": "A weight, age or duration text is read as a number exactly when it is an optional sign, digits with an optional point and an optional exponent marked e or E, or (in any case) inf, infinity or nan; it becomes the float nearest to the number it denotes, ties to even, and the infinity exactly from half a gap above the largest finite value. Floats compare by value with the infinities at the ends, equal zeros and an incomparable NaN. Three printed decimals are the nearest thousandth. A coding in Accept-Encoding or TE with a weight of at most 1 is read with that nearest float.", "quantifier": "every text, every rational number, every float format of sensible size", "why_tests_cant": "Rounding ties and overflow sit on single points among infinitely many texts.", "anchors": ["src/utils/mod.rs", "src/content/encoding_proposal.rs", "src/transfer/encoding_proposal.rs", "src/trace/server_timing/parse.rs"]}
{"id": "C82", "title": "A message is a record of independent parts", "statement": "For every history of calls on a fresh request or response (headers, version, addresses, content type, bodies put in, swapped, taken or read, extensions), each getter reports the last value written to its own part and nothing else: version and addresses the last one set, the body the last one put in as far as it has been read, headers a multimap to which a body put in adds its media type when Content-Type is absent, extensions a map by type. A fresh message is empty in every part; the constructors named after a method use that method; a number makes a response exactly when it is a known status, unit gives 204 and a body gives 200 with that body; reading through a request and then converting it to a body loses no content.", "quantifier": "every history of calls, every body, every header map, every status number", "why_tests_cant": "Histories are unbounded and interactions between any two calls would have to be tested in every order.", "anchors": ["src/request.rs", "src/response.rs"]}
{"id": "C83", "title": "A typed header reads and writes only its own header", "statement": "Each typed header is tied to one header name (ETag to etag, TE to te, the trace context to traceparent, and so on for all thirty-two). What it reads is decided by the values under that name alone and is nothing when the name is absent; writing it leaves exactly one value under that name and does not change what any other name holds. Hence writing one typed header never changes what a typed header with another name reads. Forwarding information depends on the Forwarded and the four X-Forwarded headers only.", "quantifier": "every typed header of the crate, every header map, every value", "why_tests_cant": "A wrong or shared name shows only in messages carrying both headers; there are unboundedly many header maps.", "anchors": ["src/headers/header.rs", "src/conditional/etag.rs", "src/transfer/te.rs", "src/trace/trace_context.rs", "src/proxies/forwarded.rs"]}
{"id": "C84", "title": "Exactly which values survive writing and reading", "statement": "Written into a message with any headers and read again, a typed header is the same value exactly when: an entity tag has only the characters of RFC 7232; the tags of If-Match and If-None-Match are such tags without a comma and there is at least one or the wildcard; the names of Vary have no comma, no white space at the ends and are not the asterisk (empty names survive except one empty name alone beside the wildcard) and there is at least one or the wildcard; cache directives are in whole seconds and none is s-maxage; an age is in whole seconds and fits in 53 significant bits; Clear-Site-Data is not empty; a Basic user name has no colon; a realm has no double quote; weights in Accept, Accept-Encoding and TE are among the 1001 thousandths (no weight is kept for codings but not for media types), codings are known, media types have no parameter called q and no comma in a value; an applied coding is of its family; dates are whole seconds from 1970 to 9999; a delay is in whole seconds; strict transport security is in whole seconds and not for subdomains; a content type is the result of parsing some text; a set of methods is not empty.", "quantifier": "every value of each type (durations of at most 2^64-1 seconds, names as the crate stores them), every header map it is written into", "why_tests_cant": "Both directions quantify over unboundedly many values; a round-trip test only shows that one value survives, never that all others do not.", "anchors": ["src/conditional/etag.rs", "src/conditional/if_match.rs", "src/conditional/vary.rs", "src/cache/cache_control/cache_control.rs", "src/cache/age.rs", "src/cache/clear_site_data/mod.rs", "src/auth/basic_auth.rs", "src/auth/www_authenticate.rs", "src/content/accept_encoding.rs", "src/content/accept.rs", "src/transfer/te.rs", "src/other/date.rs", "src/other/retry_after.rs", "src/security/strict_transport_security.rs", "src/server/allow.rs"]}
{"id": "C85", "title": "List headers are lists", "statement": "A list-valued header (Cache-Control, Clear-Site-Data, If-Match, If-None-Match, Vary, Accept, Accept-Encoding, TE, Timing-Allow-Origin, Server-Timing) built with new() behaves as an ordered list with a wildcard flag: after any sequence of pushes, flag changes and in-place edits through iter_mut, iteration gives the pushed values in order with the edits that reached them, size hints are exact at every step and the flag is the last one set; sending it and reading it back iterates the same, provided each value pushed can be written (C84) and something was pushed or the flag set where the header needs that. An Allow header behaves as a set.", "quantifier": "every history of calls, every number of next() calls, every value type", "why_tests_cant": "Histories and lengths are unbounded; off-by-one errors in early-stopped mutation or exhausted iterators hide from fixed examples.", "anchors": ["src/cache/cache_control/cache_control.rs", "src/cache/clear_site_data/mod.rs", "src/conditional/if_match.rs", "src/conditional/if_none_match.rs", "src/conditional/vary.rs", "src/content/accept.rs", "src/content/accept_encoding.rs", "src/transfer/te.rs", "src/security/timing_allow_origin.rs", "src/trace/server_timing/mod.rs", "src/server/allow.rs"]}
{"id": "C86", "title": "Negotiating is repeatable", "statement": "Asking the same Accept, Accept-Encoding or TE value to negotiate with the same available formats again gives the same answer.", "quantifier": "every list of proposals, every sequence of negotiations", "why_tests_cant": "Tests negotiate once per parsed header; the state left behind by the first call only matters to the second.", "anchors": ["src/utils/mod.rs", "src/content/accept.rs", "src/content/accept_encoding.rs", "src/transfer/te.rs"]}
{"id": "C87", "title": "Error objects", "statement": "An error keeps its cause, its type name and the last status it was given through any sequence of status changes, failed downcasts and edits; downcasting gives the cause exactly under its own type and otherwise the unchanged error; printing prints the cause; an unsupported status number panics; the type name names the type of the cause.", "quantifier": "every cause, status number and history of calls", "why_tests_cant": "Histories are unbounded and types are arbitrary.", "anchors": ["src/error.rs", "src/macros.rs", "src/lib.rs"]}
{"id": "C88", "title": "Bodies made from files", "statement": "A body made from a file has the file's content and length, whatever its cursor; its type is sniffed from the file's content, else guessed from the extension, else octet-stream; every I/O failure is reported.", "quantifier": "every file content, cursor position, file name, sniffer and outcome of the file system calls", "why_tests_cant": "Short files, short reads and moved cursors need file systems a test cannot easily produce.", "anchors": ["src/body.rs", "src/mime/mod.rs"]}
{"id": "C89", "title": "Walking through headers and trailers", "statement": "Iterating a header map visits every stored header exactly once in some order, tells exactly how many are left, and gives names in the same order; edits through iter_mut reach exactly the visited headers; copying or appending all entries to another map gives the same or the joined map; collecting, indexing, slicing and comparing the values of a header agree with the list of values; distinct ASCII values print differently; a pair of texts acts as a header; trailers and their clones behave as independent header maps.", "quantifier": "every history of calls, every visiting order, every number of steps, all values", "why_tests_cant": "Iteration order, histories and values are unbounded, and delegating wrappers are rarely tested.", "anchors": ["src/headers/iter.rs", "src/headers/iter_mut.rs", "src/headers/into_iter.rs", "src/headers/names.rs", "src/headers/header_values.rs", "src/headers/header.rs", "src/headers/headers.rs", "src/trailers.rs"]}
{"id": "C90", "title": "Queries, JSON and form bodies and buffered reads of messages", "statement": "Setting a request's query replaces exactly the part of the URL between the first '?' and the fragment, keeps scheme, authority, path and fragment, and everything else of the request; the last query set wins; a value that cannot be written is a 400 and changes nothing. Reading the query of a URL without one reads the empty text; a query that does not parse is a 400. What is set is what is read when serde_qs reads back what it writes. A value put into any message as JSON or form comes out again, leaving an empty body and the Content-Type that was there (or that of the format); a second read parses the empty text. Content that does not parse is a 422. Any mixture of plain and buffered reads through a message gives what it gives on its body and moves nothing else.", "quantifier": "all requests, URLs with and without query and fragment, all values, messages, buffer sizes and access sequences", "why_tests_cant": "Tests try a few URLs and one struct; whether some URL loses its fragment or some earlier Content-Type is overwritten needs all of them.", "anchors": ["src/request.rs:658-668", "src/request.rs:691-696", "src/request.rs:369-372", "src/request.rs:405-408", "src/response.rs:338-341", "src/response.rs:374-377", "src/request.rs:919-928", "src/response.rs:619-628"]}
{"id": "C91", "title": "Times relative to the clock", "statement": "A Retry-After value gives the exact distance between the instant it stands for (the clock plus the delay, or the date) and the instant asked about, as an error when that lies in the future of it; a caller never waits less than the delay; it panics exactly when the delay ends after the last instant the platform can hold, and a value read from a header can always be used. Expires::new is the clock plus the duration and arrives at most a second early. The order of Retry-After values is the order of their instants; parsed dates compare as the instants they denote.", "quantifier": "every clock reading, every duration, every instant, every header text", "why_tests_cant": "The clock and huge durations are not under the control of tests; the panic needs a delay beyond 2^63 seconds.", "anchors": ["src/other/retry_after.rs", "src/cache/expires.rs", "src/other/date.rs", "src/utils/date.rs"]}
{"id": "C92", "title": "Comparing and converting values", "statement": "Comparing proposals is antisymmetric and transitive for all weights and agrees with equality; a proposal equals a coding or type exactly when it proposes it; a type turned into a proposal ranks like one made without a weight; media types are equal exactly when they print alike, and when they mean the same; text converts to a media type or panics exactly as parsing fails; a status equals exactly the number it converts from and different statuses print differently.", "quantifier": "all weights including NaN and infinities, all media types, all statuses", "why_tests_cant": "Tests compare a few values; transitivity and the agreement of two relations are about all pairs and triples.", "anchors": ["src/content/encoding_proposal.rs", "src/content/media_type_proposal.rs", "src/content/content_encoding.rs", "src/content/content_type.rs", "src/transfer/encoding_proposal.rs", "src/transfer/transfer_encoding.rs", "src/mime/mod.rs", "src/status_code.rs"]}
{"id": "C93", "title": "Building header objects with setters", "statement": "After any sequence of setter calls each field of a Strict-Transport-Security, Authorization, WWW-Authenticate or Forwarded object holds what was set last (the \"for\" entries: everything added, in order), other fields are untouched, and that is what the receiving side reads; an owned copy of Forwarded holds the same texts; types never share a hash in the extension map.", "quantifier": "every sequence of setter calls, every starting object", "why_tests_cant": "Tests call each setter once; interference between setters needs sequences.", "anchors": ["src/security/strict_transport_security.rs", "src/auth/authorization.rs", "src/auth/www_authenticate.rs", "src/proxies/forwarded.rs", "src/extensions.rs"]}
{"id": "C94", "title": "Exactly which texts the list headers accept, and what they mean", "statement": "If-Match, If-None-Match, Vary, Clear-Site-Data, Cache-Control, Allow, Server-Timing, Strict-Transport-Security, Age, traceparent and Timing-Allow-Origin (relative to the URL parser) each accept exactly the texts of a grammar given over characters alone (pieces around commas or semicolons over all values of the header, blanks around them, the word or number each stands for), and return exactly the items the text spells; for Server-Timing and Age the texts that panic are characterised as exactly.", "quantifier": "every header map, every list of values of the header, every text", "why_tests_cant": "The grammar says which of infinitely many texts are accepted, refused or panic; tests try a few of each kind.", "anchors": ["src/conditional/if_match.rs", "src/conditional/if_none_match.rs", "src/conditional/vary.rs", "src/cache/clear_site_data/mod.rs", "src/cache/cache_control/cache_control.rs", "src/cache/cache_control/cache_directive.rs", "src/server/allow.rs", "src/security/strict_transport_security.rs", "src/cache/age.rs", "src/trace/server_timing/parse.rs", "src/trace/trace_context.rs", "src/security/timing_allow_origin.rs"]}
{"id": "C95", "title": "Comparing header values, and single names and values across the http crate", "statement": "The values of a header compare equal to a text exactly when that text is the only value, and to a list of texts exactly when they are that list, in every reachable header map and without panicking; writing through a header as one value changes its first value only. A single header name or value converts to the http crate exactly when that crate takes it (no control character but tabs in values) and otherwise is an error; out of the http crate every name and exactly the ASCII values convert; what converts is unchanged, so conversions there and back are the identity.", "quantifier": "every list of values, every text, every history of header calls, every name and value of either library", "why_tests_cant": "Equality and convertibility are claims about all texts, including those with line breaks and non-ASCII bytes that no test lists.", "anchors": ["src/headers/header_values.rs", "src/headers/header_value.rs", "src/hyperium_http.rs:57-91", "src/mime/mod.rs"]}
{"id": "C96", "title": "The values of one header form a list", "statement": "Looking up a value by position gives the value at that position and nothing past the end; asking whether a value is contained answers yes exactly when it is one of the values; after any sequence of writes through mutable access by position the number of values is unchanged and each position holds what was written there last; other headers are not touched.", "quantifier": "every list of values, every position and value, every sequence of writes, every history of a header map", "why_tests_cant": "the positions, lengths and write sequences are unbounded; tests look at a list of one or two values", "anchors": ["src/headers/header_values.rs HeaderValues::get, get_mut, contains", "src/headers/headers.rs Headers::get_mut"]}
{"id": "C97", "title": "Typed headers after a trip through the http crate", "statement": "When headers, a request or a response are converted to the http crate and back, everything that is read from one header (other than Content-Type) is what is read from the first value of that header alone; what a typed header has written is read unchanged; forwarding information and the host are unchanged however many values their headers have. The content type of a response that states one is its first value's, and one that states none gets that of its body.", "quantifier": "every reader that looks at one header; every message whose conversion succeeds", "why_tests_cant": "A statement about every reader, every message and both conversions together; tests convert a handful of messages with one value per header.", "anchors": ["src/hyperium_http.rs", "src/headers/headers.rs", "src/proxies/forwarded.rs", "src/request.rs", "src/content/content_type.rs"]}
{"id": "C98", "title": "Which values of a header are written alike", "statement": "Two values of a typed header, written into equal messages, give equal messages exactly when: entity tags, Authorization and WWW-Authenticate values, Clear-Site-Data values, applied codings, content lengths, sets of methods in a given order and media types that were read are equal; lists of entity tags without double quotes are equal with equal wildcard; lists of header names for Vary that are not empty, not the asterisk and without a comma are equal with equal wildcard; cache directives, ages, times (1970 to 9999), delays and Strict-Transport-Security values are equal up to fractions of a second, and a delay is never written like a time; Basic credentials are equal once joined by a colon (so equal if no user name has a colon); lists of weighted codings or of media types read without a parameter q agree in order, in codings or types, in weights printed with three decimals, and in the wildcard. Trace contexts are written alike when version, trace, id and flags agree; metrics of Server-Timing (at least one, names without comma and semicolon, descriptions without comma) when they agree in order, names, descriptions and milliseconds; Forwarded values that can be read back, URLs and lists of origins without commas only when equal. Without these restrictions on tags, names, user names and parameters different values are written alike.", "quantifier": "all pairs of values, all header maps", "why_tests_cant": "Tests compare one value with its own text; two values that collide are found only by looking at all pairs.", "anchors": ["src/conditional/etag.rs", "src/conditional/if_match.rs", "src/conditional/vary.rs", "src/cache/cache_control/cache_directive.rs", "src/auth/basic_auth.rs", "src/auth/www_authenticate.rs", "src/content/accept.rs", "src/content/accept_encoding.rs", "src/mime/parse.rs", "src/other/retry_after.rs", "src/security/strict_transport_security.rs", "src/server/allow.rs", "src/trace/trace_context.rs", "src/trace/server_timing/mod.rs", "src/proxies/forwarded.rs", "src/security/timing_allow_origin.rs"]}
{"id": "C99", "title": "What is read from a header is no larger than the header", "statement": "When a typed header is read successfully, the number of entries (the wildcard counted as one) is at most the number of comma-separated pieces of the values stored under its name, for If-Match, If-None-Match, Vary, Cache-Control, Clear-Site-Data, Allow, Accept, Accept-Encoding, TE, Server-Timing and Timing-Allow-Origin. The text kept is bounded by the text received: the entity tags with their quotes, the Vary names, the Clear-Site-Data directives, the names and descriptions of Server-Timing and the media types of Accept take together at most as many characters as the values; a media type with all its parameters, each counted with its ';' and '=', takes at most as many characters as the text it was parsed from; the fields of a Forwarded header, each counted with its key, at most as many as the header; credentials and realms are strictly shorter than their header, and user name and password take at most three quarters of the encoded credentials.", "quantifier": "for every list of stored values and every text, of any length", "why_tests_cant": "A test checks the content of a few parsed headers; that no header text whatsoever makes the parser store an entry twice, keep a separator, or expand escapes into longer text needs an argument about every run of every loop.", "anchors": ["src/conditional/if_match.rs:58-80", "src/conditional/vary.rs:55-75", "src/content/accept.rs:66-95", "src/mime/parse.rs:8-119", "src/proxies/forwarded.rs:207-298", "src/auth/basic_auth.rs:73-88", "src/trace/server_timing/parse.rs:9-96"]}
{"id": "C100", "title": "Debug output is one line and unambiguous", "statement": "What `{:?}` prints for headers, header values, entity tags, conditions, Vary, Cache-Control, Clear-Site-Data, Allow, credentials, media types, codings, Forwarded, trace context, server timings, status codes, proposals (Accept, Accept-Encoding, TE), Strict-Transport-Security, Age, Content-Length, Content-Type, the headers with a date, Retry-After, Report-To and the headers with URLs never contains a line break, and two values print the same text only if they hold the same data; so no header value, however chosen, can forge a line or another value in a log. Exceptions: the wildcard of If-Match, If-None-Match, Vary, Clear-Site-Data, Accept, Accept-Encoding, TE and Timing-Allow-Origin is not printed, and a body prints its length and the number of bytes read but neither content nor type; a connection and the extensions print nothing of what they hold. Authorization and BasicAuth print their credentials in clear. A duration is printed as a decimal number of the largest unit not above it, and number times unit is the duration; instants and signed numbers likewise print their exact value.", "quantifier": "All values of these types (texts of any characters; durations with less than a second of nanoseconds), all tables of printable non-ASCII characters; any printing of weights that is read back as the same f32, any printing of URLs that can be told from what follows", "why_tests_cant": "The forging texts (quotes, backslashes, brackets, control characters in any mix) are unboundedly many; tests print a handful of friendly values", "anchors": ["src/headers/headers.rs:185", "src/headers/header_values.rs:82", "src/headers/header_value.rs:98", "src/body.rs:539", "src/conditional/if_match.rs:220", "src/conditional/vary.rs:227", "src/cache/cache_control/cache_control.rs:192", "src/cache/clear_site_data/mod.rs:204", "src/auth/basic_auth.rs:37", "src/auth/authorization.rs:33", "src/mime/mod.rs:31", "src/status_code.rs:707", "src/content/accept.rs:279", "src/content/accept_encoding.rs:272", "src/transfer/te.rs:270", "src/security/timing_allow_origin.rs:248", "src/security/strict_transport_security.rs:12", "src/other/retry_after.rs:120", "src/upgrade/connection.rs:12", "src/extensions.rs:79"]}
{"id": "C101", "title": "A browser reads the Content-Security-Policy that was asked for", "statement": "The text that `ContentSecurityPolicy` puts in the header, read by the rules of CSP Level 3 (cut at commas into policies, at semicolons into directives, at white space into words; names lower-cased; a repeated name ignored), is one policy with exactly the directives that were called, each with the words of its sources in call order, and the flags that were set - if and only if no source given has a comma or a semicolon. Otherwise a source adds directives or policies of its own. `report_to` always breaks the header in two, because the JSON text it writes always has a comma: no directive that is read has that JSON as its value, directives sorted after it move to a second policy, and a group name with a semicolon adds a directive. The JSON itself is unambiguous and free of control characters. Several reports given at once are as several calls: each has a text of its own in the header, in order.", "quantifier": "All sequences of builder calls with any texts, all hash orders, all report-to values", "why_tests_cant": "Tests compare the header with an expected text; they do not read it as a browser does, and not for every sequence of calls, every hash order and every source text", "anchors": ["src/security/csp.rs:161", "src/security/csp.rs:284", "src/security/csp.rs:348", "src/security/csp.rs:80"]}
{"id": "C102", "title": "Other programs read in the headers what was put into them", "statement": "A program that reads headers by the RFCs (lists cut at commas outside quoted strings, parameters at semicolons, quoted strings unescaped, quality values in thousandths) finds in the headers written by this crate what the values say: every Cache-Control directive with the name and argument of RFC 9111, the entity tags of If-Match and If-None-Match with strength and text, the names of Vary, the methods of Allow, the types of Clear-Site-Data, every coding of Accept-Encoding and TE and every media type of Accept with its parameters and the thousandths nearest to its weight (1 if there is none), the essence and parameters of Content-Type, scheme and credentials of Authorization, realm and charset of WWW-Authenticate, the directives of Strict-Transport-Security, name, duration and description of every Server-Timing metric, and every address of Forwarded, one per element. The exceptions: the shared maximum age is written `s-max-age`, which nobody else knows; the wildcard of Accept is written `*`, which is no media range; and entity tags with a double quote, realms and descriptions with a double quote or backslash, and Forwarded hosts that need quotes are written unquoted, so that others read something else.", "quantifier": "All values of the typed headers (media types: all that can be parsed; weights: all f32 between 0 and 1)", "why_tests_cant": "The tests read headers with the crate's own parsers, which share its peculiarities; they never read one with a parser for the RFC grammar", "anchors": ["src/cache/cache_control/cache_directive.rs", "src/conditional/if_match.rs", "src/conditional/vary.rs", "src/content/accept.rs", "src/content/accept_encoding.rs", "src/content/encoding_proposal.rs", "src/content/media_type_proposal.rs", "src/mime/parse.rs", "src/auth/www_authenticate.rs", "src/security/strict_transport_security.rs", "src/trace/server_timing/metric.rs", "src/proxies/forwarded.rs"]}
{"id": "C103", "title": "What other programs write is read with the meaning it has", "statement": "A header value written as the RFCs say is read with the meaning they give it: every Cache-Control directive in order (names in any case, unknown ones passed over), every entity tag of If-Match and If-None-Match, the names of Vary, the methods of Allow, the types of Clear-Site-Data, the codings and weights of Accept-Encoding and TE (the f32 nearest to the weight), the type and every parameter of a media type (tokens or quoted strings, optional white space, empty parameters), every range of Accept with its parameters and weight, the age and flags of Strict-Transport-Security, and every Server-Timing metric with its name, description and duration. The exceptions: a comma inside a quoted string or an entity tag is taken for the end of an element; empty list elements are refused in conditional headers and Allow and become empty names in Vary; quoted ages, methods and Clear-Site-Data types unknown here, and white space before a coding's weight make the whole header unreadable; codings in other case and the weight of a star are not seen; `includeSubDomains` is not seen and `Max-Age` is refused; of two charset parameters UTF-8 wins over the first; in Server-Timing, white space before a semicolon, separators and escapes in quoted strings and quoted durations are not understood, and of two durations the last counts.", "quantifier": "All header values made of visible ASCII characters, spaces and tabs that follow the grammar of the RFC in question; any number of values", "why_tests_cant": "The tests read only what the crate itself writes and a handful of literal headers; they never vary white space, case, quoting, order and empty elements together", "anchors": ["src/cache/cache_control/cache_directive.rs", "src/conditional/if_match.rs", "src/conditional/if_none_match.rs", "src/conditional/vary.rs", "src/server/allow.rs", "src/content/accept.rs", "src/content/accept_encoding.rs", "src/content/encoding_proposal.rs", "src/content/media_type_proposal.rs", "src/mime/parse.rs", "src/security/strict_transport_security.rs", "src/cache/clear_site_data/mod.rs", "src/trace/server_timing/parse.rs"]}
{"id": "C104", "title": "Negotiation chooses what RFC 9110 prefers", "statement": "For every Accept header that is read, Accept::negotiate returns an available type whose quality is highest, the quality of a type being the weight of the most specific range it matches (RFC 9110 12.5.1), and 406 exactly when no available type has a quality above 0. AcceptEncoding::negotiate returns an acceptable coding (12.5.3: listed with a weight above 0, or not listed while * is, or the identity), and 406 exactly when none is available.", "quantifier": "for all header values, all parsed lists of proposals, all available types and codings", "why_tests_cant": "Which of several overlapping ranges decides depends on all of their weights at once; a test fixes one list and one set of available types.", "anchors": ["src/content/accept.rs:126-147", "src/content/accept_encoding.rs:118-139", "src/mime/mod.rs:149-166", "src/utils/mod.rs:34-42"]}
{"id": "C105", "title": "Trace contexts follow W3C Trace Context", "statement": "TraceContext::from_headers reads every traceparent value that the W3C recommendation (section 3.2) calls valid, of version 00 or of a later version with further fields, with the version, trace id, parent id and flags it spells, and refuses every other value. Every context written is valid and spells what the context holds. Along any chain of services, each of which reads what the one before wrote, the trace id and the flags stay as they were and each context names the one before as its parent; a program writes version 00 whatever version it has read.", "quantifier": "for all header values, all contexts, all random ids, chains of any length", "why_tests_cant": "There are 2^208 valid values of version 00 alone, and a chain of services has no bound; tests use a few values and one hop.", "anchors": ["src/trace/trace_context.rs:61-69", "src/trace/trace_context.rs:102-132", "src/trace/trace_context.rs:198-217"]}
{"id": "C106", "title": "A validator that is sent back is recognised", "statement": "If a client copies the text of ETag headers, as a server wrote them with ETag, into If-Match or If-None-Match (in any number of lines, with any blanks after the commas), the server reads back exactly those tags, and evaluating the precondition as RFC 9110 section 13.1 says gives: If-None-Match fails exactly if the current tag has the text of one of them, If-Match holds exactly if the current tag is one of them and strong. This is so exactly for tags of legal characters without a comma. Comparing tags with `==` is neither the strong nor the weak comparison of the RFC (for strong tags it is both). If a client copies the text of Last-Modified into If-Modified-Since or If-Unmodified-Since, the server reads the instant rounded down to a second: it equals the instant of the change exactly if that is a full second, and a later change is noticed exactly if it is in a later second.", "quantifier": "all tags, all numbers of lines and blanks, all header maps, all instants from 1970 to 9999", "why_tests_cant": "Two messages and two header types meet here, for every combination of tags, lines and instants; tests of one header at a time do not see that a server can refuse its own tag or find everything modified", "anchors": ["src/conditional/etag.rs:33", "src/conditional/etag.rs:80", "src/conditional/etag.rs:115", "src/conditional/if_match.rs:54", "src/conditional/if_none_match.rs:60", "src/conditional/last_modified.rs:54", "src/conditional/if_modified_since.rs:55", "src/conditional/if_unmodified_since.rs:55", "src/utils/date.rs"]}
{"id": "C107", "title": "Messages passed along a chain of proxies and services", "statement": "Let a request pass through any number of proxies, each of which reads Forwarded (or, if there is none, the X-Forwarded headers), adds the address it got the request from and writes the header. Behind the last one the header lists the addresses in the order of the proxies behind those the client gave, the by, host and proto given at the start are kept, and no other header changes; the host of the request is the one given there. The remote address of the request is the client's if there is one address in the list; with more than one the header is not used for it, but the X-Forwarded-For header or else the address of the peer. And let a request pass through any number of services, each of which reads the trace context, makes a child and sends it on: all contexts are of one trace with the same version and flags, and the parent of each is the one before it.", "quantifier": "every list of addresses that can be written, every start headers, every list of ids", "why_tests_cant": "The properties hold by induction on the length of the chain; tests in the repository write and read the headers once.", "anchors": ["src/proxies/forwarded.rs: from_headers, add_for, header_value", "src/request.rs: remote, host, forwarded_header_part", "src/trace/trace_context.rs: from_headers, child, apply"]}
{"id": "C108", "title": "Negotiation over the wire", "statement": "A client writes its proposals (Accept-Encoding, TE or Accept), the server reads them, negotiates with what it has available and writes its choice (Content-Encoding, Transfer-Encoding or Content-Type), and the client reads that. The result is what negotiating among the client's own proposals would have given, unless a heavier proposal stands before a lighter one whose weight is written alike; for codings proposed once each this condition is also necessary, and weights of at most three decimals always meet it. In every case the choice is refused (406) exactly when it would have been without the headers, and what is chosen was proposed and no proposal that could have been chosen weighs a thousandth more.", "quantifier": "every list of proposals and every list of available codings or types", "why_tests_cant": "The argument is about the order of any number of weights of which only three decimals are sent; tests negotiate with two or three hand-written proposals and weights of one decimal.", "anchors": ["src/content/accept_encoding.rs: from_headers, negotiate, header_value", "src/transfer/te.rs: from_headers, negotiate", "src/content/accept.rs: from_headers, negotiate", "src/utils/mod.rs: sort_by_weight, parse_weight", "src/content/content_encoding.rs", "src/content/content_type.rs"]}
{"id": "C109", "title": "Who is let in by Basic credentials", "statement": "Let a server serve a request on behalf of a user when BasicAuth::from_headers gives a name and password that are among its accounts. A client that applies a name without a colon and a password is served exactly when it has that account, and as nobody else, whatever Authorization headers the message had. Any request at all is served on behalf of a user exactly when its last Authorization header is the word Basic in any case, a space and the base64 form of an account's name, colon and password. In the whole dialogue - the server writes a challenge for its realm with WWWAuthenticate, the client reads it and answers with what it holds for that realm - the client is served exactly when what it holds is an account, and it sends nothing when challenged for another scheme or for a realm it does not know. The http crate in between changes nothing. False: a client under a name with a colon can be served as somebody else, and a request with two Authorization headers is served for one user before and for another after conversion to the http crate and back.", "quantifier": "every table of accounts, every name, password and realm, every request", "why_tests_cant": "Who gets in is a statement about all requests, including ones made up by an attacker; tests encode and decode one name and password.", "anchors": ["src/auth/basic_auth.rs: from_headers, from_credentials, apply", "src/auth/authorization.rs: from_headers", "src/auth/www_authenticate.rs: from_headers, apply", "src/hyperium_http.rs"]}
{"id": "C110", "title": "Headers may be set in any order", "statement": "Applying a typed header to a message fails or not whatever the message is; if not, it leaves one value under its name, the same for every message, and all other names as they were (all typed headers). So applying typed headers with different names in any order gives the same headers, or fails in every order; applying two under one name is applying the second; and what is read back under a name is what the last application under it wrote, whatever was applied before or for other names after.", "quantifier": "every sequence of applications, every permutation of it, every message", "why_tests_cant": "The number of orders of n headers is n!, over all values of thirty-three types; tests apply one header to an empty message.", "anchors": ["src/headers/header.rs: Header::apply_header", "src/headers/headers.rs: insert", "all modules with apply or header_value"]}
{"id": "C111", "title": "Age and freshness behind a chain of caches", "statement": "Let each cache read Age with Age::from_headers (none means nothing), add the time it kept the response and apply the sum. After any number of caches, while the age is below 2^53 seconds, the response claims a whole number of seconds that is not more than its true age and less by under one second for each cache; the other headers are as sent; caches that keep it for whole seconds lose nothing. A response given a lifetime with Cache-Control max-age is taken to be fresh for as long as it is, and when taken to be fresh it is stale by less than one second for each cache. A lifetime computed from Expires and Date differs from the intended one by less than a second, is exact when it is whole seconds, and is not positive when it should not be. False: that a response taken to be fresh is fresh (two caches that keep it 0.9 seconds each), and that a shared cache sees a lifetime of its own: s-maxage is lost whatever the other directives.", "quantifier": "every chain of caches with every residence time, every list of directives, every message, every pair of instants", "why_tests_cant": "The error adds up along chains of any length; tests write and read one Age.", "anchors": ["src/cache/age.rs: from_headers, apply", "src/cache/cache_control/cache_control.rs: from_headers, apply", "src/cache/cache_control/cache_directive.rs", "src/cache/expires.rs", "src/other/date.rs"]}
{"id": "C112", "title": "Debug output of messages and policies", "statement": "Two requests print the same `{:?}` text exactly when they have the same method, URL, headers, version, addresses, declared length and progress of the body, and the same ends of the trailers' channel present; two responses likewise with the status and the upgrade channel; two content security policies only when they are equal. The text is one line, whatever the headers, addresses and directives contain. The content and type of the body, the extensions and what is in the channels are never printed; the headers always are, in clear, passwords and tokens included. The fields are printed in the order of the structs.", "quantifier": "All requests, responses and policies; all tables of printable non-ASCII characters; any printing of URLs that can be told from what follows and is one line", "why_tests_cant": "The values that could forge a field or a line are unboundedly many; no test prints a message", "anchors": ["src/request.rs:30", "src/response.rs:36", "src/security/csp.rs:132", "src/version.rs:2", "src/trailers.rs:217", "src/upgrade/sender.rs:8"]}
{"id": "C113", "title": "Messages that follow each other on one connection", "statement": "Let messages follow each other on a connection, and let the receiver make each body with Body::from_reader from the rest of the connection and the length that ContentLength::from_headers gives, and poll it until it reports its end. What is received is the data cut at the declared lengths, whatever the chunks, waits, recovered errors and buffer sizes; it is always received if polled long enough; if each sender declared the length of what it sent, each content arrives whole and the rest of the connection is untouched; a text set with set_body is read by body_string of the message that arrives as the same text with the media type text/plain. False: that less than the declared length is an error (a message cut short is accepted, exactly when the connection held less), that AsyncBufRead stops at the end of a message (it runs into the next one), and that a message with two Content-Length headers ends at the same place before and after the http crate.", "quantifier": "every number of messages, every content, every behaviour of the connection, every schedule of buffers", "why_tests_cant": "Chunk borders, waits and buffer sizes multiply over all messages of a connection; tests read one small body from memory.", "anchors": ["src/body.rs: from_reader, poll_read, poll_fill_buf, into_string", "src/content/content_length.rs: from_headers, apply", "src/request.rs: set_body, body_string", "src/response.rs: set_body, body_string", "src/hyperium_http.rs"]}
{"id": "C114", "title": "List headers extended by layer after layer", "statement": "Let layers of middleware each read a list header with from_headers (or start a new one), push their own entries and write it back with apply. After any number of layers the header is read as the entries it held before the first layer followed by the entries of each layer in the order of the layers, the wildcard is set if it was set or a layer set it, and no other header has changed. This holds for If-Match, If-None-Match, Vary, Clear-Site-Data, Accept-Encoding, TE, Accept, Timing-Allow-Origin, Cache-Control and Server-Timing when each entry survives being written and read, and for Allow as a set whatever the order in which each layer iterates it. False: that s-maxage sent by an origin passes a layer which adds a directive (it is rewritten under a name that nobody reads), that a layer which adds an entity tag with a comma leaves a header the next can read, and that a layer which adds nothing leaves a new header harmless.", "quantifier": "every number of layers, every entry that survives a round trip, every header map before the first layer", "why_tests_cant": "The losses only show when a header written by one component is read and written again by another.", "anchors": ["src/conditional/if_match.rs", "src/conditional/if_none_match.rs", "src/conditional/vary.rs", "src/cache/cache_control/cache_control.rs", "src/cache/clear_site_data/mod.rs", "src/content/accept.rs", "src/content/accept_encoding.rs", "src/transfer/te.rs", "src/server/allow.rs", "src/security/timing_allow_origin.rs", "src/trace/server_timing/mod.rs"]}
{"id": "C115", "title": "How the choice moves when the offers or the wishes change", "statement": "AcceptEncoding, TE and Accept: a server that has one format more chooses that format or what it chose before, so losing a format that was not chosen changes nothing. A client that adds a proposal, wherever in its list, or gives one a greater weight, gets what that proposal asks for or what it got before; so what is chosen stays chosen when its weight grows or the weights of others shrink, and proposals for codings the server does not have make no difference. The order in which a server names its codings matters only when nothing it has is proposed. The wildcard only replaces a refusal, by the first format the server has, and with it only a server that has nothing refuses. False: that refusing a coding with q=0 cannot lead to it (beside a wildcard it makes the server choose it), and that the order of the formats available never matters.", "quantifier": "every list of proposals with weights between 0 and 1 or none, every list of available codings or media types, every place of the change", "why_tests_cant": "These compare two runs that differ in one place; each test runs one negotiation.", "anchors": ["src/content/accept_encoding.rs: negotiate, sort", "src/transfer/te.rs: negotiate, sort", "src/content/accept.rs: negotiate, sort", "src/utils/mod.rs: sort_by_weight"]}
{"id": "C116", "title": "Many bodies chained into one", "statement": "Any number of bodies, partly read or not, combined with Body::chain in any nesting, give one body without a panic. It holds what is left of each, in order; its length is the sum of what is left of the declared lengths if all are known and the sum fits 64 bits, and unknown otherwise; its media type is the one they all have, else application/octet-stream. So the nesting cannot be seen in length, media type or content. False: that the empty body is neutral (chained to a text it takes the media type text/plain away).", "quantifier": "every number of bodies, every nesting of the calls, every content and reader behaviour, every schedule of reads before and after", "why_tests_cant": "The nestings of n bodies grow exponentially; the tests chain two or three bodies made from strings.", "anchors": ["src/body.rs: chain, len, mime, into_bytes, poll_read"]}
{"id": "C117", "title": "Server-Timing through many programs", "statement": "When metrics with durations below 4096 seconds are written to a Server-Timing header and any number of programs in turn read the header and write what they read into their own message, no step fails or panics; names and descriptions are unchanged, durations never grow, and k readings take at most k nanoseconds off each. After finitely many steps nothing changes any more. With a standard library that rounds to the nearest nanosecond nothing changes at all. False for one that cuts: that the loss stays within one nanosecond (1000999 ns becomes 1000994 ns after five readings).", "quantifier": "every number of programs, every list of metrics with texts free of the separators, every duration below 4096 s to the nanosecond, every conversion from f64 that is less than a nanosecond off", "why_tests_cant": "There are 4 * 10^12 durations and no bound on the number of programs; the tests write and read one metric once, with a whole number of seconds.", "anchors": ["src/trace/server_timing/metric.rs: From<Metric> for HeaderValue", "src/trace/server_timing/parse.rs: parse_entry", "src/trace/server_timing/mod.rs: from_headers, header_value"]}
{"id": "C118", "title": "Which hosts a browser asks securely", "statement": "After any sequence of responses of any hosts, written with StrictTransportSecurity or without it, a browser that follows RFC 6797 asks a host x securely exactly if the last policy of x, or of a host above x that asked for its subdomains, has at least one whole second and these have not passed since. So a policy of whole seconds is kept as promised. The default set of security headers protects the host for sixty days and nothing below it. False: that a policy with a fraction of a second is kept (half a second is sent as max-age=0, which makes the browser forget earlier promises); that a service that reads a policy and writes it into its own response passes it on (subdomains always lose their protection).", "quantifier": "every sequence of responses, hosts, instants and policies, every other header in the responses", "why_tests_cant": "The state of a browser is the result of everything it heard; the tests write one policy and read it with the same crate.", "anchors": ["src/security/strict_transport_security.rs: header_value, from_headers", "src/security/mod.rs: default, hsts"]}
{"id": "C119", "title": "Who may see the timings of a response", "statement": "A browser that does the TAO check of the Fetch standard on a header written with TimingAllowOrigin lets in exactly the pages whose origin is the text of a listed URL, and everybody if the wildcard is set. The text of an URL with a host ends with a path, at least a slash, and that of an origin does not: so without the wildcard nobody is ever let in. False: that the pages of an origin that was pushed see the timings. A service that reads such a header of another program and writes it into its own response shuts out all pages it named.", "quantifier": "every list of URLs without commas, quotes and blanks, every origin, every other header, every URL library that prints the origin first and then a path", "why_tests_cant": "The tests compare the header with the printed URL; what a browser makes of it is outside the crate.", "anchors": ["src/security/timing_allow_origin.rs: header_value, from_headers, push"]}
{"id": "C120", "title": "A cache in front of a server that negotiates", "statement": "A shared cache that follows RFC 9111, section 4.1, and stands between clients and a server whose responses name, in a header written with Vary, the request fields they depend on, gives to every request of every sequence the answer the server itself would have given. A server that chooses the coding by Accept-Encoding and the media type by Accept with this crate is such a server if it names both fields, in any case of letters, or sets the wildcard: although the cache compares fields with their lines joined, and the crate reads the lines one by one. With the wildcard a stored response is never used again; without it, it is used for exactly those requests that agree on the named fields. False if a field is left out: then a client gets a coding it does not accept.", "quantifier": "every sequence of requests, every server, every list of names that are tokens, every supported coding and type", "why_tests_cant": "A test sees one request; whether answers are mixed up shows only over sequences of requests by different clients through a cache.", "anchors": ["src/content/accept_encoding.rs: from_headers, negotiate", "src/content/accept.rs: from_headers, negotiate", "src/conditional/vary.rs: header_value, push, set_wildcard"]}
{"id": "C121", "title": "What a browser makes of a chain of security helpers", "statement": "Whatever headers a response has and however often and in whatever order the helpers of the security module are called on it, no call panics, and a browser that follows the HTML, Fetch and Referrer Policy standards and RFC 6797 obeys, for framing, type guessing, the referrer and secure transport, the last call that speaks of it, and what was there before if there is none. This holds for Referrer-Policy too, although that helper adds a line and the others replace theirs. No other header changes. Two chains whose last calls agree cannot be told apart.", "quantifier": "all headers, all chains of calls of any length, all arguments", "why_tests_cant": "Tests call a helper once and compare one header with a literal; that the last of many calls wins depends on how several lines are read.", "anchors": ["src/security/mod.rs: default, dns_prefetch_control, frameguard, hsts, nosniff, powered_by, referrer_policy, xss_filter"]}
{"id": "C122", "title": "A front and a service agree where messages end", "statement": "Let a front refuse messages whose Content-Length lines are not, cut at commas, digits of one and the same value, as RFC 9112 asks, and let a service behind it take the length of each body from ContentLength::from_headers and read bodies with Body::from_reader. For every sequence of messages the front lets pass, both cut the connection at the same places, however the data arrives and is read: the service may refuse a message, exactly if the number has more than 64 bits or the last line has a comma, but it never takes one for longer or shorter. False: that the service refuses what such a front refuses; of two lengths it takes the last, and it takes a plus sign.", "quantifier": "all headers of printable characters, all sequences of messages, all contents, all behaviours of the connection, all schedules of buffers", "why_tests_cant": "Agreement of two programs over all headers and connections is no single call; tests of the crate read one header they wrote.", "anchors": ["src/content/content_length.rs: from_headers", "src/body.rs: from_reader, poll_read"]}
{"id": "C123", "title": "No change is lost when clients edit at the same time", "statement": "Let clients fetch a resource with its ETag, read the tag with ETag::from_headers, and send changed contents back with that tag in IfMatch, and let the server admit a change if IfMatch::from_headers gives the wildcard or a tag that is == to the present one. If different versions have different tags, whatever these are, then for every number of clients and every interleaving the resource is what the admitted changes make of it one after the other: no change is lost, even with tags that the headers cannot carry. A client that fetched the present version is admitted exactly if the tag has only legal characters and no comma. False with LastModified and IfUnmodifiedSince, which know only seconds.", "quantifier": "all numbers of clients, all interleavings of fetches and changes, all changes, all injective choices of tags, all other headers", "why_tests_cant": "The claim is about interleavings of many clients; the tests write and read one header.", "anchors": ["src/conditional/etag.rs: from_headers, header_value", "src/conditional/if_match.rs: from_headers, header_value", "src/conditional/last_modified.rs, src/conditional/if_unmodified_since.rs: from_headers, header_value"]}
{"id": "C124", "title": "A tree of calls can be recovered from its trace contexts", "statement": "Let services call each other in any tree, each reading the context of its request with TraceContext::from_headers and sending its own context, or that of a child span, with its requests. Every call gets a context, and all have the trace id, version, flags and sampling of the root. A collector that gets all contexts in any order, mixed with those of other traces, finds from every call the way back to the root by following parent_id, if the random ids drawn in the trace differ. False if an id is drawn twice.", "quantifier": "all trees of calls of any depth and width, all ids, all other headers, all orders of collecting", "why_tests_cant": "The tests make one child; that the links of whole trees fit together through headers is a claim about unboundedly many services.", "anchors": ["src/trace/trace_context.rs: new, from_headers, child, header_value, Display"]}
{"id": "C125", "title": "Names and values put in a form body or a query are read back", "statement": "Write a list of names and values as application/x-www-form-urlencoded. The text has only letters, digits and `*-._+%=&`, and reading it gives the same list, in order, with repeated and empty names and any Unicode text; so different lists give different texts. Body::from_form with such a list, set as the body of a message, is read by body_form as the same list, whatever pieces the body arrives in, and gives the message the form's content type if it had none. Request::set_query, when the values are written in this format (as those of a struct or map of strings are), puts exactly that text in the URL and Request::query gives the list back, whatever the URL was.", "quantifier": "all lists of pairs of Unicode strings, all messages, all URLs, all ways the body is cut into reads", "why_tests_cant": "The tests use two ASCII fields; escapes, repeated names and arbitrary Unicode need all lists.", "anchors": ["src/body.rs: from_form, into_form", "src/request.rs: body_form, query, set_query", "src/response.rs: body_form"]}
{"id": "C126", "title": "How often a client is refused that obeys Retry-After", "statement": "A service that is away until some instant refuses requests with RetryAfter::new of the time left, the same rounded up to seconds, or RetryAfter::new_at of the instant; a client reads it with from_headers and sleeps for duration_since(now), as the documentation shows. Rounded up, one refusal is enough, whatever the client's clock says, and the request that is served comes less than a second late. With the time left, or an instant when the clocks agree, the client is back less than a second early and then again and again: with lags of at least d there are at most 1 + 1s/d refusals, and no request comes later than the longest lag after the service is back. \"One refusal is enough\" and \"the number does not depend on the lag\" are false, because both forms are cut down to whole seconds. A client whose clock is ahead by the time left does not wait for an instant at all; it waits for a delay as any other.", "quantifier": "all instants of return and arrival to the nanosecond, all sequences of lags, all clock offsets, all other headers", "why_tests_cant": "The tests read back one value of whole seconds; how a client fares over many refusals depends on rounding, lag and clocks.", "anchors": ["src/other/retry_after.rs: new, new_at, from_headers, duration_since, header_value, documentation"]}
{"id": "C127", "title": "What a browser forgets", "statement": "A browser keeps data of four kinds for many sites and obeys Clear-Site-Data as the W3C standard says. A response on which ClearSiteData was applied makes it forget exactly the kinds pushed, or all with the wildcard, of that site and no other. After any sequence of storing and answering it knows exactly what was stored at a moment after which the site never named its kind. Layers of a service that each read the header, push their own kinds and write it again are all obeyed, if each names something. False: that all are obeyed if they only apply their own value, because the last one replaces the header; and that a layer may name nothing, because the next one that reads the header then panics.", "quantifier": "all sequences of storing and answering, all sites, all values, all numbers of layers, all other headers", "why_tests_cant": "The tests look at the text of one header; what a browser knows after a history of answers is no single call.", "anchors": ["src/cache/clear_site_data/mod.rs: new, from_headers, push, set_wildcard, apply, header_value", "src/cache/clear_site_data/directive.rs: as_str, from_str"]}
{"id": "C128", "title": "A refused client finds the method that is allowed everywhere", "statement": "A request passes any number of gateways, each letting some methods through, and reaches a server. Whoever refuses the method answers 405 with Allow; a gateway that hands on a refusal reads Allow, takes out what it would refuse itself and writes it again; the client reads Allow and goes on with its most preferred method that was named. If some method passes everywhere, the client ends with the first of its wishes that passes everywhere, or knows that there is none; it never repeats a request and makes at most one more than there are hops (two when there is no gateway), a bound that is reached. False without a method that passes everywhere: the empty Allow, which the RFC permits, cannot be read, so the client is not told that nothing is left.", "quantifier": "all numbers of gateways, all sets of methods, all wishes, all orders of iterating the hash sets", "why_tests_cant": "The tests read one header with one set; the number of hops, sets and orders of iteration is unbounded.", "anchors": ["src/server/allow.rs: new, from_headers, insert, contains, iter, apply, header_value", "src/method.rs: Display, FromStr"]}
{"id": "C129", "title": "A client that waits for leave to send its body", "statement": "A client sends a head with Expect and Content-Length as this crate writes them and keeps the body back until it is answered; a server reads both headers with this crate, sends 100 if it wants the body and 417 if not. In every interleaving of the two, as long as the client has no final answer something can happen, and no run has more than 2n+5 steps for a body of n bytes, so every exchange ends: a willing server has received the whole body and answered 200, an unwilling one answered 417 and not one byte of the body was sent. False if the expectation is spelled with other capitals, which the RFC permits: a willing server answers 400. False if a hop removes the header: both wait for each other for ever.", "quantifier": "all other headers, all bodies of up to 2^64-1 bytes cut into chunks in any way, all interleavings", "why_tests_cant": "A test runs one schedule with one body; a deadlock shows only in the schedules that were not tried.", "anchors": ["src/other/expect.rs: new, from_headers, apply, header_value", "src/content/content_length.rs: from_headers, apply, header_value"]}
{"id": "C130", "title": "Who waits for trailers or an upgrade, and for how long", "statement": "After any schedule of creating, cloning and dropping messages, taking senders and receivers, sending and polling, a receiver that is polled while nothing is there for it is told to wait exactly if some continuation of the schedule gives it something, and is told that nothing comes exactly if none does. If nobody takes a sender, whoever took the receiver of a message that lives on is told to wait at every poll, whatever else happens, because the message holds a sender itself. So it is false that asking for trailers or an upgrade is answered sooner or later: the reader of a response without trailers that keeps the response waits for ever.", "quantifier": "all schedules, all numbers of messages, clones, senders and receivers, trailers and upgrades alike", "why_tests_cant": "A test can see that a poll is pending, not that it stays so in every continuation, and it runs one schedule.", "anchors": ["src/trailers.rs: Sender::send, Receiver::poll", "src/upgrade/sender.rs: send", "src/upgrade/receiver.rs: poll", "src/request.rs: send_trailers, recv_trailers, clone", "src/response.rs: send_trailers, recv_trailers, send_upgrade, recv_upgrade, clone"]}
