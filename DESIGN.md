# Formal model of http-types in Rocq

Subject: the Rust crate in /repo (http-types, pinned commit). The code is read as text; it is never
built or run. Everything proved here is about the Gallina model in `rocq/theories`, whose only tie to
the code is the line citations beside each definition.

## Conventions of the model

* A Rust `&str`/`String` is a `list N` of Unicode scalar values (`str`). A byte slice is a `list N`
  of bytes. Where the code slices a `str` by byte offset, the model computes UTF-8 lengths and an
  offset that is out of range or not on a character boundary is an explicit `Panic`.
* Every function that can fail returns `outcome A := Ok a | Err status | Panic`. Error messages and
  backtraces are dropped; the HTTP status attached to the error is kept. `unwrap`, `expect`, `todo!`,
  failed slicing, indexing, debug overflow and `assert!` are `Panic`.
* `&mut self` methods return the new value.
* `HashMap`/`HashSet` are association lists without duplicate keys; wherever the code iterates one,
  the theorem quantifies over all permutations of the list.
* Loops are structural recursion or explicit fuel with a theorem that the fuel never runs out.
* `Duration` is seconds and nanoseconds; `SystemTime` is a signed count of nanoseconds since the epoch
  or, where only seconds matter, the whole seconds.
* `f32`/`f64` values that occur in headers are modelled exactly as integers scaled by the smallest
  subnormal together with the special values; decimal parsing rounds to nearest, ties to even.

## Files

Each area has `<Area>.v` (the model, with line citations), sometimes `<Area>Facts.v` (lemmas) and
`<Area>Props.v` (the theorems `Cnn_...`, an `Example` for each property, and `Print Assumptions` for
every theorem).

| properties | model files | source files | method of proof |
|---|---|---|---|
| C01-C06 | HttpDate, DateSpec (independent calendar) | utils/date.rs | spec calendar = iterate "next day"; 400-year cycle sweep and periodicity; digit lemmas; case analysis over lengths |
| C07, C08, C12 | Method | method.rs, version.rs | finite case analysis lifted to all strings |
| C09-C11 | StatusCode | status_code.rs | table lifted to all numbers; 64-bit truncation for serde |
| C13-C18 | Headers | headers/*.rs | refinement to a function from lower-case names to lists, induction over operation lists |
| C19-C23, C69 | Mime | mime/*.rs | loop invariant for the parser, induction over parameters; a grammar of exactly the accepted texts and their meaning (MimeExactProps) |
| C24-C28 | Body, Utf8 | body.rs | invariants over every schedule of polls |
| C29, C31-C34 | Message, Forwarded | request.rs, response.rs, extensions.rs, error.rs, status.rs | case analysis; refinement over histories |
| C30 | Channel | trailers.rs, upgrade/*.rs | transition system, invariant over every interleaving |
| C35-C38 | Forwarded, ParseUtils | proxies/forwarded.rs, parse_utils.rs | parser invariants, exact characterisations (accepted texts, panics, values that come back), refutations by witness |
| C39-C41 | Conditional, Typed | conditional/{etag,if_match,if_none_match,vary}.rs | split/join lemmas; RoundTripProps gives the exact condition (iff) under which a written value is read back, also for C42, C44, C45, C47, C59, C60 |
| C42-C44 | Cache | cache/*.rs | split/join and decimal lemmas, f64 rounding for Age |
| C45-C47 | Auth, Utf8 | auth/*.rs | base64 and UTF-8 codecs by induction; the accepted header values exactly (AuthExactProps) |
| C48-C54, C70, C71 | Negotiate, Float | content/*.rs, transfer/*.rs | uniqueness of sorting, maximality, exact floats; exactly which proposals are read and as what (NegotiateExactProps, AcceptGrammarProps) |
| C55-C59, C72, C73 | Other | content/{content_length,content_type,content_location}.rs, other/*.rs, server/allow.rs, conditional/*_since.rs, cache/expires.rs, security/timing_allow_origin.rs | decimal and date round trips, permutation invariance |
| C60 | Other | security/strict_transport_security.rs | equational |
| C61, C62 | Security | security/{csp,mod}.rs | permutation invariance |
| C63-C65 | Trace | trace/trace_context.rs | hex codec, bit lemmas |
| C66 | Timing, Float | trace/server_timing/*.rs | exact f64 arithmetic, split/join; exactly which entries come back, and durations under 4096 s exactly |
| C67 | Hyperium | hyperium_http.rs | multimap reasoning |
| C68, C74 | all typed headers | the `from_headers` functions | equational, split/join |
| C75 (also `StableForwardedProps`) | all typed headers that can be read and written | the `from_headers` and `apply` functions | inversion of the readers, then the round trips |
| C76 | what typed headers write | the `header_value` functions, `HeaderValue::from_str`, `HeaderName::from_str` | character classes of the writers |
| C77 | `src/headers/constants.rs` | all 65 constants, `HeaderName` conversions, map | computation over the constants, map lemmas |
| C78 | StatusCode | status_code.rs | registry table written out; computation over all statuses |
| C79 | all typed headers that can be read | the `from_headers` functions | inversion of every failing path |
| C80 | all typed headers that can be read | the `from_headers` functions | trim lemmas, split/join |
| C81 | Float, Negotiate | utils/mod.rs, std floats | nearest multiple on the grid of the format; grammar inversion |
| C82 | MessageOps, Message | request.rs, response.rs | refinement to independent parts, induction over calls |
| C83 | Typed and every typed-header file | the `from_headers` and `apply` of every typed header | lookup after insertion, literal names |
| C84 | (no new model) ExactProps | the `from_headers` and `apply` of the typed headers | inversion of readers combined with the round trips of C39-C60, C71, C72 |
| C85 | Lists (`ListsProps`, `ListsSentProps`) | the list-valued headers: constructors, `push`, flags, iterators; server/allow.rs | induction over call histories, composed with C84 |
| C86 | Lists, Negotiate | utils/mod.rs, the `sort` and `negotiate` methods | a sorted list is determined by its parts of equal weight; sorting reverses each part |
| C87 | Errors | error.rs, macros.rs, lib.rs `private` | induction over call histories |
| C88 | Files | body.rs file constructors, `Mime::sniff` | file system and sniffer as parameters |
| C89 | HeaderIter, Headers | headers/iter.rs, iter_mut.rs, into_iter.rs, names.rs, header_values.rs, header.rs, trailers.rs | any permutation as visiting order, refinement to multimaps, unescaping |
| C90 | Query, Message, Body | request.rs 369-408, 658-696, 919-928; response.rs 338-377, 619-628 | URL text = base ? query # fragment; content of bodies; reads through a message are reads of its body |
| C91 | Clock, Other, HttpDate | other/retry_after.rs, cache/expires.rs, other/date.rs, utils/date.rs 400-410 | the clock and the last instant of the platform are parameters; integer nanoseconds |
| C92 | Compare, Negotiate, Mime, StatusCode | content/{encoding_proposal,media_type_proposal,content_type}.rs, transfer/encoding_proposal.rs, mime/mod.rs, status_code.rs | case analysis over all floats; printing is injective |
| C93 | Setters, Auth, Other, Forwarded | setters of strict_transport_security.rs, authorization.rs, www_authenticate.rs, forwarded.rs; hasher of extensions.rs | last write wins over any call sequence |
| C94 | GrammarProps, TimingGrammarProps, PartsProps over Conditional, Cache, Other, Security, Timing, Trace | conditional/{if_match,if_none_match,vary}.rs, cache/{clear_site_data,cache_control,age}, server/allow.rs, security/strict_transport_security.rs, trace/server_timing/parse.rs, trace/trace_context.rs, security/timing_allow_origin.rs | grammar over characters, iff; joins of pieces cut at the separator |
| C95 | Single, Hyperium | headers/{header_value,header_values}.rs, hyperium_http.rs:57-91 | case analysis, character classes |
| C96 | Headers (ValuesProps) | headers/header_values.rs | list lemmas; induction over writes. The file also covers the remaining setters, getters and comparisons (`set_method`, `set_status`, `body_bytes`, error `Debug`, equality of proposals, default HSTS policy) under C29, C82, C87, C91-C93 |
| C97 | Hyperium, Headers, Forwarded (TripProps) | hyperium_http.rs, typed headers | composition of C67, C68 and C83: what is left of a header is its first value |
| C98 | Typed, Conditional, Cache, Auth, Negotiate, Mime, Other Timing, Trace, Forwarded (AlikeProps, AlikeMoreProps) | all typed headers | every entry is self-delimiting: what follows it starts with a comma, and an entry ends at its first comma, quote or non-token |
| C99 | Typed, Conditional, Cache, Negotiate, Mime, Forwarded, Timing, Auth (SizeProps) | the reading loops of all typed headers with lists, `Mime::parse`, `Forwarded::parse`, credentials | every loop consumes at least what it keeps: pieces and characters are counted before and after |
| C100 | Debug (DebugProps), DebugMore (DebugMoreProps) | hand-written and derived `Debug` of headers, conditions, Vary, Cache-Control, Clear-Site-Data, Allow, credentials, Mime, codings, Forwarded, TraceContext, ServerTiming, Body, StatusCode; proposals and their lists, HSTS, Age, Content-Length, Content-Type, dates, Retry-After, Report-To, URL headers, Connection, Extensions | every printer is shown to be self-delimiting (two outputs followed by anything that starts with a separator can be cut in one way only), structure by structure |
| C101 | ReportTo, Security (CspProps) | security/csp.rs: the JSON of `report_to`; the policy text read by an independent CSP Level 3 reader | parts have no separators; JSON strings decoded character by character |
| C102 | Rfc (InteropProps) | the text of every list-valued and parameterised typed header, read by an independent reader of the RFC 9110 grammar (Rfc.v models no code) | f64 display is a parameter (Server-Timing) |
| C103 | Rfc (InteropReadProps, InteropMediaProps, InteropDateProps, InteropTimingProps) | the readers of Server-Timing, Cache-Control, If-Match, If-None-Match, Vary, Allow, Clear-Site-Data, Strict-Transport-Security, Accept, Accept-Encoding, TE and media types, on texts that follow the RFCs | texts are ASCII; WWW-Authenticate and Forwarded are in C47 and C37 |
| C104 | Negotiate, Mime (SpecificProps) | Accept::negotiate and AcceptEncoding::negotiate against RFC 9110 sections 12.5.1 and 12.5.3 | C52 and C71 say what is read; TE is left out (section 10.1.4 has no star) |
| C105 | Trace (TraceW3cProps) | TraceContext::from_headers, child, Display against W3C Trace Context section 3.2 | the recommendation's reader is written afresh; tracestate is not in the crate |
| C106 | Conditional, Other (RevalidateProps) | ETag copied into If-Match / If-None-Match, Last-Modified copied into If-Modified-Since / If-Unmodified-Since | RFC 9110 section 13.1 written down on tags; C40_any_layout and C72 for the reading |
| C107 | Forwarded, Trace (ChainProps) | a request through n proxies (Forwarded) and n services (traceparent) | the step of a proxy and of a service put together from the modelled functions; induction on the chain with C35 and C63 |
| C108 | Negotiate, Other (WireProps) | proposals through Accept-Encoding, TE or Accept to the server and its choice back through Content-Encoding, Transfer-Encoding or Content-Type | rounding to thousandths is monotone and the sort commutes with it exactly if weights written alike do not stand in decreasing order |
| C109 | Auth, Hyperium (AccessProps) | the dialogue of WWW-Authenticate and Basic credentials, with a server that looks the pair up in a table and a client that looks the realm up | the server's table and the client's are parameters; uses the exact reading of C45 and the trip of C97 |
| C110 | all typed headers (BuildProps) | sequences of applications of typed headers, in any order | `sets` abstracts what an application does; every typed header is shown to be one |
| C111 | Cache, Other (FreshProps) | Age through a chain of caches, and freshness judged from Age and max-age or from Expires and Date | what a cache does (`kept`, `fresh`) is written after RFC 9111, sections 4.2 and 5.1; the crate has no cache |
| C112 | DebugMessage (DebugMessageProps) | derived `Debug` of Request, Response, ContentSecurityPolicy, Version and of the halves of the trailers' and upgrade channels | self-delimiting printers as in C100; the url crate's text is a parameter, async-channel's `Sender { .. }` is written down from its source |
| C113 | Body, Other, Message (ConnectionProps) | bodies taken one after the other from one reader, with their lengths in Content-Length | the receiver (`received`) is what a server built on the crate does; in Rust the reader would be shared, here the rest of the script is handed on |
| C114 | Conditional, Cache, Negotiate, Other, Timing (MiddlewareProps) | list headers read, extended and written back by one layer after another | a layer (`layer`) is what a user of the crate writes; pushing is appending, as shown in C85 |
| C115 | Negotiate (ChoiceProps) | two negotiations that differ in one format, proposal or weight | as in C48-C51 |
| C116 | Body (NestingProps) | expressions of bodies and calls of `chain` | as in C26 |
| C117 | Timing (RelayTimingProps) | chains of programs that read and write Server-Timing | as in C66; `near_contract`: `Duration::from_secs_f64` is less than a nanosecond off |
| C118 | Other, Security (BrowserProps) | Strict-Transport-Security as a browser hears it | the browser is written down from RFC 6797 |
| C119 | Other (OriginProps) | Timing-Allow-Origin as a browser checks it | the check is written down from the Fetch standard; `printed`: the url crate prints origin, slash, rest |
| C120 | Conditional, Negotiate (SharedCacheProps) | Vary and negotiation seen through a shared cache | the cache is written down from RFC 9111, section 4.1, without freshness; lines of requests are trimmed |
| C121 | Security (HelperProps) | chains of security helpers as a browser obeys them | the browser is written down from the HTML, Fetch and Referrer Policy standards and RFC 6797 (as in C118); lists are read line by line |
| C122 | Other, Body (FrontProps) | Content-Length behind a front that follows RFC 9112 | the front is written down from RFC 9112, section 6.3 and RFC 9110, section 8.6, without Transfer-Encoding |
| C123 | Conditional, Other (EditProps) | concurrent editing with ETag and IfMatch | clients and server are written down from RFC 9110, section 13.1.1; acts are atomic |
| C124 | Trace (CallTreeProps) | trace contexts over trees of calls | services and collector are written down here; random ids are inputs and supposed to differ |
| C125 | Query, Body (FormProps) | forms and queries made of names and values | the format is written down from the URL standard, section 5, for lists of pairs in place of serde_urlencoded and serde_qs; `lossy` (decodes valid UTF-8) and `enc` (leaves the characters of a form alone) are parameters |
| C126 | Other, Clock (RetryProps) | clients that obey Retry-After | service, client and lags are written down here; clocks run at the same rate and differ by a constant |
| C127 | Cache (ForgetProps) | Clear-Site-Data as a browser obeys it | the browser is written down from Clear Site Data (W3C), section 4; every kind of data belongs to the site that answers |
| C128 | Other (RefusalProps) | Allow handed on by gateways to a client that obeys it | gateways and client are written down from RFC 9110, sections 15.5.6 and 10.2.1 |
| C129 | Other (ContinueProps) | Expect and Content-Length between a client and a server that run at the same time | both are written down from RFC 9110, section 10.1.1, as a transition system; the client has no timer |
| C130 | Channel (WaitProps) | when a receiver of trailers or of an upgrade waits | over the transition system of C30 |

## Trusted base

* The kernel of Coq 8.16.1, including its virtual machine (`vm_compute`); the gate also runs `coqchk`,
  which does not use it.
* Axioms: none. `Print Assumptions` says "Closed under the global context" for every theorem in every
  `*Props.v` file. (`coqchk` lists `Coq.ssr.ssrunder.Under_rel.*` because the standard library module is
  loaded through `lia`; no theorem uses it.)
* That the model says what the code says. Each definition cites the lines it models and says where it
  simplifies.
* What the model takes for granted about code outside this crate:
  * std: `str`/`slice` functions (`split`, `splitn`, `trim`, `find`, `strip_prefix`, ...),
    `char::is_whitespace` for the ASCII range and the Unicode White_Space list written out in Base.v;
    `uN::from_str`/`from_str_radix` (a leading `+` is accepted); integer and hex formatting; `HashMap`
    as a map with arbitrary iteration order; `Duration` arithmetic; `f32`/`f64` parsing, printing and
    arithmetic as correctly rounded (Float.v), `partial_cmp`; `as u8`/`as u16` truncation;
    `sort_unstable_by` as any function that returns a sorted permutation; `slice::sort` likewise.
  * `Display` of f64 and `Duration::from_secs_f64` in Server-Timing are parameters. `show_contract` asks
    that what is printed parses back to the same number; `nanos_contract` that whole nanoseconds are
    exact. `C66_contracts` proves that functions with these contracts exist.
  * base64 0.13 `encode`/`decode` with the standard alphabet; padding is written, and optional when decoding (Auth.v).
  * url crate: parse, join and Display are parameters (`url_contract` in OtherProps.v, `printed` in OriginProps.v).
  * http crate 0.2: methods, status codes, header values and the `HeaderMap` iteration order are written
    out in Hyperium.v; which header names and URIs it accepts are parameters.
  * async-channel: a bounded queue of capacity 1 with cloneable ends (Channel.v).
  * futures-lite `Chain` and `Cursor`, and readers in general: a reader is the list of its future poll
    results (Body.v).
  * serde: only the number given to `Deserialize for StatusCode` and the strings of `Method`/`Version`
    are modelled, and the JSON text serde_json writes for `ReportTo` (ReportTo.v; its escaping rules are trusted).
    serde_json / serde_qs are parameters of the body functions.
  * fastrand: the random identifiers of a trace context are parameters.

## Not modelled

* Texts of error messages, backtraces, logging; the indented `Debug` output (`{:#?}`), and the `Debug` output of iterators. The plain `Debug` output of the other types is in Debug.v, DebugMore.v and DebugMessage.v; how std prints an `f32` and how the url crate prints a URL are parameters there (`dbg_f32` with the promise that the text is read back as the same value, met by `C100_f32_contract`; `dbg_url`), and `SystemTime` is printed as on Unix; which non-ASCII characters std prints unescaped is a parameter (`shown`) there, and std's `debug_list`, `debug_map`, `debug_struct`, `Debug for str` and `Debug for Duration` are written down from their documentation and source.
* The file system and the infer crate: parameters of Files.v, which assumes that a file does not change while a
  body is made from it.
* The formats of serde_qs, serde_json and serde_urlencoded and the percent-encoding of the url crate (parameters of
  Query.v); that the url crate keeps a URL's query between the first '?' and the first '#' of its text.
* Wakers and pinning: a poll either progresses or is pending; a pending poll changes nothing.
* `Sync`/`Send` and memory safety; the `unsafe` blocks appear as what they assume (text is ASCII), and
  `from_bytes_unchecked` in hyperium_http.rs appears in C67 as a value that is not ASCII.
* Limits of the allocator and `usize`, except where an explicit conversion is written in the code.

## Findings

Every line is a theorem about the model with a concrete witness, checked by the kernel. Names are
theorem names in `rocq/theories`.

Dates and numbers
* 31 February, wrong weekdays and `+1` numerals are accepted as dates (`C05_only_real_dates_refuted`).
  Any one ASCII character may stand between the year and the time of the RFC 850 form. `C05_accepted_iff` gives exactly the accepted texts
  and the instant each of them is.
* Deserializing a status code keeps the low 16 bits: 65736 is 200, -65132 is 404
  (`C11_deserialize_only_supported_refuted`).
* Content-Length accepts `+5`, and differing lengths are not refused (`C55_refuted`).
* Writing a date header or Retry-After outside 1970..9999 panics (`C57_write_panics`, C72).
* Age is rounded above 2^53 seconds and reading one within 1024 of 2^64 panics
  (`C43_rounded_refuted`, `C43_panics_refuted`).

Headers
* A header can be present with no value (`C16_present_header_nonempty_refuted`); `values().size_hint()`
  counts names, not values (`C17_size_hint_refuted`).
* Conversion from the http crate keeps only the first value of each name
  (`C67_from_http_refuted`); a message converted from http gets the body's default type as an additional first
  Content-Type, and its values are not checked (`C67_content_type_refuted`); unknown
  methods and status codes panic (`C67_total_refuted`); `get` becomes `GET` (`C67_method_case_refuted`).
* Traceparent and Forwarded read the first value, all other single-valued headers the last
  (`C68_traceparent_refuted`).

Media types
* Two charset parameters, `utf-8` second: lookup and iteration disagree (`C21_params_refuted`).
* `charset=utf-8` in a media range is ignored; reflexivity fails for two charsets (`C22_subset_eq_refuted`).
* A media type parameter can put non-ASCII text into a header value (`C23_mime_header_value_refuted`).
* Observation: `from_extension` knows neither png nor jpg.

Bodies and messages
* `poll_fill_buf` ignores the declared length and does not count (`C28_buffered_read_*_refuted`).
* `into_string` panics for a declared length above `isize::MAX` (`C27_into_string_panics_refuted`).
* `into_json` reports a read failure as 500 (`C27_json_read_failure_refuted`).
* A cloned Response shares the trailer and upgrade channels; a cloned Request cannot send trailers
  (`C31_response_clone_steals_trailers_refuted`, `C31_request_clone_cannot_send_refuted`).
* Observation: `take_body` on a message without Content-Type sets application/octet-stream.

Forwarded and tokens
* `parse_quoted_string` refuses `!`, accepts U+000F, and drops or splits non-ASCII characters (`C38_*_refuted`).
* `Forwarded::parse` panics on `for=a,`, `for=a, b` and some non-ASCII text (`C36_*_refuted`).
* Parameter names are case-sensitive, several elements are an error, a repeated `for` is accepted
  (`C37_*_refuted`).
* Accepted although not in RFC 7239: a semicolon at the end, and pairs run together after a quoted value
  (`by="x"host=h`).  `C37_accepted_iff` gives all accepted ASCII texts, `C36_panics_iff` all panicking ones,
  `C35_round_trip_iff` all ASCII values that survive.
* Writing and reading back fails for host only, host with port, `!`, empty for, non-ASCII and allows
  injection (`C35_*_refuted`).
* `Request::host`/`remote` disagree with the parser (`C32_*_refuted`).

Conditional and caching headers
* ETag constructors do not validate; a backslash panics in debug builds (`C39_*_refuted`).
* If-Match/If-None-Match: a tag with a comma never reads back; the empty list is a 400 (`C40_*_refuted`).
* Vary: the empty list becomes one empty name, a comma splits a name, the name `*` becomes the wildcard
  (`C41_*_refuted`).
* Cache-Control: `SMaxAge` is written `s-max-age`, which is not read; fractions are cut
  (`C42_s_maxage_refuted`, `C42_fraction_refuted`).
* Clear-Site-Data panics on unknown, unquoted and empty directives (`C44_*_refuted`).

Authentication
* A user name with a colon comes back as another pair (`C45_colon_refuted`).
* A realm with a quote is cut; many legal challenges are refused (`C47_*_refuted`).

Negotiation
* q=0 is chosen; a missing q ranks lowest for codings (`C50_*_refuted`).
* Content-Encoding and Transfer-Encoding panic on an unknown coding and on a list (`C54_panics_refuted`,
  `C74_coding_list_refuted`); an unknown last value is skipped (`C68_coding_refuted`).
* `; q=` and `Q=` are refused, `*;q=0.5` is ignored (`C70_refuted`). `C70_accepted_iff` says exactly which texts are
  read and as what: weights may have a sign, an exponent, any text after a further `;` or `=`, and (`C70_weights`) may be up
  to 1 + 2^-24, because std rounds such numbers to 1.
* Accept: a comma in a quoted parameter cuts the proposal, a parameter `q` is taken for the weight, no weight comes back as 1
  (`C71_refuted`; `C71_round_trip_iff` says exactly which lists come back).
* Out-of-range weights carry status 500 (C52).

Security, tracing
* HSTS: `includeSubdomains` is written but only `includesubdomains` is read (`C60_round_trip_refuted`).
* CSP: applying a policy twice repeats its directives (`C61_second_application_refuted`); a default policy
  plus a builder call gives two `script-src`; a semicolon in a source injects a directive (`C61_example`).
* `powered_by` uses a mixed-case name, so removal and insertion are invisible (`C62_powered_by_stays_refuted`).
* Timing-Allow-Origin: a comma in a URL and the empty list do not come back (`C73_origins_comma_refuted`).
* Trace context: fewer than four fields panic, a bad version is a 500; `+`, short, upper-case and extra
  fields are accepted (`C64_total_refuted`, `C64_texts_partial`).
* Server-Timing: negative, NaN, infinite and huge `dur` panic (`C66_total_refuted`); long durations panic
  when read back (`C66_long_duration_refuted`); separators in a description are not escaped
  (`C66_description_refuted`). With a `Duration::from_secs_f64` that cuts instead of rounding (older std), a
  duration can lose a nanosecond each time it is written and read (`C66_drift_refuted`); with the rounding one
  every duration below 4096 s comes back exactly (`C66_short_durations`).
* Allow: the empty set cannot be read back (`C59_empty_set_refuted`).
* Reading and rewriting loses something: s-maxage, includesubdomains, a quoted Forwarded host, a header of only
  `"null"` origins, `Vary: ,*`, `Forwarded: for=""` and `for="a \!"` (`C75_*_refuted`; for Forwarded
  `C75_forwarded_partial` says exactly which headers survive); rounding weights to three decimals can change which coding is
  negotiated (`C75_codings_refuted`).
* Header names and values may be any ASCII text: CR LF, NUL, colons, spaces and the empty name are accepted, and the
  free-text typed headers (ETag::new, Authorization, WWW-Authenticate, Vary, Server-Timing, CSP) pass them through, so
  header injection is possible from unvalidated input (`C76_*_refuted`).
* Reason phrases of 203, 226, 300 and 416 are not the registered ones (`C78_registered_refuted`).
* Unreadable Accept, Allow, Referer, SourceMap, Forwarded headers and out-of-range weights are reported as 500,
  not 400 (`C79_*_refuted`).
* ETag, Age, Expect, a Retry-After number, Authorization and WWW-Authenticate are not trimmed
  (`C80_values_refuted`); Timing-Allow-Origin is trimmed only in
  front, so `* ` and a quoted null with a blank behind it are refused (`C80_origins_refuted`); blanks behind
  a URL are left to the URL parser, which drops them (`C80_origins_partial`).
* CSP: `Source::Src` writes `'src'`, which is no CSP keyword (`C61_source_refuted`).
* Negotiating twice with the same `AcceptEncoding`, `TE` or `Accept` value gives different answers when weights tie:
  "gzip, br" picks br, then gzip, then br, ... because `negotiate` sorts the value in place and prefers later entries
  (`C86_refuted`, `C86_media_refuted`; exact behaviour `C86_alternates`, `C86_second_answer`, `C86_repeatable_iff`).
* `Error::type_name` of an error made with `from_display`/`from_debug` is `anyhow::Error`, not the type of the cause
  (`C87_type_name_refuted`).
* `Body::from_file*` sniffs the whole zeroed 300-byte buffer, so a 3-byte file `00 00 01` is an icon
  (`C88_padding_refuted`); sniffs from the cursor but sends from the start (`C88_cursor_refuted`); trusts one short read
  (`C88_short_read_refuted`); and trusts the metadata length, so files under /proc become empty bodies
  (`C88_metadata_refuted`).
* A `Retry-After` with a huge number of seconds is accepted, and then every use of the value (`duration_since`,
  conversion to `SystemTime`) panics, because `SystemTime + Duration` overflows (`C91_usable_refuted`; `C91_usable` says
  exactly which values are affected).  `Expires::new` panics likewise (`C91_expires_panics`).
* The derived order of `RetryAfter` puts every delay before every date, whatever they stand for
  (`C91_order_refuted`).
* `PartialOrd` and `PartialEq` of encoding proposals disagree, against the rule of the trait: a proposal without a
  weight equals itself but does not compare with itself, and different codings compare as equal
  (`C92_contract_refuted`).
* `MediaTypeProposal::from(mime)` has no weight and ranks below weight 0, `MediaTypeProposal::new(mime, None)` has
  weight 1 and ranks at the top (`C92_media`).
* Equality of `Mime` depends on the order of parameters and on the case of the charset
  (`C92_mime_meaning_refuted`).
* A `Vary` of one empty name with the wildcard is written as `*`, so the name is lost; two empty names or an empty name
  beside others survive (C41_round_trip_iff).
* A message with several values under one name changes its meaning on a trip through the http crate and back: typed headers read the last value, the conversion keeps the first (C97; Content-Length 5, 7 is read as 7 before and as 5 after).
* Collisions (C98): `If-Match: "a", "b"` is the text of two tags and of the one tag `a", "b`; the Vary name `*` is written like the
  wildcard and an empty name like no name; the Basic user `a:b` with password `c` like `a` with `b:c`; a media type with the
  parameter `q=0.500` like the type with that weight; a Server-Timing description can spell a second metric, a Forwarded host a
  protocol.
* `Debug` of If-Match, If-None-Match, Vary, Clear-Site-Data, Accept, Accept-Encoding, TE and Timing-Allow-Origin does not print the wildcard: a header that matches everything and one that matches nothing print `[]` alike (C100_wildcard_hidden, C100_more_hidden). `Debug` of BasicAuth and Authorization prints the password or token in clear (C100_credentials), and so does `Debug` of a whole request (C112_headers_in_clear).
* A Content-Security-Policy source is written as it is: one with `;` adds directives and one with `,` adds policies (C101_injection_refuted; exactly these two characters matter, C101_read_as_asked). `report_to` writes a JSON object where a group name is expected; its commas split the header into several policies, so that `script-src` and others sorted after `report-to` no longer belong to the policy with `default-src`, and a group name with `;` adds directives (C101_report_to, C101_report_to_refuted).
* Interoperability (C102): the shared maximum age is written `s-max-age`; RFC 9111 calls it `s-maxage`, so no shared cache
  obeys it. The wildcard of Accept is written `*` (a media range is `*/*`). Realms and Server-Timing descriptions are not
  escaped, so a double quote in one adds parameters or metrics for other readers; `by`, `host` and `proto` of Forwarded are
  never quoted, so a host with a port is outside the grammar and a host with a comma adds a hop. Accept, Content-Type and the
  addresses of Forwarded are quoted and escaped properly.
* Reading what others write (C103): lists are cut at every comma, also inside quotes, so `private="a, no-store"` is read as no-store,
  `"a,b"` is no entity tag and `a/b;x="1,2"` makes Accept unreadable; empty elements, which recipients must ignore, are refused in
  If-Match, If-None-Match and Allow and are names in Vary; `max-age="60"`, `Max-Age=5` (Strict-Transport-Security), `GET, QUERY` (Allow) and
  Clear-Site-Data types unknown here make the header unreadable; `GZIP` is not seen as gzip.
* Accept negotiation takes no notice of how specific a range is (C104): `*/*;q=0.9, text/html;q=0.1` sends text/html when
  image/png is there too, and `text/html;q=0, */*` sends the text/html it excludes.  Accept-Encoding negotiation refuses an
  identity that is not listed (`gzip`, with only the identity available, is 406), prefers a listed coding to one that only `*`
  names whatever the weights, and does not see `*;q=0.5`.
* Two-digit years always mean 1970 to 2069, while RFC 9110 section 5.6.7 moves the window with the clock: the readings are
  right for everything a sender may write exactly up to 2019 (C103_two_digit_years).  A second of 60 is refused
  (C103_leap_second_refuted).
* `traceparent` is read more widely than W3C Trace Context allows (C105): capitals, version `ff`, ids of zeros, fields of any
  width, plus signs, and a fifth field at version 00 are all accepted.  A child of a context of a later version is written with
  that version, though the program knows only the fields of version 00, and nothing keeps a random id from being 0.
* Server-Timing of other programs (C103_server_timing, C103_server_timing_refuted): `db;desc="x" ;hit=1` is refused because white
  space before a semicolon becomes part of the value; commas, semicolons, equals signs and escapes in a quoted description and a
  quoted duration are not understood; of two durations the last counts where the specification takes the first.
* A server cannot revalidate with a tag that contains a comma: its own tag, sent back in If-None-Match, is answered with an error (C106_comma_refuted). `==` on ETag is neither of the two comparisons of RFC 9110: used for If-Match it accepts weak tags, used for If-None-Match it misses a weak tag of the same text (C106_equality_refuted). Last-Modified has whole seconds only; a server that compares If-Modified-Since with an instant of finer precision never answers 304 unless the change fell on a full second (C106_subsecond_refuted, C106_full_seconds).
* **Behind two proxies `remote()` is the last proxy** (C107, `C107_remote`, `C107_remote_refuted`).  `forwarded_header_part` splits at
  semicolons and then wants exactly one `=` in a piece, so `for=192.0.2.1, for=10.0.0.1` — what this crate itself writes after `add_for`
  — is skipped.  `remote()` then takes X-Forwarded-For, or the peer address, although `Forwarded::from_headers` lists the client first.
* Weights are sent with three decimals, so a preference below a thousandth is not only lost but can be turned round: of two weights written
  alike the later proposal wins (C108, `C108_close_refuted`; `C108_codings_iff` says exactly when).
* **A name with a colon logs in as somebody else; two Authorization headers mean two users** (C109, `C109_other_name_refuted`,
  `C109_trip_refuted`).  `BasicAuth` does not refuse a name with a colon when it is built, so `ann:x` with password `secret` is read as `ann` with
  password `x:secret`.  `from_headers` looks at the last Authorization header, conversion to the http crate keeps the first: a component in
  front that checks one and a service behind that acts on the other disagree about who is asking.
* **Ages lose up to a second in every cache** (C111, `C111_stale_refuted`).  `Age` writes whole seconds, cutting: a response that is
  passed on by caches holding it for 0.9 seconds each never ages.  The error is always towards fresh.  `s-maxage` never reaches a
  shared cache that uses this crate (`C111_shared_lost`), which then uses the lifetime meant for private caches.
* **A message cut short is accepted, buffered reading runs into the next message** (C113, `C113_short_refuted`, `C113_buffered_refuted`,
  `C113_two_lengths_refuted`).  When the connection ends before the declared length, `into_bytes` returns what there was without an error.  Through
  `AsyncBufRead` a body delivers whatever the reader holds, the next message included.  With two Content-Length headers the end of a message is
  different before and after conversion to the http crate: what one component takes for content the other takes for a request.
* **The shared lifetime does not survive one layer** (C114, `C114_shared_lifetime_refuted`; also `C114_comma_refuted`, `C114_nothing_refuted`).
  A layer that reads Cache-Control, adds `public` and writes it back turns `s-maxage=600` into `s-max-age=600`, which neither this crate nor any
  cache reads.  A tag with a comma added by one layer makes the next one fail with 400; a layer that adds nothing to an absent Vary leaves an
  empty name in it for good.
* **Refusing a coding beside a wildcard leads to it** (C115, `C115_refusing_refuted`).  With `*` a server that has br and gzip chooses br; with
  `*, gzip;q=0` it chooses gzip.
* **The empty body is not neutral for chain** (C116, `C116_empty_refuted`): `Body::empty().chain(text)` is application/octet-stream, because the media
  types differ, and a message given it loses its text/plain.
* **Durations shrink on the way** (C117, `C117_one_loss_refuted`): with a `Duration::from_secs_f64` that cuts, every program that reads and rewrites a
  Server-Timing header may take a nanosecond off a duration; they never grow, and the loss ends at a value that is written exactly.
* **A short policy switches HSTS off; relays drop subdomains** (C118): a policy below a second is sent as `max-age=0`, and a browser then forgets
  what it was told before (`C118_fraction_refuted`); a service that passes a policy on by reading and writing it drops the protection of
  subdomains (`C118_relay_refuted`, from the reader that looks for `includesubdomains` while the writer says `includeSubdomains`).
* **Timing-Allow-Origin never lets anybody in by name** (C119, `C119_pushed_refuted`): an origin is kept as a `Url` and printed with its path, so
  `https://example.com` is sent as `https://example.com/`, which is no origin; browsers compare it with `https://example.com` and refuse. Only the
  wildcard works. A header that other programs wrote correctly is spoilt by reading and writing it (`C119_relay`).
* **Content-Length is only safe behind a strict front** (C122): behind one that refuses conflicting lengths the crate never cuts a connection elsewhere
  (`C122_same_cuts`); by itself it takes the last of two different lengths, and `+5` (`C122_lenient_refuted`), which RFC 9112 asks to refuse.
* `RetryAfter` is cut down to whole seconds in both forms, so a client that obeys it comes back up to a second early, is then told `0` (or an
  instant that has passed) and repeats its request as fast as the connection allows until the second is over (C126_storm_refuted); rounding the
  delay up before `RetryAfter::new` avoids this (C126_once).
* `Referer` writes its URL as it is, fragment and userinfo included, which RFC 9110 section 10.1.3 forbids (`C73_told`, `C73_rules_refuted`).
* `ClearSiteData` of nothing is written as an empty header, and the next layer that reads it panics (`C127_nothing_refuted`).
* A 405 answer with an empty `Allow` (nothing is supported, or the hops have nothing in common) cannot be read: status 500 instead of an empty set (`C128_nothing_refuted`, `C59_empty_set_refuted`).
* `Expect: 100-Continue` makes a willing server answer 400, so the client never sends its body (`C129_spelling_refuted`).
* A message keeps its own sender, so `recv_trailers().await` (or `recv_upgrade`) on a message that has none and is kept never ends (`C130_hangs`, `C130_answered_refuted`).
* Observations: Expect is case-sensitive; Referer and SourceMap report a bad URL as 500, Content-Location
  as 400.

## Testing the theorems

Wrong versions of the model are built in a scratch copy and the proofs rerun. `seeded/LOG.jsonl` has one
line per attempt: the definition edited, the edit, the claim it breaks, which theorems failed, and which
theorems were tightened because nothing (or only an `Example`) had failed.

Right versions are tested too: `RepoTests.v` replays the crate's own unit tests, integration tests and
documentation examples on the model (97 `Example`s, each citing the test it copies, among them the 71 MIME
cases of the Web Platform Tests that the crate carries). All pass. They are tests of the model against what
the authors say the code does, not proofs, and no claim rests on them. Among them are those of
`tests/mime.rs`, which are behind a misspelt `cfg(features = "fs")` and never compiled (with a sniffer that knows
HTML the first of them would fail). Not replayed: `tests/headers.rs`, which is commented out; the `size_of` test; the
texts of errors.
