# Formal model of meilihao/water in Rocq (Coq 8.16.1)

DESIGN.md is written by `mk_design.py` from `design_head.md`, `design_plan.txt`,
`properties.jsonl` and `MANIFEST.json`.

## 1. How the model is built

* Go code is modelled function by function as total Gallina functions.  Each
  definition cites the file and lines it models and states simplifications.
* A Go string is a list of bytes.  A call that may panic returns `Ok`,
  `Panic message` or `Diverge`; running out of fuel is `Diverge`, and every
  theorem that says something about a result excludes it or bounds the fuel.
* Registration is a heap of router objects and a small language of registration
  calls.  The specification (RouterSpec.v) reads the flat history of calls and
  knows nothing of router objects.
* A handler is an arbitrary interaction program over the operations of the
  Context: `PRet`, `PPanic`, an operation and what to do with its answer,
  `Next()`, and a block with defer/recover.  Programs are well founded, so a
  handler ends; apart from that theorems hold for all handlers.
* Serving a request yields a log: handlers started, calls and their answers,
  and what goes to the client.  Most properties are rules on logs.
* Concurrent requests are a small-step machine with a pool of contexts shared by
  any number of goroutines and an arbitrary schedule (Machine.v).
* Go types and values for binding are inductive data; binding is a fuelled
  traversal, specified by relations that do not mention the functions.

## 2. Files (rocq/theories)

| model | code |
|---|---|
| Base, GoStr, Strconv, PathClean, Header | package strings, strconv, path, http.Header as used |
| Pattern, Tree | tree.go |
| Router, RouterTry, Slices, StaticReg | router.go, option.go, engine.go (buildTree), m_static.go (registration) |
| Ctx, Engine, Machine | context.go, environ.go, engine.go, response.go, sync.Pool |
| Content, BindCtx, Upload, HandlerName | content.go, render.go, util.go (nameOfFunction) |
| Mount | engine.go (ServeHTTP, newHandler) and context.go (WriteHeader, Write) for an Engine that is a handler of another |
| NetFile | content.go (ServeFile), with net/http's ServeFile under it, File and StaticFile |
| NetDir | content.go (File, ServeFile) and m_static.go (StaticFile), with the listings of net/http under them |
| Forms | content.go (ParseFormOrMultipartForm, FormFile, Bind), binding/form.go, and net/http's request.go under them |
| Wire | context.go (Write), content.go (Stream, JSON, XML, ...) on connections that fail |
| NetCookie | cookie.go (SetCookie, Cookie), with net/http's cookies under it |
| NetRedirect | content.go (MovedPermanently, Found), with http.Redirect under them |
| NetPath | engine.go:102-110 (the path routed by), with url.ParseRequestURI under it |
| NetHead | what net/http sends of a reply to HEAD |
| NetFrame | what net/http sends of replies, and the loop of a connection |
| NetMultipart | the multipart forms of mime, net/textproto and mime/multipart, under content.go (FormFile, ParseFormOrMultipartForm) and binding/form.go |
| NetServe, NetRange | m_static.go and content.go (Download, Attachment), with http.ServeContent under them |
| NetDate | the dates of package time and net/http that files are sent and asked for with |
| NetQuery | content.go (ParseFormOrMultipartForm), with the forms of net/url and net/http under it |
| Render | render.go |
| Getters, Environ, Util | params.go, query.go, cookie.go, environ.go, util.go |
| Middleware, Static | m_cors.go, m_logger.go, m_recovery.go, m_static.go |
| Binding, Mapping | binding/*.go: Bind and MapForm, Bind2 |
| Listing | router_print.go |

`*Spec.v` hold the specifications, `*Facts.v` and the files named after a part
with a suffix (Tree*, Serve*, Router*, Mapping*, Binding*, Listing*, Machine*,
Static*) the proofs, `Example*.v` computed examples, and `Prop*.v` nothing but
the property theorems, each closed by a lemma, with `Print Assumptions` and an
Example that a concrete case meets the hypotheses.

Names: `Cxx_..._refuted` gives a witness against the property as stated,
`Cxx_..._partial` proves part of it, and what is missing is said in the note.

## 3. What is not modelled

* net/http below the handler interface: parsing of requests, flushing, hijacking,
  trailers.  Connections, Content-Length and chunks are in NetFrame.v only (C115 to C119),
  bodies suppressed for HEAD there and in NetHead.v (C110).  Failing writes are modelled
  apart, in Wire.v (C90, C91), and do not occur in the rest of the model.  The writer
  obeys the documented contract (first WriteHeader wins, Write sends 200, headers
  are frozen by then, an invalid code panics).  A request body is its bytes and how it
  ends (C97); waiting for it, and reading while it arrives, are not modelled.
* ListenAndServe, ListenAndServeTLS, Run, RunTLS (only the address they choose).
* ReadCloser, WrapHandler (it is newHandler), SetRender while requests are served,
  templates,
  version.go's constants beyond whether the version is stable, the benchmark directory and tests.
* Handlers that do not end.  Goroutines that handlers start and that use the
  Context, also after the request, are in Stray.v only (C95), a call of a method
  being one step.
* Router.v takes slices for lists.  Slices.v models registration and Handler() with
  slices in memory (shared arrays, append in place, clients that write to slices
  they passed) and C92-C94 say when the two agree; slices elsewhere (Params, bodies,
  header values) are lists.
* Strings are bytes: ToUpper and ToLower map ASCII letters only; fmt's field
  widths count bytes.
* The time stamp in front of Recovery's log line.

## 4. Trusted base

* Coq 8.16.1's kernel and, for examples, its virtual machine.
* `Print Assumptions` says "Closed under the global context" for every theorem
  in MANIFEST.json: no axiom, neither of this development nor of the standard
  library, is used.  (Libraries that are loaded declare some, e.g. ssreflect's
  `under` constants; no theorem depends on them.)
* The model is a hand-made reading of the source.
* What is outside the repository enters as section variables, so theorems hold
  for every value of them: the regexp engine (`re_ok`, `re_find`; but for C114, where it is in NetRegexp.v, for the expressions described there),
  http.DetectContentType (`sniff`; but for C113, where it is in NetSniff.v), form parsing (`parse_form`, `mform`, `query`; but for C104 and C105, where it is in NetQuery.v, without the media type and the multipart reader, which are in NetMultipart.v for C111),
  the JSON and XML decoders, the struct validator, ParseFloat, time parsing and
  zones (record `golib`), the names of functions at run time (`fname`), the file system, http.ServeContent (but for C96 and C109, where it is in NetServe.v and NetRange.v, with the type of a file and the random boundary as variables) and http.ServeFile (but for C100 and C120, where it is in NetFile.v and NetDir.v),
  http.Redirect's target and page (but for C106, where they are in NetRedirect.v, without the parsing of an authority), cookie lookup (but for C102 and C103, where it is in NetCookie.v), the text of the panic and stack,
  times and URL text in log lines (`logfmt`), and the code of client handlers.
  Where a theorem needs to know something of them it is a hypothesis of the
  theorem, met by the Example beside it.
* Map iteration order is an arbitrary permutation.

## 5. Property by property

### C01 Dispatch is sound (proved)

M: tree.go as an inductive tree built by successive `add`, matched by `Match`; the regexp engine is an arbitrary pair of functions; engine.go's buildTree and ServeHTTP on top. P: invariant between the tree and the list of registered routes (TreeFacts), induction on the tree for matching (TreeMatch), lifted to engines through the registration history (ServeTop, ServeParams).

Theorems: `C01_served_by_a_fitting_route`, `C01_dispatch_sound`.

### C02 Dispatch is complete (proved)

M: as C01. P: induction on the tree: if a route fits the path, the matcher does not return none.

Theorems: `C02_dispatch_complete`.

### C03 Route priority (proved)

M: as C01. P: the declarative order `beats` of TreeSpec; the chosen route beats every other fitting route; `beats` is shown to be a strict order (TreeOrder).

Theorems: `C03_one_chain`, `C03_served_by_its_chain`, `C03_served_by_the_best_route`, `C03_priority`.

### C04 Captured parameters are exact (partial)

M: as C01 with the parameter map threaded through dead ends as the code does. P: parameters described position by position (TreeParams, TreeLasting); refutations by evaluation of two concrete tables.

False as stated: a dead-end regexp segment leaves its parameter behind (refuted twice). Proved, for trees and for engines: exactness for tables without inner regexp segments; in all tables, the right value for every name the chosen route binds otherwise than by an inner regexp segment, and that every deviation comes from a dead-end inner regexp segment.

Theorems: `C04_lasting_partial`, `C04_served_params_partial`, `C04_params_exact_refuted`, `C04_params_value_refuted`, `C04_params_left_partial`, `C04_params_exact_partial`.

### C05 Same-kind patterns are tried in registration order (partial)

M: as C01. P: the order in which same-kind nodes are tried is the registration order (ListFacts); refuted for catch-alls.

False for catch-alls taking several segments (last registered wins). Proved: exact order for all kinds.

Theorems: `C05_catch_all_order_refuted`, `C05_same_kind_order_partial`.

### C06 Slash insensitivity (proved)

M: strings.Trim and Split as total functions. P: lemma on strings, then on Match.

Theorems: `C06_slash_insensitive`.

### C07 Static router is a pure optimisation (partial)

M: the static map of engine.go beside the tree. P: two engines made from one history with and without the option are compared (ServePairs) by a simulation of runs (Sim).

False: with the static router Params is nil (or stale), and routes with an empty segment are found only by it (two refutations). Proved: equal replies for paths not spelled like a literal route, and for literal routes without empty segments whose handlers do not use Params.

Theorems: `C07_params_refuted`, `C07_empty_segment_refuted`, `C07_static_router_partial`.

### C08 Requests do not observe earlier requests (partial)

M: the recycled context is an arbitrary argument of ServeHTTP. P: simulation of runs from two contexts (Sim, ServeMore).

False: a static hit keeps the Params of the recycled context. Proved: independence when the path is not a static hit, when the static router is off, and when no handler uses Params.

Theorems: `C08_recycled_params_refuted`, `C08_recycled_context_partial`, `C08_no_static_router_partial`, `C08_no_params_partial`.

### C09 Middleware order (proved)

M: router objects in a heap, registration calls as an operation language. P: invariant between heap and history (RouterFacts), the dump against the history (RouterDump).

Theorems: `C09_middleware_order`, `C09_use_order_irrelevant`.

### C10 Group middleware is confined to its group (partial)

M: as C09. P: comparison of two histories that differ by one Use.

False for middleware passed to Group itself. Proved: a Use call on a group changes exactly the routes inside it.

Theorems: `C10_group_middleware_refuted`, `C10_use_confined_partial`.

### C11 Duplicate routes are rejected (proved)

M: route store of router.go. P: invariant of the store, iff over all histories.

Theorems: `C11_duplicates_panic`, `C11_accepted_distinct`.

### C12 No registered route is silently shadowed by an equivalent spelling (partial)

M: as C01. P: from C01-C03: a generic path with fresh segments decides whether a route is covered by others (Reach.v); refutation by evaluation.

False: /:id and /<id> are both accepted and the second is never reached. Proved: exactly which routes are reached, for tables without regexp segments (the exact condition, both on the tree and for requests to an engine); with regexp segments, a sufficient condition for never being reached, that a route is reached by requests it alone fits, and that literal routes are reached by their own path.

Theorems: `C12_shadowed_refuted`, `C12_sole_route_partial`, `C12_literal_route_partial`, `C12_reachable_partial`, `C12_reached_partial`, `C12_unreached_partial`.

### C13 Exact acceptance condition of Handler() (proved)

M: router.go Handler, option.go. P: iff over all histories and options (HandlerFacts).

Theorems: `C13_handler_accepts_iff`.

### C14 Root-only operations (proved)

M: as C13. P: case analysis on the operation and the lineage of the router.

Theorems: `C14_root_only`, `C14_root_allowed`.

### C15 ANY registers every method except the excluded ones (proved)

M: router.go Any. P: induction on the list of methods.

Theorems: `C15_any`, `C15_any_default`.

### C16 Each handler runs at most once and in order (proved)

M: handlers are arbitrary well-founded interaction programs over the operations of the Context, with nested Next and defer/recover; the run is logged. P: induction on programs (CtxFacts, ServeProps).

Theorems: `C16_at_most_once_in_order`.

### C17 The chain stops once the response is written (proved)

M: as C16. P: rule on logs proved as an invariant.

Theorems: `C17_chain_stops`, `C17_all_run`.

### C18 The first status wins and Status() reports it (proved)

M: context.go WriteHeader and Write over a writer obeying net/http's contract. P: invariants on logs.

Theorems: `C18_flags`, `C18_first_status_wins`, `C18_explicit_header`.

### C19 Implicit header on first Write (proved)

M: as C18. P: as C18.

Theorems: `C19_implicit_header`.

### C20 Content type of the response helpers (partial)

M: content.go helpers as programs. P: computation of the run for an arbitrary continuation; refutation for every string.

False as stated: the helpers send the header before they set Content-Type, so the client gets the type that net/http guesses (C20_content_type_refuted). Proved: status and body are exact and the type is the guessed one; Stream delivers its type. Behind other handlers that have not answered the same holds, over the headers they set (C20_behind_partial, C20_stream_behind_partial).

Theorems: `C20_behind_partial`, `C20_stream_behind_partial`, `C20_content_type_refuted`, `C20_response_helpers_partial`, `C20_stream_partial`.

### C21 Recovery contains every panic (partial)

M: m_recovery.go as a program with try/recover. P: execution lemma for Recovery (RecoveryFacts) for every chain before and behind it.

False in two corners: ctx.WriteHeader with an invalid status panics after the Context has noted it, so no 500 is sent (C21_status_refuted); a handler before Recovery that calls Next twice starts a handler outside Recovery (C21_escape_refuted). Proved for every chain whose handlers before Recovery are calm, whatever the later ones do.

Theorems: `C21_status_refuted`, `C21_escape_refuted`, `C21_recovery_contains_partial`, `C21_logger_is_calm`, `C21_cors_is_calm`.

### C22 Protocol-level refusals (proved)

M: engine.go ServeHTTP. P: case analysis.

Theorems: `C22_refusals`, `C22_no_other_refusals`.

### C23 Unmatched requests (proved)

M: as C22. P: case analysis and C01/C02.

Theorems: `C23_unmatched`.

### C24 FullPath names the dispatched route (partial)

M: as C22. P: C01-C03 with the URI stored in the node.

False when two spellings of one pattern are registered. Proved: exactly which URI is reported in general, and the property for tables without such duplicates.

Theorems: `C24_wrong_path_refuted`, `C24_full_path_partial`, `C24_full_path_distinct_partial`.

### C25 Context values are write-once (proved)

M: environ.go on the Context. P: rules on logs over all runs.

Theorems: `C25_environ`, `C25_write_once`.

### C26 CORS origin decision (partial)

M: m_cors.go as a program. P: computation of the run for arbitrary configurations and continuation; list induction for the origins; behind other handlers, from the log of the run (CorsMore).

The decision, the preflight answer and the continuation are proved for CORS as the first handler and, over what the handlers before it left, anywhere in the chain. C26_no_route_refuted: a preflight request for a path without an OPTIONS route never reaches the middleware and is answered 404.

Theorems: `C26_preflight`, `C26_ordinary`, `C26_origin_decision`, `C26_preflight_behind`, `C26_ordinary_behind`, `C26_no_route_refuted`.

### C27 Logging does not alter the request (partial)

M: m_logger.go as a program; reading, closing and replacing the body. P: simulation between the chain with and without Logger, over bodies in memory and on the wire (LoggerFacts, BodyFacts).

False as stated, in three ways: a JSON body longer than the limit (1<<20) is cut (C27_long_body_refuted, for every limit); a JSON body that breaks off is taken for a complete one (C27_broken_body_refuted); a second read gives an empty body where it failed without Logger (C27_second_read_refuted). Proved: the rest of the chain always runs as it would alone on the body that Logger leaves, and if the body is no longer than the limit, arrives whole and is not read again after it was closed, the chain runs as it would alone on the body that arrived. Logger's own lines are part of the statement.

Theorems: `C27_long_body_refuted`, `C27_logger_chain_partial`, `C27_logger_invisible_partial`, `C27_no_errors`, `C27_broken_body_refuted`, `C27_second_read_refuted`.

### C28 Integer getters (partial)

M: strconv's integer parsing and formatting. P: induction on digits (StrconvFacts).

numbers, clamping and round trip proved for every integer getter; "0 when not a number" is false for a >64-bit number followed by other text (refuted), proved otherwise. Floating-point numbers: C87.

Theorems: `C28_number`, `C28_unsigned_number`, `C28_round_trip`, `C28_not_a_number_refuted`, `C28_not_a_number_partial`.

### C29 Query accessors (partial)

M: query.go over url.Values. P: case analysis; list induction.

Plain accessors proved; QueryMap also accepts names that continue after the bracket (refuted), exact otherwise.

Theorems: `C29_present`, `C29_determined`, `C29_absent`, `C29_map_refuted`, `C29_map_partial`, `C29_parsed_once`.

### C30 QueryMap is deterministic (partial)

M: map iteration as an arbitrary permutation. P: permutation invariance of the fold.

Two names that continue differently after key[x] collide, so the result depends on the map iteration order (refuted). Proved: deterministic when no name continues after the bracket (C30_query_map_partial), and exactly when such names have the same value (C30_exact_partial); otherwise every one of the values is returned in some order (C30_any_order_partial).

Theorems: `C30_query_map_refuted`, `C30_query_map_partial`, `C30_exact_partial`, `C30_any_order_partial`.

### C31 Binder selection (proved)

M: binding.go Default, ctx.Bind as a program. P: case analysis and execution lemma.

Choice of the decoder for every method and Content-Type, and the whole of ctx.Bind as a program over the Context. Decoding JSON/XML bodies and parsing forms are parameters.

Theorems: `C31_choice`, `C31_body`, `C31_form`.

### C32 Numeric form fields are stored faithfully or rejected (partial)

M: map_form.go over struct types and values as inductive data. P: induction on the fuel of the traversal against the relation of BindingSpec.

False as stated: integers are parsed with 64 bits and cut to the width of the field (C32_refuted: int8 bound to 300 holds 44). Proved for every number that fits, for nested structs, pointers and slices; what is not a number makes the call fail.

Theorems: `C32_refuted`, `C32_partial`.

### C33 Form field selection (partial)

M: as C32. P: as C32.

False as stated: a nil pointer to a struct is replaced although nothing selects it (C33_refuted). Proved: unselected and unexported fields keep their value on every outcome, selected ones hold what the text says up to C32 and C56, uploads, and which forms are accepted. Fields inside a struct that is itself selected (decoded as JSON) are not covered.

Theorems: `C33_untouched`, `C33_written_partial`, `C33_uploads`, `C33_accepted`, `C33_refuted`.

### C34 Binding terminates (partial)

M: as C32. P: lower bound on the fuel for finite types; divergence for every fuel for a recursive one.

False for types that contain themselves through nil pointers (C34_refuted: no amount of nesting is enough). Proved: ends for all other types; finite depth is the exact condition.

Theorems: `C34_refuted`, `C34_partial`, `C34_depth`.

### C35 Map binding (partial)

M: map targets of map_form.go. P: fold over permutations.

map[string][]string proved. map[string]string: proved when every key has a value; a key without values panics (C35_refuted).

Theorems: `C35_all_values`, `C35_last_value_partial`, `C35_refuted`.

### C36 ETags identify file versions (proved)

M: util.go tags, fmt's %x. P: injectivity of hexadecimal formatting and of the joined text; a separate reader of hexadecimal numbers and texts gives the parts back (C36_reads, C36_reads2).

Theorems: `C36_etag`, `C36_etag2`, `C36_reads`, `C36_reads2`.

### C37 Content-Disposition cannot be injected (proved)

M: url.PathEscape. P: round trip and alphabet, induction on bytes.

Theorems: `C37_disposition`, `C37_plain_name`, `C37_bytes`, `C37_injective`.

### C38 Client address (partial)

M: util.go RealIp. P: string lemmas.

Entries separated by "," alone are not split (refuted); an empty first entry falls through to the remote address. Proved for ", ".

Theorems: `C38_proxy_refuted`, `C38_proxy_partial`, `C38_real_ip_partial`.

### C39 Static serves only from the configured file system (partial)

M: m_static.go's handler over an arbitrary file system. P: execution lemmas case by case.

False as stated: for a directory with final slash the index is read from the file system of the process, relative to its working directory (refuted; C39_listing_refuted: without an index file, as Static registers it, a directory of the process is listed). Proved: the replies case by case for any file system, and that in all other cases they depend on the configured file system and the requested name only. http.ServeContent and http.ServeFile are parameters of the model.

Theorems: `C39_listing_refuted`, `C39_replies`, `C39_pattern`, `C39_file_system_partial`, `C39_file_system_refuted`.

### C40 Static conditional requests (partial)

M: as C39; unix_second for the seconds of a time. P: as C39 with C36; a file changed within a second keeping its size keeps its tag and gets 304 (C40_same_second_refuted), and no other change of time or size does (C40_other_second_partial).

304 without content for the current tag, and any other request gets what http.ServeContent makes of the file (C40_tags_partial); with ServeContent as it is in Go 1.15 (NetServe.v, NetRange.v), every reply has the tag and 200 the whole content (C40_every_reply). That a tag stands for one content is refuted: tags have seconds, so a file rewritten within one second with the same size keeps its tag and is answered 304 (C40_same_second_refuted).

Theorems: `C40_every_reply`, `C40_tags_partial`, `C40_tag_identifies`, `C40_same_second_refuted`, `C40_other_second_partial`.

### C41 Gin-style patterns are equivalent to angle-bracket patterns (proved)

M: router.go's rewriting of patterns. P: characterisation per segment; equal trees and replies (Variant, ServePairs).

Theorems: `C41_same_replies`, `C41_variant_segments`, `C41_variant_idempotent`, `C41_variant_plain`, `C41_same_tables`.

### C42 Contexts are never shared between concurrent requests (proved)

M: Machine.v: small-step interleaving of ServeHTTP by any number of goroutines sharing the pool; arbitrary schedules. P: ownership invariant.

Interleaving model of ServeHTTP over a shared pool (Machine.v): contexts in use are pairwise distinct and not in the pool in every reachable state, and a step touches only the context and connection of its own goroutine. Handlers that keep the Context after they return are outside the model.

Theorems: `C42_contexts_not_shared`, `C42_steps_stay_home`.

### C43 Concurrent requests do not interfere (partial)

M: as C42. P: each goroutine's steps are simulated by its run alone (MachineFacts).

False: a static-router hit shows the Params left in the recycled context by another request. Proved: every ended request went exactly as if served alone with a context that had served only whole requests, hence the lone response when the path is no static hit, the static router is off, or no handler uses Params.

Theorems: `C43_recycled_params_refuted`, `C43_as_if_alone_partial`, `C43_response_partial`, `C43_no_static_router_partial`, `C43_no_params_partial`.

### C44 Route listings report the true handler count (partial)

M: router_print.go (Listing.v): what is printed as text. P: induction on the dump, against the history (ListingFacts, ListingTree).

PrintRawAllRoutes and PrintRawRoutes are exact. False for PrintRawRouter: it leaves out the Before handlers of the root and also lists routes registered after Handler(). Proved for it: everything below the root at that time is drawn, with the number of the other handlers.

Theorems: `C44_all_routes`, `C44_by_method`, `C44_raw_router_refuted`, `C44_raw_router_late_refuted`, `C44_raw_router_partial`, `C44_raw_router_no_before_partial`.

### C45 Multipart memory default (partial)

M: option.go and the global of package binding. P: computation over option lists; refutations by evaluation.

False: the default is 0 unless the option is given, and the limit is a global shared by all engines. Proved: the exact value after Handler().

Theorems: `C45_multipart_default_refuted`, `C45_multipart_shared_refuted`, `C45_multipart_memory_partial`.

### C46 SetCookie argument mapping (partial)

M: cookie.go SetCookie with dynamically typed arguments. P: case analysis on positions and types.

A non-bool Secure argument sets Secure (refuted); every other position proved. Rendering of the cookie: C103.

Theorems: `C46_unexpected_type_refuted`, `C46_positions_partial`, `C46_defaults`, `C46_values`.

### C47 CookieEscape output is inert HTML (proved)

M: html/template's escaper as used. P: induction on bytes: no active byte, and a decoder inverts it.

Theorems: `C47_inert`, `C47_denotes`.

### C48 Accepted regexp patterns can match (partial)

M: pattern analysis, counting of groups. P: from C49 and the interface of the engine.

False: an expression without groups is accepted and never matches. Proved: general form of that, and that expressions with as many groups as parentheses match exactly what the engine matches.

Theorems: `C48_regexp_refuted`, `C48_groupless_never_matches_partial`, `C48_grouped_can_match_partial`.

### C49 Pattern grammar (proved)

M: tree.go's analysis of segments. P: iff with a grammar given as inductive predicates (PatternFacts).

Theorems: `C49_pattern_grammar`, `C49_adds_iff`.

### C50 Handler argument types (proved)

M: router.go's conversion of handler values; http.Handler as a program on the raw writer. P: case analysis; rules on logs (HttpFacts).

Theorems: `C50_called_with_request`, `C50_invoked_in_turn`, `C50_nil_rejected`, `C50_unsupported_rejected`.

### C51 Validation reports every failing element (partial)

M: validator.go over arbitrary values and an arbitrary struct validator. P: induction on values.

Proved for values without nil pointers on the way; a nil pointer panics (C51_refuted, with the exact condition). The struct validator is a parameter.

Theorems: `C51_partial`, `C51_all_errors`, `C51_refuted`.

### C52 Path cleaning (proved)

M: path.Clean and util.go. P: induction on segments, idempotence.

Theorems: `C52_clean`, `C52_idempotent`, `C52_unchanged`.

### C53 No handler is skipped (partial)

M: as C16. P: rule on logs; refutation by evaluation.

False: calling Next twice skips a handler when a response was made in between. Proved: no gaps as long as there is no response.

Theorems: `C53_next_skips_refuted`, `C53_no_gap_partial`.

### C54 Redirect helpers (proved)

M: content.go redirects; http.Redirect's target is a parameter. P: execution lemma; behind other handlers a rule on logs: until the answer the header map is what the calls in the log make of it (HelperLog).

First in the chain, and behind any handlers that have not answered: one Location whatever was set before; no page if a Content-Type was set (C54_behind). The target and the page of http.Redirect are parameters.

Theorems: `C54_behind`, `C54_redirects`.

### C55 Attachments and downloads (proved)

M: content.go Attachment, Download. P: execution lemma with C37; behind other handlers as C54.

First in the chain, and behind any handlers that have not answered, whose headers are kept except those that the helpers set (C55_behind). http.ServeContent is a parameter, given the headers at that moment.

Theorems: `C55_behind`, `C55_attachments`, `C55_no_file`.

### C56 Truth values are stored as written (partial)

M: as C32. P: as C32.

False as stated: a true field bound to "false" stays true (C56_refuted). Proved for fields that were false and for nil pointers.

Theorems: `C56_refuted`, `C56_partial`.

### C57 The message of a failed slice validation names the failing elements (partial)

M: the message of validator.go. P: induction on the list of errors.

False as stated: the numbers count the failures, not the elements (C57_refuted). Proved: exactly which lines the message has in general, and the property when every element fails.

Theorems: `C57_refuted`, `C57_partial`, `C57_numbers_partial`.

### C58 Which form parser is used, and when (proved)

M: the once-only flag of context.go and the choice of parser. P: rules on logs.

Form parsing is an oracle returning the form, whether it failed and the rest of the body; the choice of the oracle's mode and the once-only rule are proved.

Theorems: `C58_parser`, `C58_only_once`.

### C59 Missing path parameters (proved)

M: params.go. P: case analysis.

The Float64 getters are in C87.

Theorems: `C59_missing`, `C59_present`.

### C60 Listening address (proved)

M: engine.go's choice of address. P: case analysis.

http.ListenAndServe itself is outside the model; the address given to it is.

Theorems: `C60_address`.

### C61 Static responses are reported (partial)

M: as C39. P: for every file and request, by execution.

False: the file is written to the underlying ResponseWriter, and Written() and Status() still say that nothing was sent; the refutation holds for every file and request. Proved: the handler's own 404 and 304 are reported.

Theorems: `C61_unreported_refuted`, `C61_reported_partial`.

### C62 http.Dir stays below its root (proved)

M: http.Dir as path.Clean and a join. P: lemma on path segments.

Theorems: `C62_below_root`.

### C63 Directory redirects (partial)

M: as C39; URL parsing of the redirect target in the specification. P: string lemmas; a cleaned path begins with one slash, and escaping leaves that (C63_same_host).

False for names with %, ? or #, which the handler does not escape (refuted with a directory a?b). Proved for all other paths.

Theorems: `C63_redirect_partial`, `C63_same_host`, `C63_redirect_refuted`.

### C64 Index of the static root (partial)

M: m_static.go's registration and C01. P: the pattern prefix/* needs one more segment.

False for every prefix other than /: the pattern prefix/* does not match the prefix itself. Without prefix the index file is served for /, but from the working directory of the process (C64_slash_partial).

Theorems: `C64_root_refuted`, `C64_slash_partial`.

### C65 No request can block another (proved)

M: as C42. P: progress of each goroutine with a measure that only its own steps change.

From every reachable state every goroutine can end by its own steps, and once it has its context the number of its steps does not depend on the schedule. Handlers are finite programs in the model.

Theorems: `C65_never_blocked`, `C65_steps_fixed`.

### C66 What each binder reads (proved)

M: the Bind methods of package binding as programs. P: execution lemmas.

net/http parsing, the query parser and the JSON and XML decoders are parameters. A form that cannot be parsed panics even when only headers or the query are bound.

Theorems: `C66_values`, `C66_values_again`, `C66_no_upload`, `C66_body`, `C66_uri`.

### C67 Times (proved)

M: map_form.go's time fields over arbitrary time functions. P: as C32.

time.Unix, time.ParseInLocation and time.LoadLocation are parameters; unexported and embedded time fields are left out.

Theorems: `C67_times`, `C67_one_instant`.

### C68 Binding refuses instead of panicking (partial)

M: as C32. P: induction on the traversal with Panic as an outcome.

False: a nil pointer, a key without values, an embedded non-struct and an embedded nil pointer of an unexported type panic. Proved: the refusals leave the target alone, and structs without embedded fields never panic when every key has a value.

Theorems: `C68_refused`, `C68_no_panic_partial`, `C68_refuted`.

### C69 The release tree listing shows every route once (proved)

M: the tree listing over Tree.v. P: induction on the tree, multiset of printed routes (ListingNode, ListingTop).

Routes with the same segments after rewriting of : and * are one route in the tree; the number shown is that of the first one.

Theorems: `C69_router_tree`.

### C70 Tree drawings mark last siblings (partial)

M: as C69. P: induction on the drawing against an inductive specification of drawings.

False for PrintRouterTree when "/" is registered: the last branch is drawn with a tee and a bar although nothing follows. Proved for it otherwise, and for PrintRawRouter always.

Theorems: `C70_router_tree_refuted`, `C70_router_tree_partial`, `C70_raw_router`.

### C71 Bind2 gives each field the value its text stands for (proved)

M: mapping.go's Bind2 over the types and values of C32, with access paths for settability. P: induction on the fuel against MappingSpec.

encoding/json, time and net/http parsing are parameters. Stated for a pointer to a value that is not a map (see C76).

Theorems: `C71_texts`, `C71_determined`, `C71_numbers`.

### C72 Bind2 stores uploaded files (proved)

M: multipart file fields of mapping.go. P: as C71.

File headers are opaque values with three fields that can be looked into, as mapping does when nothing was uploaded.

Theorems: `C72_files`, `C72_determined`.

### C73 Bind2 leaves everything else alone (proved)

M: as C71. P: as C71.

On failure, fields behind pointers that were nil may be gone with the pointer.

Theorems: `C73_untouched`, `C73_excluded`, `C73_nothing`, `C73_nil`.

### C74 Bind2 succeeds exactly if every text and file suits its field (partial)

M: as C71. P: iff by induction on the fuel (MappingAccept).

False: an unexported embedded nil pointer panics when a field behind it is bound. Proved: for all other targets a call that ends does not panic, and fails exactly if something does not suit. Targets are well-typed values of types without named scalar kinds; ending is C75.

Theorems: `C74_partial`, `C74_refuted`.

### C75 Bind2 always ends (partial)

M: as C71. P: bound on the fuel from the depth of the type; divergence for every fuel.

False: a struct with a nil pointer to its own type is searched forever, whatever the request. Proved: for types that do not contain themselves the depth of the recursion is bounded for all values and requests.

Theorems: `C75_ends_partial`, `C75_validation`, `C75_self_refuted`, `C75_refuted`.

### C76 Bind2 into maps (proved)

M: map targets of Bind2. P: fold over permutations.

A key without values in the form (not possible over the network) panics for maps of strings; left out.

Theorems: `C76_lists`, `C76_last`.

### C77 Bind2 refuses targets that cannot be filled (partial)

M: Bind2 on nil pointers, nil maps and values that are not passed through a pointer. P: case analysis; induction on the path to the part that would be written, and on the depth for the equality with a call through a pointer.

False: nil pointers always panic, nil maps whenever the form is not empty, and structs by value panic. Proved: a value that is not passed through a pointer is not reported as bound if anything in it, at any depth of structs in structs, would have to be written; otherwise it is treated exactly as if it was passed through a pointer.

Theorems: `C77_nil_refuted`, `C77_nil_map_refuted`, `C77_value_partial`, `C77_through_partial`.

### C78 Bind and Bind2 agree (partial)

M: both binders. P: from C32/C56/C71.

False for durations, numbers out of range and true fields given false; proved for all other numbers, truth values and strings.

Theorems: `C78_partial`, `C78_refuted`.

### C79 Default() contains panics (partial)

M: router.go Classic and Default. P: histories with the two Use calls first; C09 and C21.

False: Before handlers, which include middleware given to Group as func(*Context), and not-found handlers run outside Recovery. Proved: the chain of every route, and that without not-found handlers and with calm Before handlers ServeHTTP never panics.

Theorems: `C79_default_registers`, `C79_default_chain`, `C79_before_refuted`, `C79_nofound_refuted`, `C79_contains_partial`.

### C80 Refusal helpers (proved)

M: content.go Abort and its siblings. P: execution lemma for every continuation; NoCache behind other handlers as C54.

Also behind any handlers that have not answered: NoCache replaces their caching headers (C80_no_cache_behind); for Abort and its siblings see C20_behind_partial.

Theorems: `C80_no_cache_behind`, `C80_refusals`, `C80_no_cache`, `C80_goes_on`.

### C81 Reading request headers (partial)

M: content.go IsAjax, IsWebsocket, Protocol. P: string lemmas against request lines.

IsWebsocket looks for the text upgrade anywhere in the first Connection line: it accepts no-upgrade and misses a second line. Proved: exactly what it decides, and that requests with one Connection line that RFC 6455 means are accepted. strings.ToLower is modelled on ASCII.

Theorems: `C81_header`, `C81_user_agent`, `C81_ajax`, `C81_websocket_accepts_refuted`, `C81_websocket_misses_refuted`, `C81_websocket_partial`, `C81_websocket_single_partial`, `C81_protocol`.

### C82 Handlers read the request as it arrived (proved)

M: as C16; bodies that fail as for C97. P: rules on logs: every read is answered by the request that arrived, as long as no handler replaced the body.

The form parser is a parameter of the model.

Theorems: `C82_inputs`, `C82_whole_body`.

### C83 Typed values of an Environ (proved)

M: environ.go on maps and on nil maps. P: induction over histories of Set.

Floating-point numbers and other values are abstract.

Theorems: `C83_untyped`, `C83_typed`, `C83_every_name`.

### C84 Truth value getters (proved)

M: strconv.ParseBool and the getters on top. P: case analysis.

Theorems: `C84_truth`, `C84_error`.

### C85 Every request is logged with its status (partial)

M: the lines of m_logger.go and m_recovery.go as operations in the log. P: rules on logs, execution lemmas.

False: a panic that passes Logger is not logged; if nobody responds the line says status 0 while the client gets 200; with raw writes to ResponseWriter the line says another status. Proved: exactly one line otherwise, with the status of Status(); with Default() always, also after panics, with the delivered status if the handlers use the Context and valid codes. Times and the URL text are parameters; the time stamp of Recovery's line is left out.

Theorems: `C85_panic_refuted`, `C85_status_refuted`, `C85_raw_refuted`, `C85_logger_line_partial`, `C85_default_logs`, `C85_default_status`, `C85_line_fields`.

### C86 Refused registration calls change nothing (partial)

M: the registration calls with the router objects as they are after a panic (RouterTry.v). P: induction over calls and callbacks, relation to the model without recovery.

False for Group: refused for an argument of a wrong type, or by a panic in a callback, it leaves the group and what was done before (C86_group_refuted: Handler() then panics). Proved: the other calls change nothing, and what every recovered registration amounts to.

Theorems: `C86_refused_calls`, `C86_group_refuted`, `C86_amounts_partial`, `C86_engine_partial`, `C86_ordinary`.

### C87 Floating-point getters (proved)

M: the Float64 getters over an arbitrary ParseFloat. P: case analysis; that a trimmed text is determined by prefix- and suffix-freeness of the encodings of white space.

ParseFloat is a parameter of the model.

Theorems: `C87_number`, `C87_error`.

### C88 Saved uploads (partial)

M: SaveUploadedFile on a map of files, with arbitrary failures of opening, reading and writing. P: induction on the calls of Read.

False for failures after dst was opened: its old content is gone (refuted). Proved: exact content, permissions and other files on success; on failure a beginning of the upload, or everything as it was if the upload or dst cannot be opened. Opening, reading and writing may fail in any way; what Close reports is dropped by the code.

Theorems: `C88_saved`, `C88_succeeds`, `C88_failed_partial`, `C88_refuted`.

### C89 HandlerName (partial)

M: HandlerName on the contexts of the concurrent machine; names and kinds of function values are parameters. P: invariant over executions: the context of a running request holds the chain found for it; the chain of a request is unique by priority and first registration.

False when the last handler is a net/http handler (the name is that of a closure in water), a pointer (empty name) or a struct (panics): refuted. Proved: it is always about the last handler of the one chain picked for this request, with the exact result for each sort of handler.

Theorems: `C89_name_refuted`, `C89_name_partial`.

### C90 Write errors are reported (proved)

M: Wire.v: Write, WriteHeader, Stream, String, Data, HTMLRaw, JSON, XML over any ResponseWriter with results; io.Copy's loop; json.Encoder as one Write, xml.Encoder as pieces. P: the list of Write calls on the writer, by induction over the pieces; simulation with Content.v when the connection has room.

Over an arbitrary ResponseWriter with its own state. That of net/http, with a connection that breaks after any number of bytes, is an instance, and with enough room every helper has the effect it has in the rest of the model.

Theorems: `C90_write`, `C90_stream`, `C90_json`, `C90_xml`, `C90_data`, `C90_json_net_http`, `C90_agrees`, `C90_stream_agrees`, `C90_data_agrees`, `C90_string_agrees`, `C90_htmlraw_agrees`, `C90_json_agrees`, `C90_xml_agrees`, `C90_net_http_honest`.

### C91 Replies after a failed encoding (partial)

M: as C90. P: counterexample; the flag written stays set.

False: the status is sent before the value is encoded, so it stays (refuted). Proved: the first status stays whatever is called later, and a value without encoding sends no body.

Theorems: `C91_other_status_refuted`, `C91_first_status_partial`.

### C92 An engine is a snapshot (proved)

M: Slices.v: memory of arrays, slices as pointer, length and capacity, append in place or to a new array (growth is a parameter), make, copy; registration calls, Handler, clients writing to their own arrays. P: ownership invariant over all programs (middleware and sub slices of distinct routers never share an array with capacity, none with a client); Handler only adds arrays; the engine holds only arrays of its own.

Proved for every program. PrintRawRouter reads the live router and is not part of this. Memory used by a Handler() that panics is not shown in the model.

Theorems: `C92_engine_made`, `C92_engine_snapshot`.

### C93 Registration takes the handlers as they are at the call (partial)

M: as C92. P: simulation between programs with slices and calls with the values seen at the call (SliceSpec.v), with a ghost flag for writes to handlers of routes; counterexample for such writes; without the flag for everything but handlers of routes.

False for GET, ..., ANY: they keep the slice itself, so a write to it before Handler() replaces the handler, even by nil, which registration refuses (refuted, zx_nil_ok). Proved: exact for every program that does not write to such a cell, and for everything but handlers of routes in every program. st_hit is a ghost flag set by such a write. WithNoFoundHandlers reads its slice when Handler() is called.

Theorems: `C93_handlers_at_the_call_refuted`, `C93_handlers_at_the_call_partial`, `C93_no_writes_partial`, `C93_middleware_at_the_call`.

### C94 Slices given to water are left alone (proved)

M: as C92. P: the same invariant: append in place happens only in arrays that no client made.

Proved for every program and cell.

Theorems: `C94_client_slices_untouched`.

### C95 A Context kept by a goroutine (partial)

M: Stray.v: beside the steps of Machine.v, a handler may hand its Context to a goroutine, which may later make any call on it (one step per call) or advance its index (Next). P: invariant that kept contexts whose requests have not ended are held by no other request nor pooled; hence other requests go as if alone. Counterexample for goroutines that outlive the request.

The full statement is false: after its request has ended the context is reused, and a goroutine that kept it writes into another client's response (C95_kept_context_refuted). Proved: it holds if goroutines use the Context only until their request has ended; calls on a Context are atomic steps.

Theorems: `C95_kept_context_refuted`, `C95_goroutines_stay_home_partial`, `C95_as_if_alone_partial`, `C95_response_partial`, `C95_no_static_router_partial`, `C95_no_params_partial`.

### C96 Tags of static files in conditional requests (partial)

M: NetServe.v: the preconditions of http.ServeContent (scanning of tags, six headers), given the Etag that Static.v sets; parsing of dates and the sending of content are parameters. P: scanned tags begin with a quotation mark and the tags of water never do, so no list matches; the answer as a relation on the headers (CondSpec.v), composed with the reply of a static route (StaticTop.tag_reply).

The full statement is false: the tags have no quotation marks, so net/http never takes one for current (C96_tags_refuted: If-Match with the current tag gets 412, If-Range with it the whole file, lists with it in If-None-Match the content). Proved: the exact answer for every combination of the headers, where a star only occurs alone, with the date of 412 and content replies and the absence of Content-Type, Content-Length and Last-Modified from 304. net/http's checks (fs.go) are modelled; the sending of content or ranges, and the parsing of dates, are parameters.

Theorems: `C96_tags_refuted`, `C96_conditional_partial`, `C96_one_answer`, `C96_if_match_partial`, `C96_other_version_partial`, `C96_if_range_partial`.

### C97 Incomplete bodies, and bodies read twice (proved)

M: a request body is its bytes and how it ends: in memory (always readable, Close does nothing), on the wire, broken off, closed; ReadAll, Close, BodyBytes, json and xml binding, Logger and the form parser act on it. P: rules on logs (RequestFacts), and BodyBytes once and twice from any state (BodyTop).

The reader of net/http and the form parser are outside the code: a body is its bytes and how it ends (in memory, on the wire, broken off, closed).

Theorems: `C97_broken`, `C97_closed`, `C97_bodybytes`, `C97_twice`.

### C98 Forms do not depend on the order of calls (partial)

M: content.go ParseFormOrMultipartForm, FormFile, Bind, BindWith, binding/form.go and the parts of net/http's request.go that they call, as functions on the three forms of a request and the flag of the context; the parsers of queries, media types and parts are parameters. P: invariant over sequences of calls; refutations by evaluation.

False as stated: an upload in a request with another method than POST, PUT, PATCH (C98_method_refuted) or with capitals in its Content-Type (C98_capitals_refuted) gets into the values of Query once FormFile was called, and a malformed query makes Query panic only if it comes first (C98_error_refuted). Proved for all requests without errors whose type water and net/http read alike, for every sequence of calls (C98_partial, C98_one_answer).

Theorems: `C98_partial`, `C98_one_answer`, `C98_method_refuted`, `C98_capitals_refuted`, `C98_error_refuted`.

### C99 The configured memory is used for uploads (partial)

M: as C98, with a ghost list of the memory given to ReadForm. P: as C98.

False as stated: FormFile goes to net/http, which uses 32 MB (C99_refuted). Proved: the exact number for every sequence of calls in a request without errors, where the body is parsed at most once (C99_partial); in all requests, the configured number if neither FormFile nor FormValue is called (C99_water).

Theorems: `C99_partial`, `C99_water`, `C99_refuted`.

### C100 File, ServeFile and StaticFile send the named file (partial)

M: content.go File, ServeFile, m_static.go StaticFile and net/http's ServeFile (fs.go) over a file system of the process that maps paths to files, directories and errors; serveContent and listings are parameters. P: the paths by the lemmas for path.Clean, the cases by evaluation of the handler, ServeFile by the log of the chain; refutations by evaluation.

False as stated: a request whose path ends in /index.html is redirected to ./ and one with a .. element is refused, whatever the name of the file (C100_index_refuted, C100_index_never). Proved: the reply to every request, case by case (C100_replies; C100_one_answer: exactly one case applies); the file is sent for all other paths (C100_partial); ServeFile behind other handlers (C100_serve_file_behind). http.ServeFile is modelled from its source; serveContent and directory listings are parameters.

Theorems: `C100_replies`, `C100_one_answer`, `C100_partial`, `C100_index_refuted`, `C100_index_never`, `C100_serve_file_behind`.

### C101 An engine mounted in another answers as it does alone (partial)

M: engine.go newHandler's http.Handler case with an Engine: ServeHTTP, run and the Context's Write/WriteHeader of the inner engine over the outer Context. P: simulation of the inner engine on the outer Context by the same engine on a connection, by induction on programs and chains; the condition on the log is an invariant for handlers without raw writes; refutations by evaluation.

False as stated: a handler of the inner engine that writes to ctx.ResponseWriter without a status gets a Content-Type guessed from its first piece when mounted, and a status after one that net/http refused is lost (C101_refuted). Proved: the same ending and response for every run of the inner engine that sends a status before data and none after a refused one (C101_partial; from any unwritten outer Context: C101_nested_partial), in particular for all engines whose handlers write through their Context (C101_context). C101_plain: the model of the outer engine is the one of Engine.v when nothing is mounted. Both engines use the same type of Environ values; the outer handlers before the mounted engine are covered by C101_nested_partial only.

Theorems: `C101_nested_partial`, `C101_partial`, `C101_context`, `C101_refuted`, `C101_plain`.

### C102 A cookie set with SetCookie is what Cookie returns when it comes back (partial)

M: NetCookie.v: Cookie.String, readCookies and Request.Cookie of net/http under cookie.go; CookieSpec.v: a client after RFC 6265. P: the line is cut at its semicolons and each part read on its own (induction on the cookies), trimming stops at printable bytes; refutations by evaluation.

False as stated: bytes that cookies cannot carry are dropped from the value (C102_value_refuted), and Cookie can return a cookie of another name: any for the empty name, and one whose name begins with a no-break space, which net/http trims (C102_other_cookie_refuted). Proved: what comes back is the value without those bytes (C102_kept_partial), so the value itself if it has none (C102_partial); numbers and booleans (C102_typed); no cookie of that name (C102_absent_partial); other cookies have names in printable ASCII. The client is RFC 6265, 5.2 and 5.4 (CookieSpec.v); net/http cookies are modelled from the source of Go 1.15.

Theorems: `C102_value_refuted`, `C102_other_cookie_refuted`, `C102_kept_partial`, `C102_partial`, `C102_typed`, `C102_absent_partial`.

### C103 Set-Cookie carries what was asked for and nothing else (proved)

M: as C102, with SetCookie as a call of a handler. P: the line is a list of pieces without semicolon, read one by one; domains by induction on labels and octets; the reply by the log of the handler's turn.

All of it (C103_attributes, C103_printable, C103_sent). A name that is no token gives an empty Set-Cookie line, which is sent and which clients ignore (C103_empty_line). The warnings that net/http logs are left out.

Theorems: `C103_attributes`, `C103_printable`, `C103_sent`, `C103_empty_line`.

### C104 Query parameters arrive as they were sent (partial)

M: NetQuery.v: net/url QueryUnescape, ParseQuery and URL.Query, net/http ParseForm, under query.go; QuerySpec.v: pairs and their spellings as relations. P: QueryUnescape inverts every spelling and nothing else (induction on texts), the loop of ParseQuery on the pieces of a query, by induction; the getters by C29; any request by the invariant of its log.

All but QueryMap in full, which also takes names like key[x]rest (C29_map_refuted); without such names it is exact (C104_map_partial). C104_form, C104_getters: the first getter of a chain; C104_served: every form that any handler of any chain sees. Over a model of net/url ParseQuery and net/http ParseForm (Go 1.15, where ; separates pairs too); every text is a query of the specification, so no hypothesis excludes one (C104_every_query), and all pairs can be sent (C104_every_pairs).

Theorems: `C104_every_query`, `C104_determined`, `C104_every_pairs`, `C104_form`, `C104_getters`, `C104_map_partial`, `C104_served`, `C104_bind`.

### C105 Forms in request bodies, and malformed ones (proved)

M: as C104, with parsePostForm and ParseMultipartForm. P: case analysis on method, media type and body over C104; the log of a request determines the body at the first parsing, by induction on the log.

All of it. mime.ParseMediaType and the multipart reader are parameters (media, read_form); the request body of a server is never nil.

Theorems: `C105_body_first`, `C105_multipart_last`, `C105_malformed`, `C105_malformed_again`, `C105_served`.

### C106 Redirects lead where they say (partial)

M: url.Parse as far as it decides between local and other targets, path.Clean, the escaping of Location and page of http.Redirect, over the redirect model of C54. P: references are cut into path, query and fragment and the parser is shown to read them so; path.Clean is the walk over segments, compared with remove_dot_segments by induction; witnesses for the refutations.

The Location and page in full (C106_location, C106_page, C106_served), over a model of http.Redirect and of what net/url takes for local (Go 1.15); the host of an authority is a parameter. Not another host: for well-formed references only (C106_same_host_partial); a target with a tab or a malformed escape is sent as it is and can lead away (C106_same_host_refuted). RFC 3986: without empty segments and final dot segments (C106_rfc_partial, C106_rfc_refuted); not for a query alone, a fragment with slashes, or a relative target below a path that had escapes (C106_query_only_refuted, C106_fragment_refuted, C106_sibling_refuted).

Theorems: `C106_location`, `C106_page`, `C106_rfc_partial`, `C106_rfc_refuted`, `C106_query_only_refuted`, `C106_fragment_refuted`, `C106_sibling_refuted`, `C106_same_host_partial`, `C106_same_host_refuted`, `C106_served`.

### C107 Path parameters arrive as they were sent (partial)

M: url.ParseRequestURI as far as the path goes, over the routing model of C03 and C04. P: the parser is run on a target cut into front, segments and query; percent decoding is compositional; the segments are those of the split path, and the bindings of the chosen route are looked up at their position; witnesses for values with a slash and the empty value.

For values without a slash, the last one not empty (C107_served_partial), and for the rest of the path in a named catch-all with its slashes (C107_rest_partial), over a model of how net/http makes the path out of the target (Go 1.15). A value with a slash does not arrive even if it is sent as %2F, since routing goes by the decoded path (C107_slash_refuted), nor does an empty value at the end, since a final slash is dropped (C107_empty_refuted). The parsing of an authority is a parameter; CONNECT is left out.

Theorems: `C107_target`, `C107_every`, `C107_served_partial`, `C107_rest_partial`, `C107_slash_refuted`, `C107_empty_refuted`.

### C108 Pages come from the Render that was set last (proved)

M: the variable _render through a history of SetRender calls and requests; HTML and HTMLSet as sequences of the Render's program and the rest of the handler. P: induction on the history; induction on programs that the log of a sequence is cut in two; then the log tools of C20.

All of it, for SetRender called between requests. A Render is any program over the Context; templates themselves are its business.

Theorems: `C108_installed`, `C108_rendered`, `C108_page`, `C108_default`.

### C109 A request for parts of a file gets these parts (partial)

M: parseRange and the rest of http.ServeContent, over the preconditions of C96 and the handlers of C39 and C55. P: the header is cut at commas and each piece parsed (decimal numbers below 2^63); the parts are within the file, so what is read has the announced length, and the sizes add up to Content-Length; by induction on the parts the body is multipart/byteranges; then the served theorems of C39 and C55.

Refuted for the last 0 bytes, for the last bytes of an empty file (both are a part, with a Content-Range that is none), for numbers of 64 bits and for other units than bytes (both 416), and in Go 1.15 for minus signs. Proved for all other Range headers of RFC 7233 in requests without conditions, and with conditions for static routes with tags, where stars in If-Match and If-None-Match only occur alone, and that nothing else is sent whatever the header, from Go 1.16 on. Also for StaticFile, File and ServeFile. Missing: reads that fail.

Theorems: `C109_static_partial`, `C109_attachments_partial`, `C109_static_file_partial`, `C109_serve_file_partial`, `C109_conditional_partial`, `C109_one_reply`, `C109_bytes`, `C109_odd_refuted`.

### C110 HEAD tells what GET would (partial)

M: net/http drops the body of a reply to HEAD (NetHead.v); the replies to both requests are those of C39, C96, C100 and C109. P: for files, the served theorems of both requests, and that each branch of http.ServeContent, http.ServeFile and http.Redirect gives the same status and headers, and a type unless the bodies are the same; for other handlers, a simulation between the two runs by induction on programs, then the one of C08's recycled contexts for Params and FullPath.

For static routes and StaticFile all of it, for files that do not change between the requests and lists of directories that are the same for both. For other routes: handlers must not use Params where these are not exact (static router, inner regular expressions) nor FullPath where several routes fit. Missing: the Content-Length that net/http adds to short replies to GET.

Theorems: `C110_static`, `C110_static_file`, `C110_handlers_partial`, `C110_route_partial`, `C110_params_partial`.

### C111 Uploads and multipart fields arrive as they were sent (proved)

M: mime.ParseMediaType, textproto's header reader, mime/multipart's Reader and ReadForm (NetMultipart.v), in the places of the parameters of C98 and C105. P: the written forms of a name, a header line and a part are read back, each by induction; the content ends at the first boundary because a carriage return stands only at the start of the separator; then induction on the parts with the memory left as an invariant; then the theorems of C98, C105 and C88. For bodies that are cut off: each reader fails on every prefix that does not hold its end, by induction on the parts (MultipartCut.v); for the calls, an invariant that no form was kept.

Parts without Content-Transfer-Encoding, boundaries without spaces, no text before the first boundary, lines that end with CR LF; names without line ends. Temporary files can be written. Bodies that are cut off, or have spoilt boundary lines, are errors.

Theorems: `C111_form`, `C111_every_form`, `C111_determined`, `C111_too_much`, `C111_cut_off`, `C111_spoilt`, `C111_other_type`, `C111_broken`, `C111_calls`, `C111_query`, `C111_saved`.

### C112 A handler's own tag works in conditional requests (proved)

M: the preconditions of http.ServeContent (NetServe.v) with any tag a handler has set. P: scanning a written list gives whether one of its tags matches, by induction on the list, since trimming at the right end does not change the scan; the two comparisons are the strong and the weak one; then the cases of the conditions, and the theorems of C55 and C100 with ranges as in C109. For headers of any form (TagAny.v): a scan finds a match iff a chain of tags and commas leads to it from the left, by induction on the fuel in one direction and on the chain in the other.

The library function http.ServeContent is modelled (NetServe.v, NetRange.v). GET and HEAD; no Content-Encoding or Content-Type set before. C112_attachments and C112_serve_file: conditions in the form that RFC 7232 gives them. The theorems with _any: whatever the headers hold, well-formed or not. Compare C96: the tags that the static routes set themselves are not quoted and never match.

Theorems: `C112_attachments`, `C112_serve_file`, `C112_determined`, `C112_attachments_any`, `C112_serve_file_any`, `C112_any_determined`.

### C113 Text replies are not taken for pages (partial)

M: http.DetectContentType with its table of signatures (NetSniff.v) in the place of the parameter of C20. P: the loop stops at the first signature that matches; tags are compared up to the case of letters (all pairs of bytes, by computation); each signature of the table is matched by exactly the texts that the specification lists or needs a control character; then the theorems of C20.

False as stated, because the helpers set the type too late (C20): String with <script>... is delivered as text/html and HTMLRaw with <h2>... as text/plain (C113_refuted). Proved: exactly which replies are delivered as text/html and as text/xml, exactly which replies without control characters are delivered as text/plain, and that none is delivered as JSON, XML, SVG, a script or a style sheet (C113_told_partial, C113_behind_partial); so text that begins with no tag is no page (C113_text_partial), and JSON is text/plain unless the bytes 34 and 35 are LP, which makes it a font (C113_json_partial). http.DetectContentType is modelled after Go 1.15 (NetSniff.v).

Theorems: `C113_refuted`, `C113_told_partial`, `C113_behind_partial`, `C113_text_partial`, `C113_json_partial`, `C113_determined`.

### C114 Regexp segments take the texts of their expressions (partial)

M: the parser of regexp/syntax for the expressions above and leftmost-first matching with groups on UTF-8 (NetRegexp.v), in the place of re_ok and re_find. S: the texts an expression describes, as an inductive relation with what is before and behind, and the spelling of expressions, as a grammar (RegexpSpec.v). P: every way of matching is described and everything described is a way (induction on expressions, and on the length of what is left for repetitions); the first position with a way is found (induction on the text); spellings are read back (mutual induction on the grammar).

False as stated: the expression is searched for anywhere in the segment, so /u/<id ~ ([0-9]+)> serves /u/x12y with id=12 (C114_refuted); and as names are counted against parentheses, an expression with (?:...) is registered and takes nothing (C114_parentheses_refuted). Proved: a segment takes exactly the request segments with a part that the expression describes, if groups and names are equally many (C114_accepts_partial); the names get the groups of the part that begins first (C114_captures_partial); between ^ and $, without alternatives outside of parentheses, exactly the request segments that the expression describes are taken (C114_anchored_partial), and one group around everything gets the whole (C114_grouped_partial); not anchored, a group around a repeated class gets the first run, all of it (C114_run_partial); for example digits (C114_digits_partial); the requests that fit a route have such parts (C114_route_partial). Package regexp is modelled in NetRegexp.v without flags, lazy and counted repetitions, repetitions of what may be empty or holds groups, word boundaries, Unicode classes and bytes beyond ASCII in expressions. An expression with a stray parenthesis is refused (C114_stray). Characters of request segments are those of RFC 3629.

Theorems: `C114_refuted`, `C114_parentheses_refuted`, `C114_accepts_partial`, `C114_captures_partial`, `C114_anchored_partial`, `C114_grouped_partial`, `C114_run_partial`, `C114_route_partial`, `C114_one_reading`, `C114_stray`, `C114_digits_partial`.

### C115 Clients read the replies that handlers wrote (partial)

M: response.write, bufio.Writer, chunkWriter.writeHeader, writeSubset, finishRequest and the loop of conn.serve of net/http 1.15 (NetFrame.v). S: reading replies from bytes, as inductive relations after RFC 7230 (FrameSpec.v), and what is claimed of exchanges (FrameClaim.v). P: the grammar is unambiguous (induction on lines and chunks); the buffer passes everything on (induction on the pieces); the header that is written has the lines that its body needs (cases on the framing); an invariant of runs says that responses of such handlers are sound; connections by induction.

False for handlers that answer with a status from 100 to 199 (other than 101), as ctx.WriteHeader lets them: the client takes the next reply on the connection for the answer (C115_interim_refuted). Proved: the replies of a connection are read as they were written, and in no other way (C115_connection; C115_served for the requests that ServeHTTP served with handlers as described; C115_api: handlers that are written with the helpers of the package — String, Data, HTMLRaw, JSON, XML, Stream, MovedPermanently, Found, Abort, NoCache, SetCookie — and the middleware Recovery, Logger and CORS are such handlers); a value with line ends is sent in one line, with blanks in their place, and a value without is sent as it is (C115_value); every request is answered if nobody asks to close the connection (C115_open). Date, Content-Length, Connection and Transfer-Encoding are the server's, and replies with 304 have no Content-Type. The server is that of net/http 1.15 without Flush, Hijack, trailers and failing writes (NetFrame.v). Header names with other bytes than RFC 7230 lets names have are excluded: net/http 1.15 sends them as they are.

Theorems: `C115_connection`, `C115_open`, `C115_served`, `C115_value`, `C115_interim_refuted`, `C115_api`.

### C116 A reply that was cut is not taken for a whole one (proved)

M: as C115, with the bytes of a reply whose handler panicked: what is in the buffer is lost, the connection is closed. S: as C115; no reading of these bytes exists. P: chunks without a last chunk are not chunked data (induction on the chunks); a body that is shorter than declared is not read; HTTP/1.0 is refused.

Of replies to HEAD and of the statuses 204 and 304 there is no body that could be cut; they are excluded. Requests over HTTP/1.0, whose replies would end with the connection, are refused by ServeHTTP before any handler runs. C116_api: the same for handlers that are written with the helpers of the package.

Theorems: `C116_short`, `C116_panic`, `C116_api`.

### C117 Files arrive at clients byte for byte (proved)

M: as C115, C109. S: as C115; RangeSpec.v. P: the invariant of runs of C115 for handlers that may set Content-Length; the headers that serveContent sets are proper, and the length it declares is that of the body (from C109), or there is none; then C115.

C117_static: the whole file. C117_any: every condition and range, for files that are not empty and the range parser of Go 1.16 (with Go 1.15 an empty file or an odd range can break the length, C109); lengths are below 2^63. C117_attachments: the whole file of Download or Attachment, if nothing else is written to the body. C117_declared: any handler that sets Content-Length. All handlers are supposed to give their headers proper names, to leave Transfer-Encoding and Trailer alone and not to send an interim status; those of static routes do (C117_proper, C117_attachments_proper), if http.ServeFile, which replies for directories, does. The framing is that of net/http 1.15 (C115).

Theorems: `C117_static`, `C117_any`, `C117_declared`, `C117_proper`, `C117_attachments`, `C117_attachments_proper`.

### C118 Nothing beyond the announced length reaches the client (proved)

M: as C115. S: as C115. P: the writes that the server admits are a prefix of the writes, the longest one within the announced length; then as C116: the length read against the bytes sent, and the connection is closed unless they agree.

C118_measured. Requests other than HEAD, statuses that take a body, handlers as in C117_declared that return without a panic. The framing is that of net/http 1.15 (C115).

Theorems: `C118_measured`.

### C119 On the wire HEAD differs from GET by the body alone (proved)

M: as C110, C115. S: as C115. P: both replies are read back by C115; the header lines are those of the same response (C110); the Content-Length of HEAD is either the one declared, which for GET is the length of the body, or computed from the body that the handler wrote.

C119_handlers: handlers as in C110_handlers_partial that leave the framing to the server (C115). C119_files: files that are not empty, the range parser of Go 1.16, lengths below 2^63 (C117_any). The lines compared are those whose names do not belong to the server (Date, Content-Length, Connection, Transfer-Encoding); for large bodies GET is sent in chunks and HEAD has no length. The framing is that of net/http 1.15.

Theorems: `C119_handlers`, `C119_files`.

### C120 Listings of directories show every entry, and only those (partial)

M: NetDir.v: the end of serveFile, dirList, URL.String and escape (mode encodePath), in place of the parameter for listings of C100; reading a directory is data. S: DirSpec.v: a reader for pages of links, HTML texts as in C37's UtilSpec.v, relative references of RFC 3986. P: escaping byte by byte, over all 256 bytes, then induction on names; sorting by insertion; the page by induction on the entries; then the theorems of C100. That pages are read in one way is proved from the first quotation mark and the first mark-up.

The library functions (dirList of net/http, URL.String of net/url) are modelled in NetDir.v. Partial: addresses are proved right for names in which no & stands before a letter or digit; C120_links_refuted: net/http does not escape & in addresses, so that a file a&lt;b gets a link to a<b, and if index.html is itself a directory its entries are shown with addresses in the directory above. Texts and order hold for all names. Bytes that HTML readers themselves replace (NUL, carriage return) are taken as they are. C120_static_partial: what a static route without index file lists is the directory of that name which the process sees, not the folder of the route (compare C39_listing_refuted).

Theorems: `C120_listing_partial`, `C120_serve_file_partial`, `C120_static_partial`, `C120_one_reading`, `C120_links_refuted`.

### C121 A file asked for with the date it was sent with (partial)

M: NetDate.v: isLeap, daysBefore, absDate, Date, Format and Parse for http.TimeFormat, ParseTime, in place of the parameters http_date and parse_time of C96. S: DateSpec.v: the calendar as an inductive relation, from one day to the next and back, from 1 January 1970; lengths of months and leap years by divisibility; the text by digits and names. P: the parts of a count of days (400, 100, 4 and 1 years) by arithmetic, the days of a year by computation over both kinds of year, dates with the same number are the same; then induction on the number of the day. Reading by inversion of the text, in both directions for all texts that are read (DateLooseSpec.v, DateLoose.v); then the theorems of C96; and, for files however they are sent, the answers by DateAnswerSpec.by_date (DateServe.v), with what is known of the chains of C109. The obsolete forms of RFC 7231: NetDateOld.v, DateOldSpec.v, DateOld.v.

The library functions (Time.Format and Parse with http.TimeFormat, http.ParseTime) are modelled in NetDate.v, from their documented behaviour. C121_revisit_partial is for static routes with tags, by C96; the other theorems about replies are for all static routes, StaticFile, downloads, attachments and ServeFile. Partial: what is sent for a Range has the limits of C109; a request has no other condition; dates in the two old forms (RFC 850, for the years 1969 to 2068, and ANSI C; NetDateOld.v) are shown to be read as they mean, but not what else is read as one; names of zones other than GMT and UTC are a parameter; in C121_revisit_partial both old forms are; years outside 0 to 9999 are excluded.

Theorems: `C121_written`, `C121_read`, `C121_all_read`, `C121_one_moment`, `C121_revisit_partial`, `C121_static_partial`, `C121_static_file_partial`, `C121_attachments_partial`, `C121_serve_file_partial`, `C121_old_forms`, `C121_one_answer`.
