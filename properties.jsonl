{"id": "C01", "title": "Dispatch is sound", "statement": "When a request is dispatched to a route's handlers, that route was registered for the request's method and its pattern matches the request path segment by segment: literal segments are equal, a regexp segment's expression matches and yields one group per name, a <name> segment takes any one segment, and a final *-segment takes one or more segments.", "quantifier": "every list of registered routes, every regexp engine, every request path", "why_tests_cant": "Tests try a handful of route tables; soundness of a backtracking search depends on every combination of sibling patterns.", "anchors": ["tree.go: node.add, node.Match, matchNextSegment, matchEndNode, matchSubNode", "engine.go: Engine.ServeHTTP"]}
{"id": "C02", "title": "Dispatch is complete", "statement": "If at least one route registered for the method matches the path, the request is never answered with 404: the search backtracks out of every dead end.", "quantifier": "every route table, every path, every dead-end branch", "why_tests_cant": "Missing backtracking only shows on particular sibling combinations at particular depths; no finite set of tables covers them.", "anchors": ["tree.go: matchSubNode, matchEndNode"]}
{"id": "C03", "title": "Route priority", "statement": "Among all matching routes the one chosen is the best under a fixed order: at the first segment where two routes differ, literal beats regexp beats <name> beats *, equal kinds are ordered by registration, and a route that continues beats one that ends there with a catch-all.", "quantifier": "every route table and every path matched by two or more routes", "why_tests_cant": "The choice depends on the insertion order and kinds of all siblings at every level.", "anchors": ["tree.go: addEndNode, addSubNode, matchSubNode, matchEndNode"]}
{"id": "C04", "title": "Captured parameters are exact", "statement": "After dispatch, ctx.Params contains exactly the names of the chosen route's pattern, each bound to the text of its own segment (the rest of the path for a final *).", "quantifier": "every route table, regexp engine and path", "why_tests_cant": "Parameters are written into one shared map while the search backtracks; only particular failed branches leave something behind.", "anchors": ["tree.go: matchSubNode, matchEndNode, Match"]}
{"id": "C05", "title": "Same-kind patterns are tried in registration order", "statement": "Of several catch-all patterns under the same prefix, the first one registered handles every path that they all match.", "quantifier": "every set of sibling catch-all routes and every path below them", "why_tests_cant": "Depends on how many segments remain, which a test with one path shape does not vary.", "anchors": ["tree.go: matchEndNode, matchSubNode lines 315-327"]}
{"id": "C06", "title": "Slash insensitivity", "statement": "One leading and one trailing slash of the request path do not influence matching: /p, /p/, p and p/ select the same route with the same parameters.", "quantifier": "every route table and every path", "why_tests_cant": "All paths, including those with empty segments and of length 0 and 1, must be covered.", "anchors": ["tree.go: Match"]}
{"id": "C07", "title": "Static router is a pure optimisation", "statement": "Building the same routes with WithStaticRouter(true) instead of WithStaticRouter(false) changes neither the handlers chosen nor the parameters seen for any request.", "quantifier": "every route table, every request path, every pool history", "why_tests_cant": "Equivalence of two lookup structures must hold on all tables and paths.", "anchors": ["engine.go: buildTree, isStaticRoute, ServeHTTP", "option.go: WithStaticRouter"]}
{"id": "C08", "title": "Requests do not observe earlier requests", "statement": "What a request's handlers can see (Params, Environ, Written, Status, FullPath) and the response they produce do not depend on which requests the server handled before, in particular not on the recycled Context object.", "quantifier": "every engine, every request, every content of the recycled Context", "why_tests_cant": "Leaks through a pooled object show up only for particular orders of particular requests.", "anchors": ["engine.go: ServeHTTP", "context.go: reset"]}
{"id": "C09", "title": "Middleware order", "statement": "The handlers run for a route are, in order: the root's Before handlers, the Use handlers of the root, then those of each enclosing group from outside in, then the route's own handlers; this is independent of whether Use was called before or after the route was added.", "quantifier": "every sequence of Before/Use/Group/GET/... calls on a router and its groups, any nesting", "why_tests_cant": "Depends on the whole registration history and nesting depth.", "anchors": ["router.go: Use, Before, Group, handle, getRoute"]}
{"id": "C10", "title": "Group middleware is confined to its group", "statement": "Middleware attached to a group runs only for routes registered inside that group (or its sub-groups).", "quantifier": "every registration history and every route outside the group", "why_tests_cant": "Confinement is a statement about all routes that are not in the group.", "anchors": ["router.go: Group, Use, getRoute"]}
{"id": "C11", "title": "Duplicate routes are rejected", "statement": "Handler() panics when the same method and full URI are registered twice, and two accepted routes never share both; distinct URIs are not rejected as duplicates.", "quantifier": "every registration history", "why_tests_cant": "Duplicates may arise from any two places of the group tree.", "anchors": ["router.go: routeStore.add, dumpRoute"]}
{"id": "C12", "title": "No registered route is silently shadowed by an equivalent spelling", "statement": "If Handler() accepts the route table, every route's own handlers can be reached by some request.", "quantifier": "every accepted route table", "why_tests_cant": "Two different spellings of one tree position must collide; tests do not enumerate spellings.", "anchors": ["tree.go: addEndNode lines 161-165", "router.go: _VariantUri, routeStore.add"]}
{"id": "C13", "title": "Exact acceptance condition of Handler()", "statement": "Handler() succeeds exactly when it is called on the root, every leaf has at least one handler after adding inherited middleware and all handlers have a supported type, no (method, URI) occurs twice, every URI is / or starts with / and does not end with /, and every segment is a well-formed pattern.", "quantifier": "every registration history", "why_tests_cant": "An if-and-only-if over all histories.", "anchors": ["router.go: Handler, getRoute, dumpRoute", "tree.go: analyzePattern", "util.go: checkSplitPattern"]}
{"id": "C14", "title": "Root-only operations", "statement": "Before, Handler, Classic, StaticAdvance, Static and StaticFile panic when called on a group, and have no effect in that case.", "quantifier": "every router in every reachable router tree", "why_tests_cant": "Holds for every group at every depth.", "anchors": ["router.go: Before, Handler, Classic", "m_static.go: StaticAdvance, StaticFile"]}
{"id": "C15", "title": "ANY registers every method except the excluded ones", "statement": "ANY adds exactly one route for each of GET, POST, DELETE, PUT, PATCH, HEAD, OPTIONS that is not in MethodAnyExclude, in that order, each with the same handlers.", "quantifier": "every exclusion list and router state", "why_tests_cant": "MethodAnyExclude is user-settable to any list.", "anchors": ["router.go: ANY, MethodAnyExclude"]}
{"id": "C16", "title": "Each handler runs at most once and in order", "statement": "While a request is served, the handlers of its chain are started in strictly increasing chain order, so each runs at most once, whatever they do and however often they call Next.", "quantifier": "every chain length and every handler behaviour (any pattern of Next, writes, panics)", "why_tests_cant": "Handlers are arbitrary code; all nestings of Next must be covered.", "anchors": ["context.go: Next, run"]}
{"id": "C17", "title": "The chain stops once the response is written", "statement": "After a handler has returned with the response header written, no later handler is started except by an explicit Next call; if no handler writes, panics or calls Next, all of them run.", "quantifier": "every chain and every handler behaviour", "why_tests_cant": "Quantifies over arbitrary handler code.", "anchors": ["context.go: run, WriteHeader, Write"]}
{"id": "C18", "title": "The first status wins and Status() reports it", "statement": "However often handlers call the Context's response methods, the underlying writer's WriteHeader is called at most once, with the first code; Written() is true from then on and Status() equals the code sent.", "quantifier": "every handler behaviour that uses only Context methods for responding", "why_tests_cant": "All sequences of calls across all handlers.", "anchors": ["context.go: WriteHeader, Write, Written, Status"]}
{"id": "C19", "title": "Implicit header on first Write", "statement": "The first ctx.Write without a preceding WriteHeader sends status 200, and a Content-Type guessed from the data when the data is non-empty and none was set; later writes change neither.", "quantifier": "every prior header state and data", "why_tests_cant": "All header states and all data.", "anchors": ["context.go: Write"]}
{"id": "C20", "title": "Content type of the response helpers", "statement": "ctx.String, Data, HTMLRaw, JSON and XML deliver the response with the Content-Type they document.", "quantifier": "every code, body and context", "why_tests_cant": "A unit test with a recorder inspects the header map, not the header that was sent.", "anchors": ["content.go: String, Data, HTMLRaw, JSON, XML", "render.go: defaultRender.HTMLSet"]}
{"id": "C21", "title": "Recovery contains every panic", "statement": "With Recovery in the chain, no panic of a later handler escapes from ServeHTTP; the client gets status 500 unless a header had been written before; without a panic an unwritten response becomes 200; no further handler is started afterwards.", "quantifier": "every later handler, panicking at any point with any value", "why_tests_cant": "All panic points of arbitrary handlers.", "anchors": ["m_recovery.go: Recovery", "router.go: Classic"]}
{"id": "C22", "title": "Protocol-level refusals", "statement": "Requests below HTTP/1.1, with RequestURI *, or with method CONNECT get 406; other methods outside the seven supported get 405; in both cases no handler runs.", "quantifier": "every request and every engine", "why_tests_cant": "All method strings and versions.", "anchors": ["engine.go: ServeHTTP", "router.go: MethodIndex"]}
{"id": "C23", "title": "Unmatched requests", "statement": "A request that matches no route gets a plain 404 when no not-found handlers are configured, otherwise the Before handlers of the root followed by the not-found handlers run, and no route's handlers run.", "quantifier": "every engine and every unmatched request", "why_tests_cant": "All unmatched paths of all tables.", "anchors": ["engine.go: ServeHTTP", "router.go: Handler lines 291-298", "option.go: WithNoFoundHandlers"]}
{"id": "C24", "title": "FullPath names the dispatched route", "statement": "During a handler, FullPath() is the registered URI of the route whose handlers are running, and empty when no route matched.", "quantifier": "every route table and request", "why_tests_cant": "All tables, including several spellings of one pattern.", "anchors": ["content.go: FullPath", "engine.go: buildTree"]}
{"id": "C25", "title": "Context values are write-once", "statement": "ctx.Set stores a value that every later Get of the same request returns; a second Set of the same name panics and leaves the first value; Get of an absent name panics; GetMaybe never panics.", "quantifier": "every sequence of Set/Get/GetMaybe operations", "why_tests_cant": "All operation histories.", "anchors": ["environ.go"]}
{"id": "C26", "title": "CORS origin decision", "statement": "The middleware announces an origin only if the configuration allows it: Access-Control-Allow-Origin is *, or the request's own Origin, only when the list contains that entry, and is empty otherwise; a preflight request is answered 204 without running later handlers, any other request continues down the chain.", "quantifier": "every configuration, every request, every later handler", "why_tests_cant": "All configurations and origins.", "anchors": ["m_cors.go: CORS"]}
{"id": "C27", "title": "Logging does not alter the request", "statement": "Installing Logger does not change what later handlers read from the request body, nor the response.", "quantifier": "every request body and content type", "why_tests_cant": "All body sizes.", "anchors": ["m_logger.go: Logger"]}
{"id": "C28", "title": "Integer getters", "statement": "Params/Query/Cookie integer getters return the decimal value of the parameter when it is a well-formed number in range, 0 when it is not a number, and the nearest bound when it is out of range; formatting a number and reading it back is the identity.", "quantifier": "every string, every integer of the type", "why_tests_cant": "All strings and all 64-bit integers.", "anchors": ["params.go", "query.go", "cookie.go"]}
{"id": "C29", "title": "Query accessors", "statement": "Query, DefaultQuery, QueryArray, DefaultQueryArray, QueryMap and DefaultQueryMap return exactly the trimmed form values under the name (under name[key] for maps), and the default exactly when there is none.", "quantifier": "every form, name and default", "why_tests_cant": "All forms and key spellings, all map iteration orders.", "anchors": ["query.go"]}
{"id": "C30", "title": "QueryMap is deterministic", "statement": "QueryMap returns the same map for the same request on every call.", "quantifier": "every form and every map iteration order", "why_tests_cant": "Go randomises map iteration; a test sees one order.", "anchors": ["query.go: QueryMap, DefaultQueryMap"]}
{"id": "C31", "title": "Binder selection", "statement": "ctx.Bind picks JSON only for application/json, XML only for application/xml or text/xml, multipart only for POST/PUT/PATCH with multipart/form-data, and the form binder otherwise and always for GET; parameters after a space or semicolon of the Content-Type are ignored.", "quantifier": "every method and content type", "why_tests_cant": "All strings.", "anchors": ["binding/binding.go: NewBindinger", "content.go: Bind, ContentType", "util.go: filterFlags"]}
{"id": "C32", "title": "Numeric form fields are stored faithfully or rejected", "statement": "If binding a form to a struct reports success, every bound integer field holds the number written in the form.", "quantifier": "every integer width and every input string", "why_tests_cant": "All inputs, in particular those out of range of narrow fields.", "anchors": ["binding/map_form.go: setWithProperType2"]}
{"id": "C33", "title": "Form field selection", "statement": "Binding a struct writes exactly the exported fields whose tag names a key present in the form or carries a default; fields without a tag, tagged -, unexported or absent keep their value.", "quantifier": "every struct type, value and form", "why_tests_cant": "All struct shapes and nestings.", "anchors": ["binding/map_form.go: _mapForm, tryToSetValue2, parseFormName"]}
{"id": "C34", "title": "Binding terminates", "statement": "Binding a form to any struct value terminates.", "quantifier": "every struct type, including recursive ones", "why_tests_cant": "Non-termination is not observable by a finite test of other types.", "anchors": ["binding/map_form.go: _mapForm lines 57-69"]}
{"id": "C35", "title": "Map binding", "statement": "Binding to map[string][]string copies all form entries; to map[string]string takes the last value of each key; existing other entries are kept.", "quantifier": "every form and target map", "why_tests_cant": "All forms, all iteration orders, including keys with no values.", "anchors": ["binding/mapping.go: setFormMap2", "binding/map_form.go: MapForm"]}
{"id": "C36", "title": "ETags identify file versions", "statement": "GenerateETag gives equal tags only for equal modification second and size; GenerateETag2 additionally only for equal names. The tag is made of these parts in hexadecimal, time first, with dashes between, and can be read back.", "quantifier": "all pairs of (time, size, name)", "why_tests_cant": "Injectivity over all values.", "anchors": ["util.go: GenerateETag, GenerateETag2"]}
{"id": "C37", "title": "Content-Disposition cannot be injected", "statement": "Whatever the file name, the Content-Disposition value contains no control characters, quotes or separators from the name, and the name can be recovered from it.", "quantifier": "every byte string as file name", "why_tests_cant": "All byte strings.", "anchors": ["util.go: contentDisposition", "content.go: Download, Attachment"]}
{"id": "C38", "title": "Client address", "statement": "RealIp is the X-Real-IP header if present, else the first entry of X-Forwarded-For, else the remote address without its port; Proxy lists the X-Forwarded-For entries in order.", "quantifier": "every header content and remote address", "why_tests_cant": "All strings.", "anchors": ["util.go: requestRealIp, requestProxy"]}
{"id": "C39", "title": "Static serves only from the configured file system", "statement": "Every byte of file content delivered by a Static/StaticAdvance route comes from the configured FileSystem at the requested name below the prefix.", "quantifier": "every request path, file system content and option set", "why_tests_cant": "All paths, including directories.", "anchors": ["m_static.go: StaticAdvance"]}
{"id": "C40", "title": "Static conditional requests", "statement": "With an ETag type configured, a request whose If-None-Match equals the current tag gets 304 and no content, any other request for a regular file gets the content with that ETag header. Two versions of a file have the same tag only if they have the same content.", "quantifier": "every file, tag type and header", "why_tests_cant": "All header values.", "anchors": ["m_static.go: StaticAdvance lines 92-108"]}
{"id": "C41", "title": "Gin-style patterns are equivalent to angle-bracket patterns", "statement": "A route written with /:name behaves exactly as the one written with /<name>; a route without : or * segments is used unchanged; the translation is idempotent and works segment by segment.", "quantifier": "every URI", "why_tests_cant": "All URIs.", "anchors": ["router.go: _VariantUri"]}
{"id": "C42", "title": "Contexts are never shared between concurrent requests", "statement": "At no time do two requests in flight use the same Context, and a finished request's Context is not touched by a running one.", "quantifier": "every number of requests and every interleaving of their steps, including panics and pool evictions", "why_tests_cant": "Races depend on the schedule.", "anchors": ["engine.go: ServeHTTP, ctxPool"]}
{"id": "C43", "title": "Concurrent requests do not interfere", "statement": "The response of each request under any interleaving with other requests equals its response when served alone.", "quantifier": "every set of requests and every schedule", "why_tests_cant": "Schedules cannot be enumerated by tests.", "anchors": ["engine.go: ServeHTTP", "context.go"]}
{"id": "C44", "title": "Route listings report the true handler count", "statement": "PrintRawRouter, PrintRawRoutes, PrintRawAllRoutes list each route exactly once with the number of handlers that will run for it.", "quantifier": "every registration history", "why_tests_cant": "All router trees.", "anchors": ["router_print.go"]}
{"id": "C45", "title": "Multipart memory default", "statement": "Unless WithMaxMultipartMemory is given, form parsing uses the documented default of 32 MB, and one engine's setting does not affect another's.", "quantifier": "every sequence of Handler() calls", "why_tests_cant": "A global variable's value depends on the history of all engines built in the process.", "anchors": ["router.go: Handler", "content.go: defaultMultipartMemory", "binding/form.go: SetMultipartMemory"]}
{"id": "C46", "title": "SetCookie argument mapping", "statement": "Each optional argument of SetCookie sets only its own attribute, arguments of an unexpected type leave the default, Path defaults to /, and omitting trailing arguments is the same as leaving their attributes at the default.", "quantifier": "every argument list", "why_tests_cant": "Arguments are interface{} lists of any length and types.", "anchors": ["cookie.go: SetCookie"]}
{"id": "C47", "title": "CookieEscape output is inert HTML", "statement": "The result of CookieEscape contains no <, >, quote characters, and every & in it starts one of the entities it introduced.", "quantifier": "every cookie value", "why_tests_cant": "All byte strings.", "anchors": ["cookie.go: CookieEscape"]}
{"id": "C48", "title": "Accepted regexp patterns can match", "statement": "Every regexp segment accepted at registration captures as many groups as it has names, so the route can match some path.", "quantifier": "every accepted pattern", "why_tests_cant": "All patterns.", "anchors": ["tree.go: partternRegexp, matchEndNode lines 241-251"]}
{"id": "C49", "title": "Pattern grammar", "statement": "A segment is literal iff it has no angle bracket and does not start with *; it is a catch-all iff it starts with *, or is written <*name> ; otherwise it must be enclosed in < > and is a regexp iff it contains ~ inside; anything else is rejected at registration time.", "quantifier": "every segment string", "why_tests_cant": "All strings.", "anchors": ["tree.go: analyzePattern, getparsedPattern, getWildcards, partternRegexp"]}
{"id": "C50", "title": "Handler argument types", "statement": "Registering nil as a route handler panics at once; any handler value of unsupported type makes Handler() panic, and every supported type is invoked exactly when its turn in the chain comes.", "quantifier": "every list of handler values", "why_tests_cant": "All positions and mixes of types.", "anchors": ["engine.go: newHandler, newHandlers", "router.go: handle, Group"]}
{"id": "C51", "title": "Validation reports every failing element", "statement": "Validating a slice or array fails iff some element fails, validation of a pointer is validation of its target, and values that are neither structs nor slices pass.", "quantifier": "every value shape and every struct validator", "why_tests_cant": "All nestings.", "anchors": ["binding/validator.go: ValidateStruct"]}
{"id": "C52", "title": "Path cleaning", "statement": "The cleaned path is rooted, has no empty, . or .. segments and no trailing slash except for the root, and cleaning twice is the same as once.", "quantifier": "every path", "why_tests_cant": "All strings.", "anchors": ["util.go: cleanPath", "m_static.go: StaticAdvance (path.Clean)"]}
{"id": "C53", "title": "No handler is skipped", "statement": "Handlers of a chain are started without gaps: when the i-th handler is started, all earlier ones have been started, whatever the handlers do.", "quantifier": "every chain of handlers and every behaviour of them, including repeated calls of Next", "why_tests_cant": "The interplay of repeated Next calls, responses and nesting has unboundedly many shapes.", "anchors": ["context.go: Next, run"]}
{"id": "C54", "title": "Redirect helpers", "statement": "ctx.MovedPermanently and ctx.Found answer 301 and 302 with exactly one Location header, the target computed from the given URL and the request, as an HTML page for GET.", "quantifier": "every request and target", "why_tests_cant": "All methods, targets and contexts; whether the header set is part of what is sent depends on the order of the calls.", "anchors": ["content.go: MovedPermanently, Found"]}
{"id": "C55", "title": "Attachments and downloads", "statement": "ctx.Attachment and ctx.Download deliver the content with exactly one Content-Disposition header, naming the file with the chosen disposition (attachment unless inline is asked for). If there is no such file Download returns an error and has sent and set nothing.", "quantifier": "every file name, content and request", "why_tests_cant": "All names; whether the header set is part of what is sent depends on the order of the calls.", "anchors": ["content.go: Attachment, Download", "util.go: contentDisposition"]}
{"id": "C56", "title": "Truth values are stored as written", "statement": "If binding a form to a struct reports success, every bound bool field holds the truth value written in the form, whatever it held before.", "quantifier": "every struct, previous value and input string", "why_tests_cant": "Tests bind to zero values; the previous value matters.", "anchors": ["binding/map_form.go: setWithProperType2"]}
{"id": "C57", "title": "The message of a failed slice validation names the failing elements", "statement": "The error text of validating a slice has one line per invalid element, in order, each starting with the index of that element.", "quantifier": "every slice and every set of failing elements", "why_tests_cant": "All subsets of failing elements.", "anchors": ["binding/validator.go: sliceValidateError.Error, ValidateStruct"]}
{"id": "C58", "title": "Which form parser is used, and when", "statement": "The first use of a form in a request parses it, as multipart/form-data exactly when the method is POST, PUT or PATCH and the Content-Type contains multipart/form-data, with the ordinary parser otherwise; a parse error panics; later uses do not parse again.", "quantifier": "every request, every body, every parser behaviour", "why_tests_cant": "All methods and content types.", "anchors": ["content.go: ParseFormOrMultipartForm", "query.go"]}
{"id": "C59", "title": "Missing path parameters", "statement": "Every getter of a path parameter panics exactly when the matched route has no parameter of that name; otherwise String returns the captured text unchanged and MustBool returns true exactly for the words 1, t, T, true, TRUE, True.", "quantifier": "every parameter map and name", "why_tests_cant": "All names and values.", "anchors": ["params.go: String, MustBool, MustInt, MustInt64, MustUint, MustUint64"]}
{"id": "C60", "title": "Listening address", "statement": "Run listens on :8080 without an argument, on the address given as the only argument, and panics with more than one.", "quantifier": "every list of addresses", "why_tests_cant": "All lists (Run blocks, so it is not tested at all).", "anchors": ["engine.go: Run", "util.go: resolveAddress"]}
{"id": "C61", "title": "Static responses are reported", "statement": "After a Static route or ctx.File has delivered a file, ctx.Written() is true and ctx.Status() is the status that was sent.", "quantifier": "every file, request and handler chain", "why_tests_cant": "All requests and positions in a handler chain.", "anchors": ["m_static.go: StaticAdvance lines 70-108", "content.go: File", "response.go: Written, Status"]}
{"id": "C62", "title": "http.Dir stays below its root", "statement": "Static with a directory never opens a path outside that directory, whatever the request path contains.", "quantifier": "every root and every name", "why_tests_cant": "All names with any mixture of dots and slashes.", "anchors": ["m_static.go: Static, StaticAdvance", "net/http fs.go: Dir.Open (library)"]}
{"id": "C63", "title": "Directory redirects", "statement": "A request for a directory without final slash is redirected to the same directory with a final slash: the client that follows the Location asks for that path. The Location never leads to another host.", "quantifier": "every path of a directory", "why_tests_cant": "All path bytes, including those that need escaping in a URL.", "anchors": ["m_static.go: StaticAdvance lines 76-84"]}
{"id": "C64", "title": "Index of the static root", "statement": "A request for the prefix of a static route, with or without final slash, is answered with the index file of the root directory.", "quantifier": "every prefix", "why_tests_cant": "All prefixes.", "anchors": ["m_static.go: StaticAdvance lines 50-56, 112"]}
{"id": "C65", "title": "No request can block another", "statement": "A request in flight never has to wait for another one: from every moment on it can be finished by its own steps alone, and the number of steps it takes after it got its Context does not depend on what the others do.", "quantifier": "every engine with terminating handlers, every reachable state of any number of concurrent requests and every schedule", "why_tests_cant": "Deadlock and starvation depend on the schedule; tests see only a few schedules.", "anchors": ["engine.go: ServeHTTP, ctxPool", "context.go: run"]}
{"id": "C66", "title": "What each binder reads", "statement": "BindWith with the form, multipart, query or header binder fills the target from exactly that part of the request, by the struct tag that belongs to it (header for headers, form otherwise), and validates the result; JSON and XML binders decode the unread body whatever the Content-Type is; path parameters are bound by the tag uri. The form is parsed at most once.", "quantifier": "every request, target, binder and state of the Context", "why_tests_cant": "All requests and all target types; tests bind a few structs.", "anchors": ["content.go: BindWith", "binding/form.go", "binding/query.go", "binding/header.go", "binding/uri.go", "binding/json.go", "binding/xml.go"]}
{"id": "C67", "title": "Times", "statement": "After successful binding a time field (or pointer to a time, or element of a slice of times) is the instant its text stands for: seconds or nanoseconds since 1970 when time_format says unix or unixnano in any case, otherwise the text read in the given layout (RFC 3339 by default) in the zone of time_location, or UTC if time_utc is true, or local; an empty text is the zero time except for the numeric formats, which refuse it.", "quantifier": "every struct type, field at any depth, tag and text, and every time library", "why_tests_cant": "All combinations of tags and texts, including negative nanosecond counts.", "anchors": ["binding/mapping.go: setTimeField2", "binding/map_form.go: setWithProperType2, _mapForm"]}
{"id": "C68", "title": "Binding refuses instead of panicking", "statement": "Binding a form never panics: targets that cannot be filled (nil, not a pointer, a pointer to neither a struct nor a string map) are refused with an error and stay as they were.", "quantifier": "every target, form and set of uploaded files", "why_tests_cant": "A panic can hide in any type and any request; tests try a few.", "anchors": ["binding/map_form.go: MapForm, _mapForm, tryToSetValue2, setWithProperType2"]}
{"id": "C69", "title": "The release tree listing shows every route once", "statement": "PrintRouterTree(method) shows each different route of the method exactly once, below the segments that lead to it, with the number of handlers that run for it; it shows nothing else, prints \"no route\" exactly if the method has no route, and panics exactly for an unknown method.", "quantifier": "every registration history, set of options and method name", "why_tests_cant": "The tree merges common prefixes of any number of routes in a registration-dependent way; tests look at a few trees.", "anchors": ["router_print.go: PrintRouterTree, printTreeNode, printNode", "util.go: checkMethod"]}
{"id": "C70", "title": "Tree drawings mark last siblings", "statement": "In the drawings of PrintRawRouter and PrintRouterTree an item gets a corner exactly if it is the last of its siblings, and a bar runs down exactly where further siblings follow.", "quantifier": "every registration history, depth and number of siblings", "why_tests_cant": "Indentation is rewritten recursively by string replacement; correctness at every depth is an inductive fact.", "anchors": ["router_print.go: printRawRouter, printTreeNode"]}
{"id": "C71", "title": "Bind2 gives each field the value its text stands for", "statement": "After a successful Bind2 every field, at any depth and behind any pointers, that the request has texts for (under the key of its tag, or its own name without a tag, or else its default) holds exactly the value the texts stand for: the first text for a single value, one value per text for slices and arrays, JSON for structs and maps, durations and times in their formats. A number that does not fit the field, or an array of another length, is never stored.", "quantifier": "every struct type, initial value, request, binder and library behaviour", "why_tests_cant": "Types nest without bound and each kind of field, tag and number width has its own path; tests cover a few structs.", "anchors": ["binding/mapping.go: mapping, tryToSetValue, setByForm, setWithProperType, setSlice, setArray", "binding/form.go, query.go, header.go, uri.go: Bind2"]}
{"id": "C72", "title": "Bind2 stores uploaded files", "statement": "After a successful Bind2 of a multipart form a field that files were uploaded for holds them: the first file in a file header or a pointer to one, all files in order in a slice, or in an array of exactly that length. Files take precedence over texts of the same key.", "quantifier": "every struct type, initial value and multipart request", "why_tests_cant": "The field may be a header, a pointer, a slice or an array at any depth; tests upload one or two files.", "anchors": ["binding/mapping.go: setByMultipartFormFile, setArrayOfMultipartFormFiles", "binding/form.go: multipartForm.TrySet"]}
{"id": "C73", "title": "Bind2 leaves everything else alone", "statement": "Whether Bind2 succeeds or not, a field keeps its value if the request has nothing for it or for a field below it; this is so for unexported fields and fields tagged \"-\". A nil pointer is replaced after success if and only if something was bound behind it.", "quantifier": "every struct type, initial value, request and binder", "why_tests_cant": "A statement about all fields that are not mentioned, at every depth and also on failure.", "anchors": ["binding/mapping.go: mapping, tryToSetValue"]}
{"id": "C74", "title": "Bind2 succeeds exactly if every text and file suits its field", "statement": "A Bind2 call never panics; it fails with an error exactly if some text or file does not suit its field, and otherwise returns the verdict of the validator.", "quantifier": "every struct type, initial value and request", "why_tests_cant": "The absence of panics from reflection for all types and values is not testable.", "anchors": ["binding/mapping.go: mapping, setWithProperType, setByMultipartFormFile", "binding/validator.go"]}
{"id": "C75", "title": "Bind2 always ends", "statement": "Every Bind2 call returns.", "quantifier": "every type, also recursive ones, initial value and request", "why_tests_cant": "Non-termination depends on the recursive structure of the type; a test can only time out.", "anchors": ["binding/mapping.go: mapping"]}
{"id": "C76", "title": "Bind2 into maps", "statement": "Binding a form, query or path parameters into a map of string lists, or a pointer to one, adds all entries of the form; into a map of strings it adds the last value of every key. Other entries stay and the call succeeds.", "quantifier": "every form and map", "why_tests_cant": "All key sets and overlaps of form and map.", "anchors": ["binding/mapping.go: mapFormByTag, setFormMap"]}
{"id": "C77", "title": "Bind2 refuses targets that cannot be filled", "statement": "Given a nil pointer, a nil map or a struct by value, Bind2 returns an error instead of panicking or reporting success.", "quantifier": "every type and request", "why_tests_cant": "All target types and requests.", "anchors": ["binding/mapping.go: mapFormByTag, setFormMap, mapping"]}
{"id": "C78", "title": "Bind and Bind2 agree", "statement": "For the same form and target, where both calls succeed, Bind and Bind2 give a field that holds one number, truth value or string the same value.", "quantifier": "every struct type, initial value and form", "why_tests_cant": "Two independent implementations of the same mapping are compared on all inputs.", "anchors": ["binding/mapping.go: mapping, setWithProperType", "binding/map_form.go: MapForm, _mapForm, setWithProperType2"]}
{"id": "C79", "title": "Default() contains panics", "statement": "On a router made by Default(), every route of it and of its groups is handled by Logger and Recovery before anything specific to the route, and no panic of a handler reaches the server.", "quantifier": "every registration on the router, every request", "why_tests_cant": "Quantifies over all registrations and handler behaviours.", "anchors": ["router.go: Default", "m_recovery.go: Recovery", "m_logger.go: Logger"]}
{"id": "C80", "title": "Refusal helpers", "statement": "NotModified, BadRequest, Unauthorized, Forbidden, NotFound, InternalServerError and Abort(n) end the request with exactly that status, no body and no further handler; NoCache in front of a response helper makes the response uncacheable.", "quantifier": "every chain, request and status", "why_tests_cant": "All chains and all later handlers.", "anchors": ["content.go: Abort, NotModified, BadRequest, Unauthorized, Forbidden, NotFound, InternalServerError, NoCache"]}
{"id": "C81", "title": "Reading request headers", "statement": "GetHeader gives the first line of that name whatever its case, UserAgent that of the name User-Agent; IsAjax, IsWebsocket and Protocol decide what their names say from the header lines that arrived.", "quantifier": "every list of header lines", "why_tests_cant": "All header lines in all spellings.", "anchors": ["content.go: GetHeader, UserAgent, Protocol, IsAjax, IsWebsocket"]}
{"id": "C82", "title": "Handlers read the request as it arrived", "statement": "Whatever handlers do, the request, its body and its form are read as they arrived: each byte of the body is given out once and in order, the form is parsed once.", "quantifier": "every chain, handlers and request", "why_tests_cant": "All interleavings of reads by all handlers of a chain.", "anchors": ["content.go: BodyString, BodyBytes", "context.go: Context", "query.go: Query"]}
{"id": "C83", "title": "Typed values of an Environ", "statement": "After any sequence of stores, each typed getter of Environ gives the value exactly if one of its own type is stored under the name, and panics otherwise; Has, Get and Set agree with what is stored.", "quantifier": "every sequence of stores, every name", "why_tests_cant": "All sequences of stores and all values.", "anchors": ["environ.go: Environ, GetBool, GetInt, GetInt64, GetUint, GetUint64, GetFloat64, GetString, Get, Set, Has"]}
{"id": "C84", "title": "Truth value getters", "statement": "MustBool, QueryBool, DefaultQueryBool and CookieBool give true exactly for the texts 1, t, T, true, TRUE and True; Bool tells whether the text is a truth value.", "quantifier": "every text, form, cookie and parameter", "why_tests_cant": "All texts.", "anchors": ["params.go: Bool, MustBool", "query.go: QueryBool, DefaultQueryBool", "cookie.go: CookieBool"]}
{"id": "C85", "title": "Every request is logged with its status", "statement": "Logger writes exactly one line for each request it handles, with the method, URL, client address and the status that the client gets; Recovery writes a line for each panic it ends.", "quantifier": "every chain, handlers and request", "why_tests_cant": "All chains, handler behaviours and endings.", "anchors": ["m_logger.go: Logger, logStatus, colorForStatus, logPrefix", "m_recovery.go: Recovery"]}
{"id": "C86", "title": "Refused registration calls change nothing", "statement": "A registration call that panics has no effect: a client that recovers from the panic and goes on registering gets the router that the calls that did not panic would have given.", "quantifier": "every sequence of registration calls, nested callbacks included, and every place where the client recovers", "why_tests_cant": "All histories, failing calls and recovery points.", "anchors": ["router.go: Before, Group, Use, handle, ANY"]}
{"id": "C87", "title": "Floating-point getters", "statement": "MustFloat64, QueryFloat64, DefaultQueryFloat64 and CookieFloat64 give the number that strconv.ParseFloat gives for their text (the trimmed form value, the default as it is, the parameter or cookie as it is, the empty text when missing) and drop its error; Float64 gives the error too; a missing path parameter panics.", "quantifier": "every text, form, cookie, parameter and default, and every ParseFloat", "why_tests_cant": "All texts and forms.", "anchors": ["params.go: Float64, MustFloat64", "query.go: QueryFloat64, DefaultQueryFloat64", "cookie.go: CookieFloat64"]}
{"id": "C88", "title": "Saved uploads", "statement": "SaveUploadedFile either stores exactly the uploaded bytes at dst and returns nil, or returns an error and leaves the file system as it was; it never changes another file, and a file it creates is private to its owner.", "quantifier": "every file system, upload, way of cutting it into reads, destination, and every failure of opening, reading and writing", "why_tests_cant": "Failures of the operating system in the middle of a copy are hard to provoke and there are infinitely many of them.", "anchors": ["content.go: SaveUploadedFile"]}
{"id": "C89", "title": "HandlerName", "statement": "In every handler of a request, HandlerName gives the name of the last handler of the chain that serves this request, whichever handler asks and whatever other requests are being served.", "quantifier": "every registration, request, regexp engine, handler code, moment and interleaving of requests", "why_tests_cant": "All interleavings and all moments; the context is recycled between requests and a name of another request's chain would only show under particular schedules.", "anchors": ["content.go: HandlerName", "util.go: nameOfFunction", "engine.go: ServeHTTP, newHandler"]}
{"id": "C90", "title": "Write errors are reported", "statement": "Write returns what the connection's Write returned. Stream, JSON and XML return nil exactly if the reader or encoder reported no error and no Write to the connection failed; then the client has received the whole body, and otherwise a prefix of it.", "quantifier": "every http.ResponseWriter that keeps the contract of io.Writer, every state of the context, every body in any pieces, every point of failure", "why_tests_cant": "Failures can happen at any byte of any piece and with any writer; tests try a few.", "anchors": ["context.go: Write, WriteHeader", "content.go: Stream, JSON, XML, String, Data, HTMLRaw"]}
{"id": "C91", "title": "Replies after a failed encoding", "statement": "If JSON returns an error, the handler can answer with another status instead.", "quantifier": "every value, status, state of the context and http.ResponseWriter", "why_tests_cant": "About every value that cannot be encoded and every later call.", "anchors": ["content.go: JSON", "context.go: WriteHeader"]}
{"id": "C92", "title": "An engine is a snapshot", "statement": "The engine returned by Handler() serves the routes, middleware and not-found handlers as they are at that call; later registration on the same routers, further Handler() calls, recovered panics and writes to slices the client passed do not change it.", "quantifier": "every program of registration calls, Handler() calls and writes to the client's slices before and after, every sharing of arrays among slices, every growth policy of append", "why_tests_cant": "Aliasing depends on capacities chosen by the runtime and on which slices share arrays; tests see a few layouts.", "anchors": ["router.go: Handler, dumpRoute, getRoute, Use, Before, Group, handle", "engine.go: newHandlers, buildTree", "option.go: WithNoFoundHandlers"]}
{"id": "C93", "title": "Registration takes the handlers as they are at the call", "statement": "Before, Use, Group, GET, ..., ANY register the handlers that the slice given to them holds at the call, whatever the client does with the slice later and however slices given to different calls overlap.", "quantifier": "every program of registration calls and writes to the client's slices, every sharing of arrays and every growth policy of append", "why_tests_cant": "All sharings and capacities; the in-place append bug class shows only for particular capacities.", "anchors": ["router.go: Before, Use, Group, handle, ANY, getRoute"]}
{"id": "C94", "title": "Slices given to water are left alone", "statement": "No registration call and no Handler() call writes to an array of the client: a slice passed with spare capacity, or passed to several calls, holds afterwards what the client put there.", "quantifier": "every program, array and cell", "why_tests_cant": "A write beyond the length of a passed slice would only be seen by looking at the right cell after the right sequence of calls.", "anchors": ["router.go: Before, Use, Group, handle, getRoute, Handler"]}
{"id": "C95", "title": "A Context kept by a goroutine", "statement": "Goroutines that a handler starts and that go on using the Context affect no request but their own: whenever and however often they call it, every other request gets the response it would get alone.", "quantifier": "every program of handlers, every number of requests and of goroutines keeping contexts, every sequence of calls on a kept Context, every interleaving", "why_tests_cant": "Contexts are pooled, so whether a late call lands in another request's response depends on scheduling; a test sees one schedule.", "anchors": ["engine.go: ServeHTTP, ctxPool", "context.go: Context, reset"]}
{"id": "C96", "title": "Tags of static files in conditional requests", "statement": "The Etag that a static file is sent with works as HTTP describes: while the file is unchanged, If-Match with it lets a request proceed, If-Range with it lets the Range be obeyed, and If-None-Match with it, alone or in a list, gets 304; once the file has changed, the old tag is never taken for the current one.", "quantifier": "every static route with tags, file, time of modification, and combination of If-Match, If-None-Match, If-Unmodified-Since, If-Modified-Since, If-Range and Range headers", "why_tests_cant": "The outcome depends on six headers together, each with unboundedly many values, and on the form of every possible tag.", "anchors": ["m_static.go: Static, StaticAdvance", "util.go: GenerateETag, GenerateETag2"]}
{"id": "C97", "title": "Incomplete bodies, and bodies read twice", "statement": "A request body that breaks off before its end is never taken for a complete one: unless a handler replaced the body, reading it to the end gives an error. BodyBytes gives all that is left of the body, or an error and no bytes; after it has closed a body that came over the wire, every later read of the body fails and gives no byte.", "quantifier": "every chain, handlers, body, and place where the body breaks off", "why_tests_cant": "All chains of handlers that read, parse and close the body in any order, and all bodies.", "anchors": ["content.go: BodyString, BodyBytes", "m_logger.go: Logger", "binding/json.go", "binding/xml.go"]}
{"id": "C98", "title": "Forms do not depend on the order of calls", "statement": "What Query and its siblings, FormFile, Request.FormValue, Bind and BindWith find in the form of a request depends only on the request, not on which of them were called before.", "quantifier": "every request, every sequence of these calls, every behaviour of the parsers of net/http", "why_tests_cant": "There are infinitely many sequences of calls; the state they share (two parsers, three forms and a flag) is spread over water and net/http.", "anchors": ["content.go: ParseFormOrMultipartForm, FormFile, Bind, BindWith", "query.go: Query", "binding/form.go: formBinding.Bind, formMultipartBinding.Bind"]}
{"id": "C99", "title": "The configured memory is used for uploads", "statement": "Whenever a multipart form is parsed for a handler, the memory given with WithMaxMultipartMemory is used, and the body is parsed once.", "quantifier": "every request and every sequence of calls that use a form", "why_tests_cant": "Which call parses the body depends on all calls before; the memory is not visible in the result.", "anchors": ["option.go: WithMaxMultipartMemory", "content.go: ParseFormOrMultipartForm, FormFile", "binding/form.go: SetMultipartMemory"]}
{"id": "C100", "title": "File, ServeFile and StaticFile send the named file", "statement": "A request for a path registered with StaticFile, or for a route whose handler calls ctx.File or ctx.ServeFile, is answered with the contents of the file with the given name, or with an error page if it cannot be opened.", "quantifier": "every route, request path, file name and file system; ServeFile at any position in the chain, behind any headers", "why_tests_cant": "All request paths (including those net/http treats specially), all spellings of names, all states of the file system.", "anchors": ["content.go: File, ServeFile", "m_static.go: StaticFile"]}
{"id": "C101", "title": "An engine mounted in another answers as it does alone", "statement": "A request for a route of one engine whose only handler is another engine (an http.Handler) ends in the same way and gets the same response as a request to that other engine; the outer Context then counts as written exactly if the inner engine sent a status, with that status.", "quantifier": "every pair of engines, every request and body, every code of the handlers of the inner engine, any state of the outer Context that is not yet written to", "why_tests_cant": "All handler codes and all interleavings of writes through both Contexts; tests see a few responses.", "anchors": ["engine.go: ServeHTTP, newHandler", "context.go: WriteHeader, Write"]}
{"id": "C102", "title": "A cookie set with SetCookie is what Cookie returns when it comes back", "statement": "A client that keeps the cookie of SetCookie(name, value, ...) and sends it with a later request, in any of the Cookie lines and among any other cookies, makes Cookie(name) return the value and the typed getters the number or boolean written in it; without a cookie of that name Cookie returns the empty string.", "quantifier": "every name, value and optional arguments; every set of other cookies before and after it, over any number of Cookie lines", "why_tests_cant": "Values are arbitrary bytes, and which of them survive quoting, sanitising, trimming and the neighbouring cookies is a statement about all of them.", "anchors": ["cookie.go: SetCookie, Cookie, CookieInt, CookieInt64, CookieBool"]}
{"id": "C103", "title": "Set-Cookie carries what was asked for and nothing else", "statement": "Whatever bytes the name, value, path and domain passed to SetCookie contain, a client reads from its line exactly the attributes asked for, each from its own argument (paths without bytes they cannot have, domains only if they are well-formed), and nothing at all if the name is no token; the line has printable ASCII only, so it cannot begin another header; calls add their lines in order and change no other header.", "quantifier": "every argument list; every handler, anywhere in the chain, that has not answered yet", "why_tests_cant": "Injection is a statement about all strings: no sample of values excludes one that begins an attribute or a header.", "anchors": ["cookie.go: SetCookie"]}
{"id": "C104", "title": "Query parameters arrive as they were sent", "statement": "For a request whose URL has a query made of any pairs of names and values, in any order and any spelling of their bytes (as they are, as %XX, a space as +), Query gives the first value of a name without the white space around it, QueryArray all of them in order, the Default forms the same or the default for a name that was not sent, and QueryMap(key) the values of the names key[x]; the query binder reads the same pairs.", "quantifier": "every list of pairs of byte strings and every way of writing it; every state of the chain in which a handler asks for the form", "why_tests_cant": "All byte strings, all spellings and all combinations of names; a test sends a few queries.", "anchors": ["query.go: Query, QueryArray, QueryMap, DefaultQuery, DefaultQueryArray", "content.go: ParseFormOrMultipartForm", "binding/query.go: Bind"]}
{"id": "C105", "title": "Forms in request bodies, and malformed ones", "statement": "For POST, PUT and PATCH with a form body, the values of the body come before those of the query, with a multipart body after them; a malformed query, form body or Content-Type, a form body over 10 MB or one that breaks off makes the first getter panic before its handler goes on; a later getter works on the well-formed pairs; what other handlers read of the body before is not in the form.", "quantifier": "every request and body, every chain of handlers, every state of the body when the form is first asked for", "why_tests_cant": "All bodies, malformed in all ways, and all orders of reading and parsing.", "anchors": ["content.go: ParseFormOrMultipartForm", "query.go: Query, QueryArray, DefaultQuery"]}
{"id": "C106", "title": "Redirects lead where they say", "statement": "Found and MovedPermanently with a target that has a scheme or host send it as given; with a path, absolute or relative to the directory of the request, they lead to that path without dot segments and repeated slashes, query kept. The Location is this text in ASCII, the link of the page is the same text escaped for HTML. A target without scheme and host does not lead to another host, and paths are resolved as in RFC 3986, section 5.2.", "quantifier": "every target, every request path, every chain of handlers around the redirect", "why_tests_cant": "All targets that an application may build from user input, against all request paths; an open redirect is one target among infinitely many.", "anchors": ["content.go: MovedPermanently, Found"]}
{"id": "C107", "title": "Path parameters arrive as they were sent", "statement": "A request whose target spells segments with percent escapes, in origin or absolute form and with any query, is served by the route chosen for the decoded segments; its <name> parameters have these values and a named catch-all has the rest of the path, whatever bytes they contain. A target with a malformed escape does not reach the application. Every value can be sent.", "quantifier": "every target, every list of segment values, every engine and chain of handlers", "why_tests_cant": "All byte strings as values, in all their spellings, against all route tables; tests show a few names with a blank or an umlaut.", "anchors": ["engine.go: ServeHTTP", "tree.go: Match", "context.go: Params"]}
{"id": "C108", "title": "Pages come from the Render that was set last", "statement": "A handler that calls HTML or HTMLSet, at any place in the chain, does what the Render does that SetRender was last called with before the request, whatever engines and requests there were before; it is given the status, set, template and data of the call, the set being \"\" for HTML. Nothing of it is changed or added: the page it sends is the response. Without SetRender the response is the status alone.", "quantifier": "every history of a process, every Render, chain of handlers, status, template and data", "why_tests_cant": "The Render is a variable of the process that all engines share, so all histories matter; a Render is arbitrary code.", "anchors": ["render.go: SetRender, HTML, HTMLSet"]}
{"id": "C109", "title": "A request for parts of a file gets these parts", "statement": "A file of a static route, a download and an attachment is sent whole without a Range header. With one, of any number of ranges, the reply has exactly the bytes asked for: one part, or multipart/byteranges, with matching Content-Range, Content-Type and Content-Length; 416 if the file has none of them; the whole file if the ranges together are longer than it. Whatever the header says, no bytes but those of the file at the places announced are sent.", "quantifier": "every file content, every Range header, every engine, route and chain of handlers, GET and HEAD", "why_tests_cant": "All lists of ranges in all their spellings against files of all sizes; tests try a few ranges of one file.", "anchors": ["m_static.go: StaticAdvance", "content.go: Download, Attachment"]}
{"id": "C110", "title": "HEAD tells what GET would", "statement": "A HEAD request for anything below a static route, or for a file served by StaticFile, gets the status and the headers that a GET request with the same headers gets, and no content. So does a HEAD request for any path that has a route for both methods with the same handlers, unless these look at the method of the request.", "quantifier": "every directory, every path below the route, every request header, every engine, every chain of handlers", "why_tests_cant": "All kinds of replies (files, parts, redirects, conditions, errors) would have to be requested twice and compared, with all handlers and engines.", "anchors": ["m_static.go: StaticAdvance, StaticFile", "router.go: HEAD, ANY", "content.go: File, Redirect", "engine.go: ServeHTTP"]}
{"id": "C111", "title": "Uploads and multipart fields arrive as they were sent", "statement": "A client that sends fields and files as multipart/form-data: every field is found by Query and the other accessors under its name with its values in their order, behind those of the query; FormFile gives the first file sent under a name, with its name, its content and its headers, and SaveUploadedFile writes this content; Bind and BindWith get all of it. Whatever the contents are, of whatever size the files, for every memory limit, and in whatever order these are called. Fields of more than 10 MB above the memory limit are an error. So is a body that is cut off anywhere before its closing boundary, and a body with another content type: nothing of such a body is found by any call, and the first call that asks for the form panics.", "quantifier": "every list of fields and files, every content, every boundary that the contents do not contain at the start of a line, every header of a part, every memory limit, every sequence of calls", "why_tests_cant": "Contents that nearly hold the boundary, names with quotation marks, sizes around the limits and all orders of calls would have to be tried.", "anchors": ["content.go: FormFile, SaveUploadedFile, ParseFormOrMultipartForm, Bind, BindWith", "query.go: Query", "binding/form.go: formMultipartBinding"]}
{"id": "C112", "title": "A handler's own tag works in conditional requests", "statement": "When a handler has set the ETag header to a tag (strong or weak) and a file is then sent with Download, Attachment or ServeFile, GET and HEAD requests with conditions get what RFC 7232 and 7233 ask for: 412 if If-Match names only other tags (by strong comparison) or, without If-Match, the file is newer than If-Unmodified-Since; 304 without content or entity headers if If-None-Match names the tag (by weak comparison) or, without If-None-Match, the file is not newer than If-Modified-Since; otherwise the content, in the parts of the Range header unless If-Range has another tag or date. All replies have the tag. This holds for lists of tags with blanks and empty elements, and for the star. Headers that are not well-formed are read from the left up to the first text that is neither a tag nor a comma; tags before it count, tags behind it do not.", "quantifier": "every tag, every list of tags, every file, every date, every combination of conditions, every chain of handlers and engine", "why_tests_cant": "The combinations of five conditions, each with lists of any length, and of strong and weak tags cannot be enumerated.", "anchors": ["content.go: Download, Attachment", "content.go: ServeFile", "go.mod (net/http of Go 1.15)"]}
{"id": "C113", "title": "Text replies are not taken for pages", "statement": "A reply of ctx.String is plain text to the client whatever the text is, one of HTMLRaw a page, one of JSON or XML a value in that format: no text that a handler sends with String is taken for a page, whose scripts would be run.", "quantifier": "every text and value, every engine, route, chain and request", "why_tests_cant": "The type is guessed from the bytes of the reply; which of all texts are taken for what cannot be enumerated.", "anchors": ["content.go: String, Data, HTMLRaw, JSON, XML", "go.mod (net/http of Go 1.15)"]}
{"id": "C114", "title": "Regexp segments take the texts of their expressions", "statement": "A segment <names ~ expression> of a route takes exactly the request segments that the expression describes, and each name gets the part of the request segment that its group describes.", "quantifier": "every expression made of characters, classes, alternatives, sequences, groups, anchors and repetitions, every segment of a request (any bytes), every route, engine and request", "why_tests_cant": "The texts an expression describes are infinitely many, and so are the expressions.", "anchors": ["tree.go: partternRegexp, analyzePattern, Match", "go.mod (regexp of Go 1.15)"]}
{"id": "C115", "title": "Clients read the replies that handlers wrote", "statement": "On a connection with any number of requests a client that follows RFC 7230 reads, one after the other, the replies of the handlers: the status, the body (none for HEAD), and for each header name the values that were set. A value cannot add header lines or end the header, and no reply runs into the next.", "quantifier": "every engine and every sequence of requests on a connection, every handler that gives its headers proper names and leaves the framing to the server, every way of writing the body in pieces, every size of the server's buffer, all header values (any bytes); more generally every response with a status from 200 to 999 whose Content-Length, if any, is that of its body", "why_tests_cant": "How a body is cut into writes, buffers and chunks, what header values contain and how many requests a connection carries are unbounded.", "anchors": ["engine.go: ServeHTTP", "context.go: Write, WriteHeader", "content.go: String, Redirect, Download"]}
{"id": "C116", "title": "A reply that was cut is not taken for a whole one", "statement": "If a handler panics and nothing recovers it, or writes less than the Content-Length it declared, then no client takes the reply for a complete one.", "quantifier": "every engine, request and handler as in C115 whose run ends with a panic, every way of writing the body in pieces, every size of the server's buffer; every response with a declared length that is greater than what is written", "why_tests_cant": "When the handler gives up, and how much of the body is in the buffer at that time, is unbounded.", "anchors": ["engine.go: ServeHTTP (no recovery of its own)", "context.go: Write"]}
{"id": "C117", "title": "Files arrive at clients byte for byte", "statement": "A client that follows RFC 7230 and asks for a file below a static route reads status 200, the content type of the file and exactly its bytes (none for HEAD), and can read nothing else from the connection. With conditions and ranges it reads the status and the body that the handler sent, and the next reply starts behind it. The same holds for every handler whose Content-Length is the length of what it writes.", "quantifier": "every engine whose static route alone takes the path of the request, every file, file name and option of the route, GET and HEAD, every buffer size of the server; for conditions and ranges: all values of the request headers, files that are not empty", "why_tests_cant": "The contents of files, the Range headers and how the server's buffer cuts the body are unbounded.", "anchors": ["m_static.go: StaticAdvance", "content.go: Download, Attachment, File", "engine.go: ServeHTTP"]}
{"id": "C118", "title": "Nothing beyond the announced length reaches the client", "statement": "If a handler sets Content-Length and then writes more or fewer bytes than that, the bytes in excess never get to the client, so they cannot be taken for the start of another reply, and the reply is the last one on the connection. A client that follows RFC 7230 reads the first bytes, as many as announced, if one of the calls of Write ends there; otherwise it can read no reply at all and so never takes a truncated body for a whole one.", "quantifier": "every engine and request, all handlers, every announced length below 2^63, every sequence of writes, every buffer size of the server", "why_tests_cant": "The announced length, the sizes of the writes and the size of the buffer are unbounded and independent of one another.", "anchors": ["context.go: Write, WriteHeader, SetHeader", "engine.go: ServeHTTP"]}
{"id": "C119", "title": "On the wire HEAD differs from GET by the body alone", "statement": "From the bytes of the connection a client reads for HEAD the status and header lines that it reads for GET, and no body: no byte of a body follows the header, so the next reply is not misread. A Content-Length in a reply to HEAD is the length of the body that GET gets.", "quantifier": "every engine whose routes for GET and HEAD lead to the same handlers, all handlers that do not look at the method (any writes, any sizes), all files below static routes with any conditions and ranges, every buffer size of the server", "why_tests_cant": "Bodies, files, ranges and the size of the server's buffer are unbounded; whether a length is computed depends on them.", "anchors": ["router.go: handle", "m_static.go: StaticAdvance", "context.go: Write", "engine.go: ServeHTTP"]}
{"id": "C120", "title": "Listings of directories show every entry, and only those", "statement": "When File, ServeFile or StaticFile is given a directory without index.html and the path of the request ends in a slash, the client gets 304 if the directory is not newer than If-Modified-Since, and otherwise an HTML page with one link per entry, in the order of the names: read as HTML, the text of each link is the name of the entry (with a slash for directories), whatever bytes it has, so no name can add mark-up; the address leads from the page to the entry.", "quantifier": "every directory with any number of entries with any names, every engine, chain of handlers and request", "why_tests_cant": "Names are arbitrary strings of bytes with characters that mean something in HTML, in addresses and in both; whether a page can be read in one way only is a statement about all of them.", "anchors": ["content.go: File, ServeFile", "m_static.go: StaticFile, StaticAdvance", "go.mod (net/http of Go 1.15)"]}
{"id": "C121", "title": "A file asked for with the date it was sent with", "statement": "Last-Modified of a file is the date of its modification in the calendar, in the form of RFC 7231. Sent back in If-Modified-Since it gets 304 without a body exactly if the file is not newer; in If-Unmodified-Since it gets 412 exactly if the file is newer; in If-Range the Range is obeyed exactly if the file was modified at this time, and otherwise all of the file is sent. A date in this form is read as the moment that it means, whoever wrote it.", "quantifier": "every moment of the years 0 to 9999, every text, every file of a static route (with or without tags), StaticFile, Download, Attachment or ServeFile, every engine and request", "why_tests_cant": "Dates are computed with divisions by the lengths of centuries and leap years, and are written and read by different code; that the two agree with the calendar and with each other is a statement about every second of ten thousand years.", "anchors": ["m_static.go: StaticAdvance", "content.go: Attachment, Download", "go.mod (net/http, time of Go 1.15)"]}
