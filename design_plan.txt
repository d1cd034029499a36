C01 M: tree.go as an inductive tree built by successive `add`, matched by `Match`; the regexp engine is an arbitrary pair of functions; engine.go's buildTree and ServeHTTP on top. P: invariant between the tree and the list of registered routes (TreeFacts), induction on the tree for matching (TreeMatch), lifted to engines through the registration history (ServeTop, ServeParams).
C02 M: as C01. P: induction on the tree: if a route fits the path, the matcher does not return none.
C03 M: as C01. P: the declarative order `beats` of TreeSpec; the chosen route beats every other fitting route; `beats` is shown to be a strict order (TreeOrder).
C04 M: as C01 with the parameter map threaded through dead ends as the code does. P: parameters described position by position (TreeParams, TreeLasting); refutations by evaluation of two concrete tables.
C05 M: as C01. P: the order in which same-kind nodes are tried is the registration order (ListFacts); refuted for catch-alls.
C06 M: strings.Trim and Split as total functions. P: lemma on strings, then on Match.
C07 M: the static map of engine.go beside the tree. P: two engines made from one history with and without the option are compared (ServePairs) by a simulation of runs (Sim).
C08 M: the recycled context is an arbitrary argument of ServeHTTP. P: simulation of runs from two contexts (Sim, ServeMore).
C09 M: router objects in a heap, registration calls as an operation language. P: invariant between heap and history (RouterFacts), the dump against the history (RouterDump).
C10 M: as C09. P: comparison of two histories that differ by one Use.
C11 M: route store of router.go. P: invariant of the store, iff over all histories.
C12 M: as C01. P: from C01-C03: a generic path with fresh segments decides whether a route is covered by others (Reach.v); refutation by evaluation.
C13 M: router.go Handler, option.go. P: iff over all histories and options (HandlerFacts).
C14 M: as C13. P: case analysis on the operation and the lineage of the router.
C15 M: router.go Any. P: induction on the list of methods.
C16 M: handlers are arbitrary well-founded interaction programs over the operations of the Context, with nested Next and defer/recover; the run is logged. P: induction on programs (CtxFacts, ServeProps).
C17 M: as C16. P: rule on logs proved as an invariant.
C18 M: context.go WriteHeader and Write over a writer obeying net/http's contract. P: invariants on logs.
C19 M: as C18. P: as C18.
C20 M: content.go helpers as programs. P: computation of the run for an arbitrary continuation; refutation for every string.
C21 M: m_recovery.go as a program with try/recover. P: execution lemma for Recovery (RecoveryFacts) for every chain before and behind it.
C22 M: engine.go ServeHTTP. P: case analysis.
C23 M: as C22. P: case analysis and C01/C02.
C24 M: as C22. P: C01-C03 with the URI stored in the node.
C25 M: environ.go on the Context. P: rules on logs over all runs.
C26 M: m_cors.go as a program. P: computation of the run for arbitrary configurations and continuation; list induction for the origins; behind other handlers, from the log of the run (CorsMore).
C27 M: m_logger.go as a program; reading, closing and replacing the body. P: simulation between the chain with and without Logger, over bodies in memory and on the wire (LoggerFacts, BodyFacts).
C28 M: strconv's integer parsing and formatting. P: induction on digits (StrconvFacts).
C29 M: query.go over url.Values. P: case analysis; list induction.
C30 M: map iteration as an arbitrary permutation. P: permutation invariance of the fold.
C31 M: binding.go Default, ctx.Bind as a program. P: case analysis and execution lemma.
C32 M: map_form.go over struct types and values as inductive data. P: induction on the fuel of the traversal against the relation of BindingSpec.
C33 M: as C32. P: as C32.
C34 M: as C32. P: lower bound on the fuel for finite types; divergence for every fuel for a recursive one.
C35 M: map targets of map_form.go. P: fold over permutations.
C36 M: util.go tags, fmt's %x. P: injectivity of hexadecimal formatting and of the joined text; a separate reader of hexadecimal numbers and texts gives the parts back (C36_reads, C36_reads2).
C37 M: url.PathEscape. P: round trip and alphabet, induction on bytes.
C38 M: util.go RealIp. P: string lemmas.
C39 M: m_static.go's handler over an arbitrary file system. P: execution lemmas case by case.
C40 M: as C39; unix_second for the seconds of a time. P: as C39 with C36; a file changed within a second keeping its size keeps its tag and gets 304 (C40_same_second_refuted), and no other change of time or size does (C40_other_second_partial).
C41 M: router.go's rewriting of patterns. P: characterisation per segment; equal trees and replies (Variant, ServePairs).
C42 M: Machine.v: small-step interleaving of ServeHTTP by any number of goroutines sharing the pool; arbitrary schedules. P: ownership invariant.
C43 M: as C42. P: each goroutine's steps are simulated by its run alone (MachineFacts).
C44 M: router_print.go (Listing.v): what is printed as text. P: induction on the dump, against the history (ListingFacts, ListingTree).
C45 M: option.go and the global of package binding. P: computation over option lists; refutations by evaluation.
C46 M: cookie.go SetCookie with dynamically typed arguments. P: case analysis on positions and types.
C47 M: html/template's escaper as used. P: induction on bytes: no active byte, and a decoder inverts it.
C48 M: pattern analysis, counting of groups. P: from C49 and the interface of the engine.
C49 M: tree.go's analysis of segments. P: iff with a grammar given as inductive predicates (PatternFacts).
C50 M: router.go's conversion of handler values; http.Handler as a program on the raw writer. P: case analysis; rules on logs (HttpFacts).
C51 M: validator.go over arbitrary values and an arbitrary struct validator. P: induction on values.
C52 M: path.Clean and util.go. P: induction on segments, idempotence.
C53 M: as C16. P: rule on logs; refutation by evaluation.
C54 M: content.go redirects; http.Redirect's target is a parameter. P: execution lemma; behind other handlers a rule on logs: until the answer the header map is what the calls in the log make of it (HelperLog).
C55 M: content.go Attachment, Download. P: execution lemma with C37; behind other handlers as C54.
C56 M: as C32. P: as C32.
C57 M: the message of validator.go. P: induction on the list of errors.
C58 M: the once-only flag of context.go and the choice of parser. P: rules on logs.
C59 M: params.go. P: case analysis.
C60 M: engine.go's choice of address. P: case analysis.
C61 M: as C39. P: for every file and request, by execution.
C62 M: http.Dir as path.Clean and a join. P: lemma on path segments.
C63 M: as C39; URL parsing of the redirect target in the specification. P: string lemmas; a cleaned path begins with one slash, and escaping leaves that (C63_same_host).
C64 M: m_static.go's registration and C01. P: the pattern prefix/* needs one more segment.
C65 M: as C42. P: progress of each goroutine with a measure that only its own steps change.
C66 M: the Bind methods of package binding as programs. P: execution lemmas.
C67 M: map_form.go's time fields over arbitrary time functions. P: as C32.
C68 M: as C32. P: induction on the traversal with Panic as an outcome.
C69 M: the tree listing over Tree.v. P: induction on the tree, multiset of printed routes (ListingNode, ListingTop).
C70 M: as C69. P: induction on the drawing against an inductive specification of drawings.
C71 M: mapping.go's Bind2 over the types and values of C32, with access paths for settability. P: induction on the fuel against MappingSpec.
C72 M: multipart file fields of mapping.go. P: as C71.
C73 M: as C71. P: as C71.
C74 M: as C71. P: iff by induction on the fuel (MappingAccept).
C75 M: as C71. P: bound on the fuel from the depth of the type; divergence for every fuel.
C76 M: map targets of Bind2. P: fold over permutations.
C77 M: Bind2 on nil pointers, nil maps and values that are not passed through a pointer. P: case analysis; induction on the path to the part that would be written, and on the depth for the equality with a call through a pointer.
C78 M: both binders. P: from C32/C56/C71.
C79 M: router.go Classic and Default. P: histories with the two Use calls first; C09 and C21.
C80 M: content.go Abort and its siblings. P: execution lemma for every continuation; NoCache behind other handlers as C54.
C81 M: content.go IsAjax, IsWebsocket, Protocol. P: string lemmas against request lines.
C82 M: as C16; bodies that fail as for C97. P: rules on logs: every read is answered by the request that arrived, as long as no handler replaced the body.
C83 M: environ.go on maps and on nil maps. P: induction over histories of Set.
C84 M: strconv.ParseBool and the getters on top. P: case analysis.
C85 M: the lines of m_logger.go and m_recovery.go as operations in the log. P: rules on logs, execution lemmas.
C86 M: the registration calls with the router objects as they are after a panic (RouterTry.v). P: induction over calls and callbacks, relation to the model without recovery.
C87 M: the Float64 getters over an arbitrary ParseFloat. P: case analysis; that a trimmed text is determined by prefix- and suffix-freeness of the encodings of white space.
C88 M: SaveUploadedFile on a map of files, with arbitrary failures of opening, reading and writing. P: induction on the calls of Read.
C89 M: HandlerName on the contexts of the concurrent machine; names and kinds of function values are parameters. P: invariant over executions: the context of a running request holds the chain found for it; the chain of a request is unique by priority and first registration.
C90 M: Wire.v: Write, WriteHeader, Stream, String, Data, HTMLRaw, JSON, XML over any ResponseWriter with results; io.Copy's loop; json.Encoder as one Write, xml.Encoder as pieces. P: the list of Write calls on the writer, by induction over the pieces; simulation with Content.v when the connection has room.
C91 M: as C90. P: counterexample; the flag written stays set.
C92 M: Slices.v: memory of arrays, slices as pointer, length and capacity, append in place or to a new array (growth is a parameter), make, copy; registration calls, Handler, clients writing to their own arrays. P: ownership invariant over all programs (middleware and sub slices of distinct routers never share an array with capacity, none with a client); Handler only adds arrays; the engine holds only arrays of its own.
C93 M: as C92. P: simulation between programs with slices and calls with the values seen at the call (SliceSpec.v), with a ghost flag for writes to handlers of routes; counterexample for such writes; without the flag for everything but handlers of routes.
C94 M: as C92. P: the same invariant: append in place happens only in arrays that no client made.
C95 M: Stray.v: beside the steps of Machine.v, a handler may hand its Context to a goroutine, which may later make any call on it (one step per call) or advance its index (Next). P: invariant that kept contexts whose requests have not ended are held by no other request nor pooled; hence other requests go as if alone. Counterexample for goroutines that outlive the request.
C96 M: NetServe.v: the preconditions of http.ServeContent (scanning of tags, six headers), given the Etag that Static.v sets; parsing of dates and the sending of content are parameters. P: scanned tags begin with a quotation mark and the tags of water never do, so no list matches; the answer as a relation on the headers (CondSpec.v), composed with the reply of a static route (StaticTop.tag_reply).
C97 M: a request body is its bytes and how it ends: in memory (always readable, Close does nothing), on the wire, broken off, closed; ReadAll, Close, BodyBytes, json and xml binding, Logger and the form parser act on it. P: rules on logs (RequestFacts), and BodyBytes once and twice from any state (BodyTop).
C98 M: content.go ParseFormOrMultipartForm, FormFile, Bind, BindWith, binding/form.go and the parts of net/http's request.go that they call, as functions on the three forms of a request and the flag of the context; the parsers of queries, media types and parts are parameters. P: invariant over sequences of calls; refutations by evaluation.
C99 M: as C98, with a ghost list of the memory given to ReadForm. P: as C98.
C100 M: content.go File, ServeFile, m_static.go StaticFile and net/http's ServeFile (fs.go) over a file system of the process that maps paths to files, directories and errors; serveContent and listings are parameters. P: the paths by the lemmas for path.Clean, the cases by evaluation of the handler, ServeFile by the log of the chain; refutations by evaluation.
C101 M: engine.go newHandler's http.Handler case with an Engine: ServeHTTP, run and the Context's Write/WriteHeader of the inner engine over the outer Context. P: simulation of the inner engine on the outer Context by the same engine on a connection, by induction on programs and chains; the condition on the log is an invariant for handlers without raw writes; refutations by evaluation.
C102 M: NetCookie.v: Cookie.String, readCookies and Request.Cookie of net/http under cookie.go; CookieSpec.v: a client after RFC 6265. P: the line is cut at its semicolons and each part read on its own (induction on the cookies), trimming stops at printable bytes; refutations by evaluation.
C103 M: as C102, with SetCookie as a call of a handler. P: the line is a list of pieces without semicolon, read one by one; domains by induction on labels and octets; the reply by the log of the handler's turn.
C104 M: NetQuery.v: net/url QueryUnescape, ParseQuery and URL.Query, net/http ParseForm, under query.go; QuerySpec.v: pairs and their spellings as relations. P: QueryUnescape inverts every spelling and nothing else (induction on texts), the loop of ParseQuery on the pieces of a query, by induction; the getters by C29; any request by the invariant of its log.
C105 M: as C104, with parsePostForm and ParseMultipartForm. P: case analysis on method, media type and body over C104; the log of a request determines the body at the first parsing, by induction on the log.
C106 M: url.Parse as far as it decides between local and other targets, path.Clean, the escaping of Location and page of http.Redirect, over the redirect model of C54. P: references are cut into path, query and fragment and the parser is shown to read them so; path.Clean is the walk over segments, compared with remove_dot_segments by induction; witnesses for the refutations.
C107 M: url.ParseRequestURI as far as the path goes, over the routing model of C03 and C04. P: the parser is run on a target cut into front, segments and query; percent decoding is compositional; the segments are those of the split path, and the bindings of the chosen route are looked up at their position; witnesses for values with a slash and the empty value.
C108 M: the variable _render through a history of SetRender calls and requests; HTML and HTMLSet as sequences of the Render's program and the rest of the handler. P: induction on the history; induction on programs that the log of a sequence is cut in two; then the log tools of C20.
C109 M: parseRange and the rest of http.ServeContent, over the preconditions of C96 and the handlers of C39 and C55. P: the header is cut at commas and each piece parsed (decimal numbers below 2^63); the parts are within the file, so what is read has the announced length, and the sizes add up to Content-Length; by induction on the parts the body is multipart/byteranges; then the served theorems of C39 and C55.
C110 M: net/http drops the body of a reply to HEAD (NetHead.v); the replies to both requests are those of C39, C96, C100 and C109. P: for files, the served theorems of both requests, and that each branch of http.ServeContent, http.ServeFile and http.Redirect gives the same status and headers, and a type unless the bodies are the same; for other handlers, a simulation between the two runs by induction on programs, then the one of C08's recycled contexts for Params and FullPath.
C111 M: mime.ParseMediaType, textproto's header reader, mime/multipart's Reader and ReadForm (NetMultipart.v), in the places of the parameters of C98 and C105. P: the written forms of a name, a header line and a part are read back, each by induction; the content ends at the first boundary because a carriage return stands only at the start of the separator; then induction on the parts with the memory left as an invariant; then the theorems of C98, C105 and C88. For bodies that are cut off: each reader fails on every prefix that does not hold its end, by induction on the parts (MultipartCut.v); for the calls, an invariant that no form was kept.
C112 M: the preconditions of http.ServeContent (NetServe.v) with any tag a handler has set. P: scanning a written list gives whether one of its tags matches, by induction on the list, since trimming at the right end does not change the scan; the two comparisons are the strong and the weak one; then the cases of the conditions, and the theorems of C55 and C100 with ranges as in C109. For headers of any form (TagAny.v): a scan finds a match iff a chain of tags and commas leads to it from the left, by induction on the fuel in one direction and on the chain in the other.
C113 M: http.DetectContentType with its table of signatures (NetSniff.v) in the place of the parameter of C20. P: the loop stops at the first signature that matches; tags are compared up to the case of letters (all pairs of bytes, by computation); each signature of the table is matched by exactly the texts that the specification lists or needs a control character; then the theorems of C20.
C114 M: the parser of regexp/syntax for the expressions above and leftmost-first matching with groups on UTF-8 (NetRegexp.v), in the place of re_ok and re_find. S: the texts an expression describes, as an inductive relation with what is before and behind, and the spelling of expressions, as a grammar (RegexpSpec.v). P: every way of matching is described and everything described is a way (induction on expressions, and on the length of what is left for repetitions); the first position with a way is found (induction on the text); spellings are read back (mutual induction on the grammar).
C115 M: response.write, bufio.Writer, chunkWriter.writeHeader, writeSubset, finishRequest and the loop of conn.serve of net/http 1.15 (NetFrame.v). S: reading replies from bytes, as inductive relations after RFC 7230 (FrameSpec.v), and what is claimed of exchanges (FrameClaim.v). P: the grammar is unambiguous (induction on lines and chunks); the buffer passes everything on (induction on the pieces); the header that is written has the lines that its body needs (cases on the framing); an invariant of runs says that responses of such handlers are sound; connections by induction.
C116 M: as C115, with the bytes of a reply whose handler panicked: what is in the buffer is lost, the connection is closed. S: as C115; no reading of these bytes exists. P: chunks without a last chunk are not chunked data (induction on the chunks); a body that is shorter than declared is not read; HTTP/1.0 is refused.
C117 M: as C115, C109. S: as C115; RangeSpec.v. P: the invariant of runs of C115 for handlers that may set Content-Length; the headers that serveContent sets are proper, and the length it declares is that of the body (from C109), or there is none; then C115.
C118 M: as C115. S: as C115. P: the writes that the server admits are a prefix of the writes, the longest one within the announced length; then as C116: the length read against the bytes sent, and the connection is closed unless they agree.
C119 M: as C110, C115. S: as C115. P: both replies are read back by C115; the header lines are those of the same response (C110); the Content-Length of HEAD is either the one declared, which for GET is the length of the body, or computed from the body that the handler wrote.
C120 M: NetDir.v: the end of serveFile, dirList, URL.String and escape (mode encodePath), in place of the parameter for listings of C100; reading a directory is data. S: DirSpec.v: a reader for pages of links, HTML texts as in C37's UtilSpec.v, relative references of RFC 3986. P: escaping byte by byte, over all 256 bytes, then induction on names; sorting by insertion; the page by induction on the entries; then the theorems of C100. That pages are read in one way is proved from the first quotation mark and the first mark-up.
C121 M: NetDate.v: isLeap, daysBefore, absDate, Date, Format and Parse for http.TimeFormat, ParseTime, in place of the parameters http_date and parse_time of C96. S: DateSpec.v: the calendar as an inductive relation, from one day to the next and back, from 1 January 1970; lengths of months and leap years by divisibility; the text by digits and names. P: the parts of a count of days (400, 100, 4 and 1 years) by arithmetic, the days of a year by computation over both kinds of year, dates with the same number are the same; then induction on the number of the day. Reading by inversion of the text, in both directions for all texts that are read (DateLooseSpec.v, DateLoose.v); then the theorems of C96; and, for files however they are sent, the answers by DateAnswerSpec.by_date (DateServe.v), with what is known of the chains of C109. The obsolete forms of RFC 7231: NetDateOld.v, DateOldSpec.v, DateOld.v.
