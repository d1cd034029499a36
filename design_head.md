# Formal model of meilihao/water in Rocq (Coq 8.16.1)

DESIGN.md is written by `mk_design.py` from `design_head.md`, `design_plan.txt`,
`properties.jsonl` and `MANIFEST.json`.

## 1. How the model is built

* Go code is modelled function by function as total Gallina functions.  Each
  definition cites the file and lines it models and states simplifications.
* A Go string is a list of bytes.  A call that may panic returns `Ok`,
  `Panic message` or `Diverge`; running out of fuel is `Diverge`, and every
  theorem that says something about a result excludes it or bounds the fuel.
* Registration is a heap of router objects and a small language of registration
  calls.  The specification (RouterSpec.v) reads the flat history of calls and
  knows nothing of router objects.
* A handler is an arbitrary interaction program over the operations of the
  Context: `PRet`, `PPanic`, an operation and what to do with its answer,
  `Next()`, and a block with defer/recover.  Programs are well founded, so a
  handler ends; apart from that theorems hold for all handlers.
* Serving a request yields a log: handlers started, calls and their answers,
  and what goes to the client.  Most properties are rules on logs.
* Concurrent requests are a small-step machine with a pool of contexts shared by
  any number of goroutines and an arbitrary schedule (Machine.v).
* Go types and values for binding are inductive data; binding is a fuelled
  traversal, specified by relations that do not mention the functions.

## 2. Files (rocq/theories)

| model | code |
|---|---|
| Base, GoStr, Strconv, PathClean, Header | package strings, strconv, path, http.Header as used |
| Pattern, Tree | tree.go |
| Router, RouterTry, Slices, StaticReg | router.go, option.go, engine.go (buildTree), m_static.go (registration) |
| Ctx, Engine, Machine | context.go, environ.go, engine.go, response.go, sync.Pool |
| Content, BindCtx, Upload, HandlerName | content.go, render.go, util.go (nameOfFunction) |
| Mount | engine.go (ServeHTTP, newHandler) and context.go (WriteHeader, Write) for an Engine that is a handler of another |
| NetFile | content.go (ServeFile), with net/http's ServeFile under it, File and StaticFile |
| NetDir | content.go (File, ServeFile) and m_static.go (StaticFile), with the listings of net/http under them |
| Forms | content.go (ParseFormOrMultipartForm, FormFile, Bind), binding/form.go, and net/http's request.go under them |
| Wire | context.go (Write), content.go (Stream, JSON, XML, ...) on connections that fail |
| NetCookie | cookie.go (SetCookie, Cookie), with net/http's cookies under it |
| NetRedirect | content.go (MovedPermanently, Found), with http.Redirect under them |
| NetPath | engine.go:102-110 (the path routed by), with url.ParseRequestURI under it |
| NetHead | what net/http sends of a reply to HEAD |
| NetFrame | what net/http sends of replies, and the loop of a connection |
| NetMultipart | the multipart forms of mime, net/textproto and mime/multipart, under content.go (FormFile, ParseFormOrMultipartForm) and binding/form.go |
| NetServe, NetRange | m_static.go and content.go (Download, Attachment), with http.ServeContent under them |
| NetDate | the dates of package time and net/http that files are sent and asked for with |
| NetQuery | content.go (ParseFormOrMultipartForm), with the forms of net/url and net/http under it |
| Render | render.go |
| Getters, Environ, Util | params.go, query.go, cookie.go, environ.go, util.go |
| Middleware, Static | m_cors.go, m_logger.go, m_recovery.go, m_static.go |
| Binding, Mapping | binding/*.go: Bind and MapForm, Bind2 |
| Listing | router_print.go |

`*Spec.v` hold the specifications, `*Facts.v` and the files named after a part
with a suffix (Tree*, Serve*, Router*, Mapping*, Binding*, Listing*, Machine*,
Static*) the proofs, `Example*.v` computed examples, and `Prop*.v` nothing but
the property theorems, each closed by a lemma, with `Print Assumptions` and an
Example that a concrete case meets the hypotheses.

Names: `Cxx_..._refuted` gives a witness against the property as stated,
`Cxx_..._partial` proves part of it, and what is missing is said in the note.

## 3. What is not modelled

* net/http below the handler interface: parsing of requests, flushing, hijacking,
  trailers.  Connections, Content-Length and chunks are in NetFrame.v only (C115 to C119),
  bodies suppressed for HEAD there and in NetHead.v (C110).  Failing writes are modelled
  apart, in Wire.v (C90, C91), and do not occur in the rest of the model.  The writer
  obeys the documented contract (first WriteHeader wins, Write sends 200, headers
  are frozen by then, an invalid code panics).  A request body is its bytes and how it
  ends (C97); waiting for it, and reading while it arrives, are not modelled.
* ListenAndServe, ListenAndServeTLS, Run, RunTLS (only the address they choose).
* ReadCloser, WrapHandler (it is newHandler), SetRender while requests are served,
  templates,
  version.go's constants beyond whether the version is stable, the benchmark directory and tests.
* Handlers that do not end.  Goroutines that handlers start and that use the
  Context, also after the request, are in Stray.v only (C95), a call of a method
  being one step.
* Router.v takes slices for lists.  Slices.v models registration and Handler() with
  slices in memory (shared arrays, append in place, clients that write to slices
  they passed) and C92-C94 say when the two agree; slices elsewhere (Params, bodies,
  header values) are lists.
* Strings are bytes: ToUpper and ToLower map ASCII letters only; fmt's field
  widths count bytes.
* The time stamp in front of Recovery's log line.

## 4. Trusted base

* Coq 8.16.1's kernel and, for examples, its virtual machine.
* `Print Assumptions` says "Closed under the global context" for every theorem
  in MANIFEST.json: no axiom, neither of this development nor of the standard
  library, is used.  (Libraries that are loaded declare some, e.g. ssreflect's
  `under` constants; no theorem depends on them.)
* The model is a hand-made reading of the source.
* What is outside the repository enters as section variables, so theorems hold
  for every value of them: the regexp engine (`re_ok`, `re_find`; but for C114, where it is in NetRegexp.v, for the expressions described there),
  http.DetectContentType (`sniff`; but for C113, where it is in NetSniff.v), form parsing (`parse_form`, `mform`, `query`; but for C104 and C105, where it is in NetQuery.v, without the media type and the multipart reader, which are in NetMultipart.v for C111),
  the JSON and XML decoders, the struct validator, ParseFloat, time parsing and
  zones (record `golib`), the names of functions at run time (`fname`), the file system, http.ServeContent (but for C96 and C109, where it is in NetServe.v and NetRange.v, with the type of a file and the random boundary as variables) and http.ServeFile (but for C100 and C120, where it is in NetFile.v and NetDir.v),
  http.Redirect's target and page (but for C106, where they are in NetRedirect.v, without the parsing of an authority), cookie lookup (but for C102 and C103, where it is in NetCookie.v), the text of the panic and stack,
  times and URL text in log lines (`logfmt`), and the code of client handlers.
  Where a theorem needs to know something of them it is a hypothesis of the
  theorem, met by the Example beside it.
* Map iteration order is an arbitrary permutation.
