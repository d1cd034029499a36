(** The response helpers of content.go and render.go, as programs over the
    Context.  Every helper is written in continuation-passing style: [k] is what
    the handler does after the call. *)
From Verif Require Import Base GoStr Strconv Pattern Tree Header Router Ctx Util.
Local Open Scope Z_scope.

(** const.go:9-20 and 24-39 *)
Definition HeaderContentType : gostr := L "Content-Type".
Definition HeaderCacheControl : gostr := L "Cache-Control".
Definition HeaderContentDisposition : gostr := L "Content-Disposition".
Definition HeaderXForwardedProto : gostr := L "X-Forwarded-Proto".
Definition MIMEApplicationJSONCharsetUTF8 : gostr := L "application/json; charset=utf-8".
Definition MIMEApplicationXMLCharsetUTF8 : gostr := L "application/xml; charset=utf-8".
Definition MIMETextHTMLCharsetUTF8 : gostr := L "text/html; charset=utf-8".
Definition MIMETextPlainCharsetUTF8 : gostr := L "text/plain; charset=utf-8".

Section Content.
Context {V : Type}.

(** operations whose answers are not used, one after the other *)
Definition seqp (os : list (op V)) (k : prog V) : prog V :=
  fold_right (fun o p => PDo o (fun _ => p)) k os.

(** content.go:20-22 *)
Definition GetHeader (key : gostr) (k : gostr -> prog V) : prog V :=
  PDo ORequest (fun r => k (h_get (rq_header r) key)).
(** content.go:24-26 *)
Definition SetHeader (key value : gostr) (k : prog V) : prog V := seqp [OHeaderSet key value] k.

(** content.go:29-40 *)
Definition Protocol (k : gostr -> prog V) : prog V :=
  PDo ORequest (fun r =>
    let s := h_get (rq_header r) HeaderXForwardedProto in
    if seqb s (L "http") || seqb s (L "https") then k s
    else if rq_tls r then k (L "https") else k (L "http")).

(** content.go:82-84 *)
Definition Abort (code : Z) (k : prog V) : prog V := seqp [OWriteHeader code] k.
(** content.go:53-55 *)
Definition NotModified (k : prog V) : prog V := Abort 304 k.
(** content.go:58-60 *)
Definition BadRequest (k : prog V) : prog V := Abort 400 k.
(** content.go:63-65 *)
Definition Unauthorized (k : prog V) : prog V := Abort 401 k.
(** content.go:68-70 *)
Definition Forbidden (k : prog V) : prog V := Abort 403 k.
(** content.go:73-75 *)
Definition NotFound (k : prog V) : prog V := Abort 404 k.
(** content.go:78-80 *)
Definition InternalServerError (k : prog V) : prog V := Abort 500 k.

(** content.go:87-90 *)
Definition NoCache (k : prog V) : prog V :=
  seqp [OHeaderSet HeaderCacheControl (L "no-cache, max-age=0, s-max-age=0, must-revalidate");
        OHeaderSet (L "Expires") (L "0")] k.

(** content.go:92-94 *)
Definition UserAgent (r : request) : gostr := h_get (rq_header r) (L "User-Agent").
(** content.go:97-99 *)
Definition IsAjax (r : request) : bool := seqb (h_get (rq_header r) (L "X-Requested-With")) (L "XMLHttpRequest").
(** content.go:101-108; strings.ToLower on ASCII bytes only *)
Definition IsWebsocket (r : request) : bool :=
  contains (L "upgrade") (map lower_byte (h_get (rq_header r) (L "Connection"))) &&
  seqb (map lower_byte (h_get (rq_header r) (L "Upgrade"))) (L "websocket").

(** content.go:127-140 BodyString, BodyBytes; None is an error *)
Definition BodyBytes (k : option gostr -> prog V) : prog V :=
  PDo OBodyReadAll (fun '(data, ok) => if ok : bool then PDo OBodyClose (fun _ => k (Some data)) else k None).

(** content.go:249-253 *)
Definition String_ (code : Z) (str : gostr) (k : prog V) : prog V :=
  seqp [OWriteHeader code; OHeaderSet HeaderContentType MIMETextPlainCharsetUTF8; OWrite str] k.
(** content.go:255-259 *)
Definition Data (code : Z) (contentType data : gostr) (k : prog V) : prog V :=
  seqp [OWriteHeader code; OHeaderSet HeaderContentType contentType; OWrite data] k.
(** content.go:262-266 *)
Definition HTMLRaw (code : Z) (str : gostr) (k : prog V) : prog V :=
  seqp [OWriteHeader code; OHeaderSet HeaderContentType MIMETextHTMLCharsetUTF8; OWrite str] k.

(** content.go:268-276 JSON and 278-286 XML.  The encoder is outside the
    repository: [out] is what it writes, in pieces, and [ok] whether it returned
    no error; it is taken not to panic. *)
Definition JSON (code : Z) (out : list gostr) (ok : bool) (k : bool -> prog V) : prog V :=
  seqp (OWriteHeader code :: OHeaderSet HeaderContentType MIMEApplicationJSONCharsetUTF8 :: map OWrite out) (k ok).
Definition XML (code : Z) (out : list gostr) (ok : bool) (k : bool -> prog V) : prog V :=
  seqp (OWriteHeader code :: OHeaderSet HeaderContentType MIMEApplicationXMLCharsetUTF8 :: map OWrite out) (k ok).

(** render.go:15-18, the default Render *)
Definition HTMLSet (code : Z) (k : prog V) : prog V :=
  seqp [OWriteHeader code; OHeaderSet HeaderContentType MIMETextHTMLCharsetUTF8] k.

(** content.go:241-247.  io.Copy writes the pieces [out] that it reads, and [ok]
    tells whether it met no error; it does not write empty pieces. *)
Definition Stream (contentType : gostr) (out : list gostr) (ok : bool) (k : bool -> prog V) : prog V :=
  seqp (OHeaderSet HeaderContentType contentType ::
        map OWrite (List.filter (fun d => negb (length d =? 0)%nat) out)) (k ok).

(** content.go:43-50 MovedPermanently, Found: http.Redirect of net/http.
    [location] is the target that it computes from the request and the given URL
    (with percent escapes), [page] the HTML text for it, which is made from the target
    before the escapes; both are in NetRedirect.v.  Simplification: a
    Content-Type header present but empty counts as absent. *)
Section Redirect.
Variable location : request -> gostr -> gostr.
Variable page : request -> gostr -> Z -> gostr.
Definition Redirect (uri : gostr) (code : Z) (k : prog V) : prog V :=
  PDo ORequest (fun r =>
  PDo (OHeaderGet HeaderContentType) (fun t =>
    let loc := location r uri in
    let hadCT := negb (seqb t []) in
    let get := seqb (rq_method r) (L "GET") in
    seqp ([OHeaderSet (L "Location") loc] ++
          (if negb hadCT && (get || seqb (rq_method r) (L "HEAD"))
           then [OHeaderSet HeaderContentType MIMETextHTMLCharsetUTF8] else []) ++
          [OWriteHeader code] ++
          (if negb hadCT && get then [OWrite (page r uri code)] else [])) k)).
Definition MovedPermanently (uri : gostr) (k : prog V) : prog V := Redirect uri 301 k.
Definition Found (uri : gostr) (k : prog V) : prog V := Redirect uri 302 k.
End Redirect.

(** http.ServeContent of net/http, called with the Context (raw = false) or with
    the underlying writer (raw = true).  It is outside the repository: given the
    request, the response headers that it looks at (Content-Type, Etag and
    Content-Encoding) and the content, [serve] says which headers it sets or
    deletes, the status and the pieces of the body. *)
Section ServeContent.
Context {F : Type}.
Variable serve : request -> gostr -> gostr -> gostr -> F -> list (gostr * option gostr) * Z * list gostr.
Definition put_header (kv : gostr * option gostr) : op V :=
  match kv with (k, Some v) => OHeaderSet k v | (k, None) => OHeaderDel k end.
Definition deliver (raw : bool) (a : list (gostr * option gostr) * Z * list gostr) (k : prog V) : prog V :=
  let '(hs, code, out) := a in
  seqp (map put_header hs ++
        [if raw then ORawWriteHeader code else OWriteHeader code] ++
        map (fun d => if raw then ORawWrite d else OWrite d) out) k.
Definition ServeContent (raw : bool) (f : F) (k : prog V) : prog V :=
  PDo ORequest (fun r =>
  PDo (OHeaderGet HeaderContentType) (fun t =>
  PDo (OHeaderGet (L "Etag")) (fun etag =>
  PDo (OHeaderGet (L "Content-Encoding")) (fun enc => deliver raw (serve r t etag enc f) k)))).

(** content.go:231-239 *)
Definition Attachment (name : gostr) (inline : bool) (f : F) (k : prog V) : prog V :=
  seqp [OHeaderSet HeaderContentDisposition
          (contentDisposition name (if inline then L "inline" else L "attachment"))]
    (ServeContent false f k).

(** content.go:198-229 Download.  [f] is None if the file cannot be opened or
    read, or is a directory: nothing is done and an error is returned. *)
Definition Download (f : option (gostr * F)) (inline : bool) (k : bool -> prog V) : prog V :=
  match f with
  | None => k false
  | Some (name, f) =>
      seqp [OHeaderSet (L "Content-Description") (L "File Transfer");
            OHeaderSet (L "Content-Type") (L "application/octet-stream");
            OHeaderSet (L "Content-Transfer-Encoding") (L "binary");
            OHeaderSet (L "Expires") (L "0");
            OHeaderSet (L "Cache-Control") (L "must-revalidate");
            OHeaderSet (L "Pragma") (L "public");
            OHeaderSet HeaderContentDisposition
              (contentDisposition name (if inline then L "inline" else L "attachment"))]
        (ServeContent false f (k true))
  end.
End ServeContent.

End Content.
