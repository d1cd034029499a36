(** The handler of StaticAdvance: m_static.go. *)
From Verif Require Import Base GoStr Strconv Pattern Tree Header Router PathClean Ctx Util Getters Content.
Local Open Scope Z_scope.

Section Static.
(** F: contents of a file; O: state of the file system of the process *)
Context {V F O : Type}.

(** what FileSystem.Open and then File.Stat give: an error (of either), a directory,
    or a file with the time (Unix seconds), size and base name of its FileInfo.
    Simplification: the file system does not change while a request is served. *)
Inductive entry := Absent | NoStat | Folder | Regular (mtime size : Z) (base : gostr) (f : F).

(** m_static.go:12-16 and 19-31: ETagTypeNone is 0, ETagType1 is 1, every other
    value acts as ETagType2.  [so_expires]: what Expires() returns, None if the
    function is nil.  Prefix is in StaticReg. *)
Record static_opts := mkSO { so_index : gostr; so_expires : option gostr; so_etag : nat }.

(** net/http: the functions Redirect, ServeContent and ServeFile.  [serve_file]
    looks at the file system of the process *)
Variable location : request -> gostr -> gostr.
Variable page : request -> gostr -> Z -> gostr.
Variable serve : request -> gostr -> gostr -> gostr -> F -> list (gostr * option gostr) * Z * list gostr.
Variable serve_file : request -> gostr -> gostr -> gostr -> gostr -> O -> list (gostr * option gostr) * Z * list gostr.

(** http.Redirect called with ctx.ResponseWriter; compare Content.Redirect *)
Definition RawRedirect (uri : gostr) (code : Z) (k : prog V) : prog V :=
  PDo ORequest (fun r =>
  PDo (OHeaderGet HeaderContentType) (fun t =>
    let loc := location r uri in
    let hadCT := negb (seqb t []) in
    let get := seqb (rq_method r) (L "GET") in
    seqp ([OHeaderSet (L "Location") loc] ++
          (if negb hadCT && (get || seqb (rq_method r) (L "HEAD"))
           then [OHeaderSet (L "Content-Type") (L "text/html; charset=utf-8")] else []) ++
          [ORawWriteHeader code] ++
          (if negb hadCT && get then [ORawWrite (page r uri code)] else [])) k)).

(** content.go:147-150 File: http.ServeFile with ctx.ResponseWriter *)
Definition File (path : gostr) (os : O) (k : prog V) : prog V :=
  PDo ORequest (fun r =>
  PDo (OHeaderGet HeaderContentType) (fun t =>
  PDo (OHeaderGet (L "Etag")) (fun etag =>
  PDo (OHeaderGet (L "Content-Encoding")) (fun enc => deliver true (serve_file r t etag enc path os) k)))).

(** time.Time.Unix, of a time given in nanoseconds: how util.go:113 and 118 see it *)
Definition unix_second (ns : Z) : Z := ns / (1000 * 1000 * 1000).
(** m_static.go:93-99, the tag of a file *)
Definition static_tag (ty : nat) (mtime size : Z) (base : gostr) : gostr :=
  if (ty =? 1)%nat then GenerateETag mtime size else GenerateETag2 mtime size base.

(** m_static.go:55-109, the closure h, given the parameter *)
Definition static_named (o : static_opts) (open : gostr -> entry) (os : O) (name : gostr) : prog V :=
  let expires k := match so_expires o with Some v => SetHeader (L "Expires") v k | None => k end in
  match open name with
  | Absent | NoStat => seqp [OWriteHeader 404] PRet
  | Folder =>
      expires (PDo ORequest (fun r =>
        let redirPath := Clean (rq_path r) in
        let redirPath := if has_suffix (L "/") (rq_path r) then redirPath ++ L "/" else redirPath in
        if negb (has_suffix (L "/") redirPath) then RawRedirect (redirPath ++ L "/") 302 PRet
        else File (filepath_Join [name; so_index o]) os PRet))
  | Regular mtime size base f =>
      expires
        (if (so_etag o =? 0)%nat then ServeContent serve true f PRet
         else
           let tag := static_tag (so_etag o) mtime size base in
           SetHeader (L "ETag") tag
             (PDo ORequest (fun r =>
                if seqb (h_get (rq_header r) (L "If-None-Match")) tag then seqp [OWriteHeader 304] PRet
                else ServeContent serve true f PRet)))
  end.
(** m_static.go:55-109, the closure h *)
Definition static_handler (o : static_opts) (open : gostr -> entry) (os : O) : prog V :=
  PDo OParams (fun p =>
  match Params_String p (L "*0") with
  | Panic m => PPanic (Some m)
  | Diverge => PPanic None (* not a case of Params_String *)
  | Ok name => static_named o open os name
  end).

(** m_static.go:135-137, the closure of StaticFile *)
Definition static_file_handler (path : gostr) (os : O) : prog V := File path os PRet.

End Static.
Arguments entry : clear implicits.

(** net/http fs.go, Dir.Open: the path that is opened for a name *)
Definition dir_open (root name : gostr) : gostr :=
  filepath_Join [(if seqb root [] then L "." else root); Clean ("/"%char :: name)].

(** net/http: hexEscapeNonASCII, and the Location that Redirect computes from a URL
    starting with one slash (url.Parse gives neither scheme nor host; if it fails
    the text is not cleaned, which makes no difference for a clean path without
    question mark) *)
Definition hex_escape_byte (a : ascii) : gostr :=
  if (128 <=? N_of_ascii a)%N then "%"%char :: format_Z 16 (Z.of_N (N_of_ascii a)) else [a].
Definition net_location (url : gostr) : gostr :=
  let '(u, q) := match index_byte "?" url with Some i => (take i url, drop i url) | None => (url, []) end in
  let c := Clean u in
  let c := if has_suffix (L "/") u && negb (has_suffix (L "/") c) then c ++ L "/" else c in
  flat_map hex_escape_byte (c ++ q).
