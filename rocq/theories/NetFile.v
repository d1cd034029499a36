(** ctx.File, ctx.ServeFile and StaticFile: content.go:147-150 and 194-196,
    m_static.go:129-141, with http.ServeFile of net/http (Go 1.15, go.mod:3: file
    net/http/fs.go).  The latter is not in /repo; it is written from the
    documentation and source of Go's library. *)
From Verif Require Import Base GoStr Strconv Pattern Tree Header Router PathClean Ctx Util Getters Content Static.
Local Open Scope Z_scope.

(** why a file cannot be opened: os.IsNotExist, os.IsPermission, or anything else *)
Inductive failure := Missing | Forbidden | Broken.
(** what the process finds at a path: an error (of Open or Stat, as Dir.Open of
    fs.go reports it), a directory, a file.
    Simplification: the file system does not change while a request is served. *)
Inductive node (F D : Type) := Failed (why : failure) | Directory (d : D) | Plain (f : F).
Arguments Failed {F D} why.
Arguments Directory {F D} d.
Arguments Plain {F D} f.

(** fs.go isSlashRune, strings.FieldsFunc with it (empty fields kept, which makes no
    difference here), and containsDotDot *)
Definition isSlashRune (a : ascii) : bool := Ascii.eqb a "/" || Ascii.eqb a "\".
Fixpoint fields_slash (s : gostr) : list gostr :=
  match s with
  | [] => [[]]
  | a :: s' => if isSlashRune a then [] :: fields_slash s'
               else match fields_slash s' with [] => [[a]] | x :: l => (a :: x) :: l end
  end.
Definition containsDotDot (s : gostr) : bool := existsb (seqb (L "..")) (fields_slash s).

(** filepath.Split *)
Definition filepath_Split (p : gostr) : gostr * gostr :=
  match last_index_byte "/" p with
  | Some i => (take (S i) p, drop (S i) p)
  | None => ([], p)
  end.

(** path.Base *)
Definition path_Base (p : gostr) : gostr :=
  match p with
  | [] => L "."
  | _ => match snd (filepath_Split (trim_right_byte "/" p)) with [] => L "/" | b => b end
  end.

(** fs.go toHTTPError *)
Definition toHTTPError (w : failure) : gostr * Z :=
  match w with
  | Missing => (L "404 page not found", 404)
  | Forbidden => (L "403 Forbidden", 403)
  | Broken => (L "500 Internal Server Error", 500)
  end.

(** server.go Error *)
Definition http_Error (msg : gostr) (code : Z) : list (gostr * option gostr) * Z * list gostr :=
  ([(L "Content-Type", Some (L "text/plain; charset=utf-8")); (L "X-Content-Type-Options", Some (L "nosniff"))],
   code, [msg ++ [ascii_of_nat 10]]).

Section NetFile.
(** F: contents of files; D: directories *)
Context {V F D : Type}.
(** URL.RawQuery; serveContent; the reply for a directory without index file
    (If-Modified-Since and dirList of fs.go) *)
Variable raw_query : request -> gostr.
Variable serve : request -> gostr -> gostr -> gostr -> F -> list (gostr * option gostr) * Z * list gostr.
Variable listing : request -> D -> list (gostr * option gostr) * Z * list gostr.

(** fs.go localRedirect *)
Definition localRedirect (r : request) (newPath : gostr) : list (gostr * option gostr) * Z * list gostr :=
  let q := raw_query r in
  ([(L "Location", Some (if seqb q [] then newPath else newPath ++ L "?" ++ q))], 301, []).

(** fs.go serveFile with redirect = false, file system Dir(dir) *)
Definition net_serveFile (r : request) (t etag enc : gostr) (dir name : gostr) (os : gostr -> node F D)
  : list (gostr * option gostr) * Z * list gostr :=
  if has_suffix (L "/index.html") (rq_path r) then localRedirect r (L "./")
  else match os (dir_open dir name) with
  | Failed w => let '(msg, code) := toHTTPError w in http_Error msg code
  | Plain f => serve r t etag enc f
  | Directory d =>
      let url := rq_path r in
      if seqb url [] || negb (has_suffix (L "/") url) then localRedirect r (path_Base url ++ L "/")
      else match os (dir_open dir (trim_suffix (L "/") name ++ L "/index.html")) with
           | Failed _ => listing r d
           | Plain f => serve r t etag enc f
           | Directory d' => listing r d'
           end
  end.

(** fs.go ServeFile *)
Definition net_ServeFile (r : request) (t etag enc : gostr) (name : gostr) (os : gostr -> node F D)
  : list (gostr * option gostr) * Z * list gostr :=
  if containsDotDot (rq_path r) then http_Error (L "invalid URL path") 400
  else let '(dir, file) := filepath_Split name in net_serveFile r t etag enc dir file os.

(** content.go:194-196 ServeFile: http.ServeFile with ctx; compare Static.File, which
    is content.go:147-150 *)
Definition ServeFile (path : gostr) (os : gostr -> node F D) (k : prog V) : prog V :=
  PDo ORequest (fun r =>
  PDo (OHeaderGet HeaderContentType) (fun t =>
  PDo (OHeaderGet (L "Etag")) (fun etag =>
  PDo (OHeaderGet (L "Content-Encoding")) (fun enc => deliver false (net_ServeFile r t etag enc path os) k)))).
End NetFile.
