(** Listings of directories, the reply of http.ServeFile for a directory without index
    file: the end of serveFile and dirList of net/http/fs.go, with URL.String and escape
    of net/url/url.go (Go 1.15, go.mod:3).  They are not in /repo; content.go:147-150 and
    194-196 and m_static.go:129-141 lead to them.  Written from the documentation and
    source of Go's library. *)
From Verif Require Import Base GoStr Header Ctx Util Listing NetFile NetServe NetRedirect.
Local Open Scope Z_scope.

(** os.FileInfo: the name, and whether it is a directory *)
Record entry := mkEntry { en_name : gostr; en_dir : bool }.
(** a directory: its modification time (None: zero or 1970, isZeroTime of fs.go), and
    what Readdir(-1) gives (None: an error) *)
Record dir := mkDir { di_time : option Z; di_entries : option (list entry) }.

(** url.go shouldEscape in the mode encodePath: letters, digits and these are kept *)
Definition path_kept (a : ascii) : bool :=
  let n := byte_of a in
  ((48 <=? n) && (n <=? 57) || (65 <=? n) && (n <=? 90) || (97 <=? n) && (n <=? 122))%N
  || existsb (Ascii.eqb a) (L "-_.~$&+,/:;=@").
(** url.go escape in the mode encodePath *)
Definition path_byte (a : ascii) : gostr := if path_kept a then [a] else pct_byte a.
(** url.go EscapedPath of URL{Path: p} *)
Definition EscapedPath (p : gostr) : gostr := if seqb p (L "*") then L "*" else flat_map path_byte p.
(** url.go String of URL{Path: p}: a colon in the first segment would end a scheme *)
Definition url_String (p : gostr) : gostr :=
  let path := EscapedPath p in
  match index_byte ":" path with
  | Some i => if existsb (Ascii.eqb "/") (take i path) then path else L "./" ++ path
  | None => path
  end.

(** fs.go dirList: sort.Slice by name.  Simplification: by insertion; the order of
    entries with the same name, which a directory does not have, may differ. *)
Fixpoint insert_entry (x : entry) (l : list entry) : list entry :=
  match l with
  | [] => [x]
  | y :: l' => if str_ltb (en_name y) (en_name x) then y :: insert_entry x l' else x :: l
  end.
Definition sort_entries (l : list entry) : list entry := foldr insert_entry [] l.
(** fs.go dirList: one line *)
Definition dir_line (e : entry) : gostr :=
  let name := if en_dir e then en_name e ++ L "/" else en_name e in
  L "<a href=""" ++ url_String name ++ L """>" ++ flat_map html_replace name ++ L "</a>" ++ [ascii_of_nat 10].
(** fs.go dirList *)
Definition dirList (d : dir) : list (gostr * option gostr) * Z * list gostr :=
  match di_entries d with
  | None => http_Error (L "Error reading directory") 500
  | Some l => ([(L "Content-Type", Some (L "text/html; charset=utf-8"))], 200,
               [L "<pre>" ++ [ascii_of_nat 10]] ++ map dir_line (sort_entries l) ++ [L "</pre>" ++ [ascii_of_nat 10]])
  end.

Section Listing.
Variable parse_time : gostr -> option Z.
Variable http_date : Z -> gostr.
(** fs.go serveFile, from "Still a directory?": If-Modified-Since, setLastModified,
    dirList.  Simplification: writeNotModified also deletes a Last-Modified that the
    handler itself has set, if the handler has set an Etag. *)
Definition net_listing (r : request) (d : dir) : list (gostr * option gostr) * Z * list gostr :=
  match checkIfModifiedSince parse_time (rq_method r) (h_get (rq_header r) (L "If-Modified-Since")) (di_time d) with
  | CFalse => ([(L "Content-Type", None); (L "Content-Length", None)], 304, [])
  | _ =>
      let lm := match di_time d with Some m => [(L "Last-Modified", Some (http_date m))] | None => [] end in
      let '(hs, n, out) := dirList d in (lm ++ hs, n, out)
  end.
End Listing.
