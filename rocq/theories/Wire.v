(** Writing to a connection that can fail: the results that Ctx.v and Content.v
    leave out.  Here the ResponseWriter that the Context holds is any
    implementation of the interface, with its own state. *)
From Verif Require Import Base GoStr Strconv Pattern Tree Header Router Ctx Content.
Local Open Scope Z_scope.

(** response.go:9-14, http.ResponseWriter: Header (read and changed in place),
    WriteHeader, which may panic, and Write, which gives the number of bytes taken
    and whether there was no error. *)
Record writer (S : Type) := mkWriter {
  u_hdr : S -> header;
  u_put : header -> S -> S;
  u_head : Z -> S -> outcome unit * S;
  u_write : gostr -> S -> nat * bool * S
}.
Arguments u_hdr {S} w s. Arguments u_put {S} w h s.
Arguments u_head {S} w code s. Arguments u_write {S} w data s.

(** The part of a Context that writing is about: context.go:24-25 written and
    status, and the writer. *)
Record wctx (S : Type) := mkW { w_written : bool; w_status : Z; w_under : S }.
Arguments mkW {S}. Arguments w_written {S} w. Arguments w_status {S} w. Arguments w_under {S} w.

Section Wire.
Context {S : Type}.
Variable u : writer S.
Variable sniff : gostr -> gostr.   (* http.DetectContentType *)

(** context.go:71-79 WriteHeader *)
Definition wWriteHeader (code : Z) (x : wctx S) : outcome unit * wctx S :=
  if w_written x then (Norm tt, x)
  else let '(o, s) := u_head u code (w_under x) in (o, mkW true code s).

(** ctx.Header().Set *)
Definition wSet (k v : gostr) (x : wctx S) : wctx S :=
  mkW (w_written x) (w_status x) (u_put u (h_set (u_hdr u (w_under x)) k v) (w_under x)).

(** context.go:81-90 Write *)
Definition wWrite (data : gostr) (x : wctx S) : outcome (nat * bool) * wctx S :=
  let '(o, x) :=
    (if negb (w_written x) then
       let h := u_hdr u (w_under x) in
       let x := if negb (length data =? 0)%nat && seqb (h_get h (L "Content-Type")) []
                then wSet (L "Content-Type") (sniff data) x else x in
       wWriteHeader 200 x
     else (Norm tt, x)) in
  match o with
  | Throw v => (Throw v, x)
  | Norm _ => let '(n, ok, s) := u_write u data (w_under x) in
              (Norm (n, ok), mkW (w_written x) (w_status x) s)
  end.

(** io.Copy of the standard library to a Context: [reads] are the pieces the
    reader gives and [eof] whether it then ends without an error.  Pieces of
    length 0 are not written; the first failed or short write ends the copy.  The
    result is whether the error is nil.  (A reader that can write itself, such as
    bytes.Reader, gives one piece.) *)
Fixpoint wCopy (reads : list gostr) (eof : bool) (x : wctx S) : outcome bool * wctx S :=
  match reads with
  | [] => (Norm eof, x)
  | d :: reads =>
      if (length d =? 0)%nat then wCopy reads eof x
      else match wWrite d x with
           | (Throw v, x) => (Throw v, x)
           | (Norm (n, ok), x) =>
               if ok && (n =? length d)%nat then wCopy reads eof x else (Norm false, x)
           end
  end.

(** content.go:241-247 *)
Definition wStream (contentType : gostr) (reads : list gostr) (eof : bool) (x : wctx S) : outcome bool * wctx S :=
  wCopy reads eof (wSet HeaderContentType contentType x).

(** content.go:249-253, 255-259, 262-266 String, Data, HTMLRaw: the results of
    Write are dropped *)
Definition wData (code : Z) (contentType data : gostr) (x : wctx S) : outcome unit * wctx S :=
  match wWriteHeader code x with
  | (Throw v, x) => (Throw v, x)
  | (Norm _, x) =>
      match wWrite data (wSet HeaderContentType contentType x) with
      | (Throw v, x) => (Throw v, x)
      | (Norm _, x) => (Norm tt, x)
      end
  end.
Definition wString (code : Z) (str : gostr) := wData code MIMETextPlainCharsetUTF8 str.
Definition wHTMLRaw (code : Z) (str : gostr) := wData code MIMETextHTMLCharsetUTF8 str.

(** content.go:268-276 JSON.  [enc] is the encoding of the value, with its
    newline, or None if it has none; json.Encoder writes it with one call and
    returns the error of that call.  The result is whether the error is nil. *)
Definition wJSON (code : Z) (enc : option gostr) (x : wctx S) : outcome bool * wctx S :=
  match wWriteHeader code x with
  | (Throw v, x) => (Throw v, x)
  | (Norm _, x) =>
      let x := wSet HeaderContentType MIMEApplicationJSONCharsetUTF8 x in
      match enc with
      | None => (Norm false, x)
      | Some d => match wWrite d x with
                  | (Throw v, x) => (Throw v, x)
                  | (Norm (_, ok), x) => (Norm ok, x)
                  end
      end
  end.

(** content.go:278-286 XML.  xml.Encoder writes through a bufio.Writer: the
    encoding arrives in non-empty pieces, of which none is written after one that
    failed or was short; [ok] tells whether the value can be encoded to the end. *)
Definition wXML (code : Z) (out : list gostr) (ok : bool) (x : wctx S) : outcome bool * wctx S :=
  match wWriteHeader code x with
  | (Throw v, x) => (Throw v, x)
  | (Norm _, x) => wCopy out ok (wSet HeaderContentType MIMEApplicationXMLCharsetUTF8 x)
  end.
End Wire.

(** ** The writer of package net/http *)

(** net/http server.go response.Write over the writer of Ctx.v, with a
    connection that takes [room] more bytes: no body for 1xx, 204 and 304
    (ErrBodyNotAllowed), and what does not fit is lost with an error.
    Simplification: no buffering, which
    delays the error, and no check against a Content-Length header. *)
Section Http.
Context {V : Type}.
Definition http_writer : writer (conn V * nat) :=
  mkWriter _
    (fun s => rw_hdr (cn_rw (fst s)))
    (fun h s => (set_hdr (fst s) h, snd s))
    (fun code s => let '(o, c) := raw_WriteHeader code (fst s) in (o, (c, snd s)))
    (fun data s =>
       let n := Nat.min (snd s) (length data) in
       let c := raw_Write (take n data) (fst s) in
       match rw_sent (cn_rw c) with
       | Some (code, _) =>
           if body_allowed code then (n, (n =? length data)%nat, (c, (snd s - n)%nat))
           else (0%nat, (length data =? 0)%nat, (c, snd s))
       | None => (0%nat, false, (c, snd s))
       end).
End Http.
