(** http.ServeContent of net/http (Go 1.15, go.mod:3: file net/http/fs.go) up to the
    preconditions of a request; water hands it the Etag header that it has set
    (m_static.go:93-108).  None of this is in /repo; it is written from the
    documentation and source of Go's library, to see how the tags of water fare. *)
From Verif Require Import Base GoStr Header Ctx.
Local Open Scope Z_scope.

(** net/textproto TrimString *)
Definition ascii_space (a : ascii) : bool :=
  Ascii.eqb a " " || Ascii.eqb a (ascii_of_nat 9) || Ascii.eqb a (ascii_of_nat 10) || Ascii.eqb a (ascii_of_nat 13).
Definition TrimString (s : gostr) : gostr := rev (drop_while ascii_space (rev (drop_while ascii_space s))).

(** fs.go scanETag.  The characters of a tag: *)
Definition etag_char (a : ascii) : bool :=
  let n := N_of_ascii a in ((n =? 33) || ((35 <=? n) && (n <=? 126)) || (128 <=? n))%N.
Fixpoint scan_text (s : gostr) : option (gostr * gostr) :=
  match s with
  | [] => None
  | a :: s' => if etag_char a then match scan_text s' with Some (t, r) => Some (a :: t, r) | None => None end
               else if Ascii.eqb a """" then Some ([a], s') else None
  end.
Definition scanETag (s : gostr) : gostr * gostr :=
  let s := TrimString s in
  let start := if has_prefix (L "W/") s then 2%nat else 0%nat in
  match drop start s with
  | a :: s' => if Ascii.eqb a """" then
                 match scan_text s' with
                 | Some (t, r) => (take start s ++ a :: t, r)
                 | None => ([], [])
                 end
               else ([], [])
  | [] => ([], [])
  end.

(** fs.go etagStrongMatch, etagWeakMatch *)
Definition etagStrongMatch (a b : gostr) : bool :=
  seqb a b && match a with c :: _ => Ascii.eqb c """" | [] => false end.
Definition etagWeakMatch (a b : gostr) : bool := seqb (trim_prefix (L "W/") a) (trim_prefix (L "W/") b).

(** the loop that checkIfMatch and checkIfNoneMatch have in common: whether the
    list has a star or a tag that matches.  None: out of fuel (never, see
    NetServeFacts.scan_list_total). *)
Fixpoint scan_list (m : gostr -> bool) (fuel : nat) (buf : gostr) : option bool :=
  match fuel with
  | O => None
  | S fuel =>
      match TrimString buf with
      | [] => Some false
      | a :: s =>
          if Ascii.eqb a "," then scan_list m fuel s
          else if Ascii.eqb a "*" then Some true
          else match scanETag (a :: s) with
               | ([], _) => Some false
               | (t, r) => if m t then Some true else scan_list m fuel r
               end
      end
  end.

Inductive cond := CNone | CTrue | CFalse.

Section NetServe.
Context {F : Type}.
(** http.ParseTime (Unix second); the modification time given to ServeContent in
    Unix seconds (None: the zero time or 1970-01-01, fs.go isZeroTime); the text of
    a Last-Modified header; the rest of ServeContent, given the Range header to obey *)
Variable parse_time : gostr -> option Z.
Variable modtime : F -> option Z.
Variable http_date : Z -> gostr.
Variable send : request -> gostr -> gostr -> F -> gostr -> list (gostr * option gostr) * Z * list gostr.

(** fs.go checkIfMatch *)
Definition checkIfMatch (im etag : gostr) : option cond :=
  if seqb im [] then Some CNone
  else match scan_list (fun t => etagStrongMatch t etag) (S (length im)) im with
       | Some b => Some (if b then CTrue else CFalse)
       | None => None
       end.
(** fs.go checkIfNoneMatch *)
Definition checkIfNoneMatch (inm etag : gostr) : option cond :=
  if seqb inm [] then Some CNone
  else match scan_list (fun t => etagWeakMatch t etag) (S (length inm)) inm with
       | Some b => Some (if b then CFalse else CTrue)
       | None => None
       end.
(** fs.go checkIfUnmodifiedSince *)
Definition checkIfUnmodifiedSince (ius : gostr) (m : option Z) : cond :=
  match m with
  | Some m => if seqb ius [] then CNone
              else match parse_time ius with Some t => if m <=? t then CTrue else CFalse | None => CNone end
  | None => CNone
  end.
(** fs.go checkIfModifiedSince *)
Definition checkIfModifiedSince (method ims : gostr) (m : option Z) : cond :=
  if negb (seqb method (L "GET")) && negb (seqb method (L "HEAD")) then CNone
  else match m with
       | Some m => if seqb ims [] then CNone
                   else match parse_time ims with Some t => if m <=? t then CFalse else CTrue | None => CNone end
       | None => CNone
       end.
(** fs.go checkIfRange.  Simplification: a modification time that is exactly
    1970-01-01 counts as no time here too. *)
Definition checkIfRange (method ir etag : gostr) (m : option Z) : cond :=
  if negb (seqb method (L "GET")) && negb (seqb method (L "HEAD")) then CNone
  else if seqb ir [] then CNone
  else match scanETag ir with
       | ((_ :: _) as t, _) => if etagStrongMatch t etag then CTrue else CFalse
       | ([], _) => match m, parse_time ir with
                    | Some m, Some t => if t =? m then CTrue else CFalse
                    | _, _ => CFalse
                    end
       end.

(** fs.go checkPreconditions: the answer it gives itself, or the Range header *)
Inductive checked := Failed | Unmodified | Go (range : gostr) | Stuck.
Definition checkPreconditions (r : request) (etag : gostr) (m : option Z) : checked :=
  let get k := h_get (rq_header r) k in
  match checkIfMatch (get (L "If-Match")) etag, checkIfNoneMatch (get (L "If-None-Match")) etag with
  | Some ch, Some nm =>
      let ch := match ch with CNone => checkIfUnmodifiedSince (get (L "If-Unmodified-Since")) m | _ => ch end in
      match ch with
      | CFalse => Failed
      | _ =>
          let go := Go (match get (L "Range") with
                        | [] => []
                        | rg => match checkIfRange (rq_method r) (get (L "If-Range")) etag m with CFalse => [] | _ => rg end
                        end) in
          match nm with
          | CFalse => if seqb (rq_method r) (L "GET") || seqb (rq_method r) (L "HEAD") then Unmodified else Failed
          | CNone => match checkIfModifiedSince (rq_method r) (get (L "If-Modified-Since")) m with CFalse => Unmodified | _ => go end
          | CTrue => go
          end
      end
  | _, _ => Stuck
  end.

(** fs.go serveContent with setLastModified and writeNotModified: headers set and
    deleted, status, body; arguments as in Content.ServeContent.  [Stuck] does not
    occur (NetServeFacts.checked_total). *)
Definition net_serve (r : request) (t etag enc : gostr) (f : F) : list (gostr * option gostr) * Z * list gostr :=
  let lm := match modtime f with Some m => [(L "Last-Modified", Some (http_date m))] | None => [] end in
  match checkPreconditions r etag (modtime f) with
  | Failed => (lm, 412, [])
  | Unmodified =>
      (lm ++ [(L "Content-Type", None); (L "Content-Length", None)] ++ (if seqb etag [] then [] else [(L "Last-Modified", None)]), 304, [])
  | Go range => let '(hs, n, out) := send r t enc f range in (lm ++ hs, n, out)
  | Stuck => ([], 500, [])
  end.
End NetServe.
