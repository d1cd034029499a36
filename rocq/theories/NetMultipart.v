(** Multipart forms of the standard library (Go 1.15): mime.ParseMediaType,
    mime/multipart's Reader and ReadForm, textproto's ReadMIMEHeader, and what
    Request.ParseMultipartForm makes of them.  Not code of /repo: it is what
    content.go:152-154 FormFile, 328-344 ParseFormOrMultipartForm and
    binding/form.go:71-78 get their fields and files from. *)
From Coq Require Import ZArith NArith.
From Verif Require Import Base GoStr Header.

Definition lf : gostr := ["010"%char].
Definition crlf : gostr := ["013"; "010"]%char.

(** ** package mime, mediatype.go and grammar.go *)
(** grammar.go isTSpecial, isTokenChar *)
Definition tspecial (a : ascii) : bool := contains_byte a (L "()<>@,;:\""/[]?=").
Definition token_char (a : ascii) : bool := ((33 <=? byte_of a) && (byte_of a <=? 126))%N && negb (tspecial a).
(** mediatype.go consumeToken: the token and what follows it *)
Fixpoint consumeToken (v : gostr) : gostr * gostr :=
  match v with
  | a :: v' => if token_char a then let '(t, rest) := consumeToken v' in (a :: t, rest) else ([], v)
  | [] => ([], [])
  end.
(** mediatype.go consumeValue, the loop over a quoted string after its first quotation
    mark; None: it does not end *)
Fixpoint consumeQuoted (v : gostr) : option (gostr * gostr) :=
  match v with
  | [] => None
  | a :: v' =>
      if Ascii.eqb a """" then Some ([], v')
      else if Ascii.eqb a "\" then
        match v' with
        | c :: v'' => if tspecial c then match consumeQuoted v'' with Some (t, r) => Some (c :: t, r) | None => None end
                      else match consumeQuoted v' with Some (t, r) => Some (a :: t, r) | None => None end
        | [] => None
        end
      else if Ascii.eqb a "013" || Ascii.eqb a "010" then None
      else match consumeQuoted v' with Some (t, r) => Some (a :: t, r) | None => None end
  end.
(** mediatype.go consumeValue *)
Definition consumeValue (v : gostr) : gostr * gostr :=
  match v with
  | a :: v' => if Ascii.eqb a """" then match consumeQuoted v' with Some p => p | None => ([], v) end else consumeToken v
  | [] => ([], [])
  end.
(** mediatype.go consumeMediaParam: name, value and rest; None: the name is empty *)
Definition consumeMediaParam (v : gostr) : option (gostr * gostr * gostr) :=
  match trim_left_space v with
  | a :: rest =>
      if Ascii.eqb a ";" then
        let '(param, rest) := consumeToken (trim_left_space rest) in
        if seqb param [] then None
        else match trim_left_space rest with
        | b :: rest =>
            if Ascii.eqb b "=" then
              let rest := trim_left_space rest in
              let '(value, rest2) := consumeValue rest in
              if seqb value [] && seqb rest2 rest then None else Some (to_lower param, value, rest2)
            else None
        | [] => None
        end
      else None
  | [] => None
  end.
(** mediatype.go checkMediaTypeDisposition: whether there is no error *)
Definition checkMediaTypeDisposition (s : gostr) : bool :=
  let '(typ, rest) := consumeToken s in
  if seqb typ [] then false
  else match rest with
  | [] => true
  | a :: rest => Ascii.eqb a "/" && (let '(sub, rest) := consumeToken rest in negb (seqb sub []) && seqb rest [])
  end.
(** mediatype.go ParseMediaType, its loop: the media type, the parameters, whether
    there is no error.  Every round leaves less, so [fuel] beyond the length is
    enough (MultipartFacts.media_fuel).  Simplification: parameters with a star in
    their name (RFC 2231) are taken for errors. *)
Fixpoint media_params (fuel : nat) (mediatype v : gostr) (params : gmap gostr gostr) : option (gostr * gmap gostr gostr * bool) :=
  match fuel with
  | O => None
  | S fuel =>
      match trim_left_space v with
      | [] => Some (mediatype, params, true)
      | v =>
          match consumeMediaParam v with
          | None => Some (if seqb (trim_space v) (L ";") then (mediatype, params, true) else (mediatype, ∅, false))
          | Some (key, value, rest) =>
              if contains_byte "*" key then Some (mediatype, ∅, false)
              else match params !! key with
              | Some _ => Some ([], ∅, false)
              | None => media_params fuel mediatype rest (<[key := value]> params)
              end
          end
      end
  end.
(** mediatype.go ParseMediaType *)
Definition ParseMediaType (v : gostr) : gostr * gmap gostr gostr * bool :=
  let i := match index_byte ";" v with Some i => i | None => length v end in
  let mediatype := trim_space (to_lower (take i v)) in
  if negb (checkMediaTypeDisposition mediatype) then ([], ∅, false)
  else match media_params (S (length v)) mediatype (drop i v) ∅ with
       | Some x => x
       | None => ([], ∅, false) (* not reached *)
       end.

(** ** package net/textproto, reader.go *)
(** a line up to and with its line feed, and what follows it *)
Definition cut_line (s : gostr) : option (gostr * gostr) :=
  match index_byte "010" s with Some i => Some (take (S i) s, drop (S i) s) | None => None end.
(** readLineSlice: a line without its end.  At the end of the input Go gives the rest as
    a line and fails at the next call; a header cannot end there, so None *)
Definition read_line (s : gostr) : option (gostr * gostr) :=
  match cut_line s with
  | Some (l, rest) => Some (trim_suffix ["013"%char] (take (pred (length l)) l), rest)
  | None => None
  end.
Definition lwsp (a : ascii) : bool := Ascii.eqb a " " || Ascii.eqb a "009".
(** trim *)
Definition trim_lwsp (s : gostr) : gostr := rev (drop_while lwsp (rev (drop_while lwsp s))).
(** readContinuedLineSlice, its loop: lines that begin with white space continue *)
Fixpoint continued (fuel : nat) (buf s : gostr) : option (gostr * gostr) :=
  match fuel with
  | O => None
  | S fuel =>
      match s with
      | a :: _ =>
          if lwsp a then match read_line (drop_while lwsp s) with
                         | Some (l, rest) => continued fuel (buf ++ L " " ++ trim_lwsp l) rest
                         | None => None
                         end
          else Some (buf, s)
      | [] => Some (buf, s)
      end
  end.
(** readContinuedLineSlice(mustHaveFieldNameColon): None is an error *)
Definition read_continued (s : gostr) : option (gostr * gostr) :=
  match read_line s with
  | None => None
  | Some ([], rest) => Some ([], rest)
  | Some (l, rest) => if contains_byte ":" l then continued (S (length rest)) (trim_lwsp l) rest else None
  end.
(** ReadMIMEHeader, its loop; each round takes a line, so [fuel] beyond the length is
    enough *)
Fixpoint mime_header (fuel : nat) (s : gostr) (m : header) : option (header * gostr) :=
  match fuel with
  | O => None
  | S fuel =>
      match read_continued s with
      | None => None
      | Some ([], rest) => Some (m, rest)
      | Some (kv, rest) =>
          match index_byte ":" kv with
          | None => None
          | Some i =>
              let key := take i kv in
              if seqb key [] then mime_header fuel rest m
              else mime_header fuel rest (h_add m key (drop_while lwsp (drop (S i) kv)))
          end
      end
  end.
Definition ReadMIMEHeader (s : gostr) : option (header * gostr) :=
  match s with
  | a :: _ => if lwsp a then None else mime_header (S (length s)) s ∅
  | [] => None
  end.

(** ** package mime/multipart, multipart.go *)
Section Reader.
Variable boundary : gostr.
(** the reader of quoted-printable contents; None is an error *)
Variable quoted_printable : gostr -> option gostr.

Definition dashBoundary : gostr := L "--" ++ boundary.
(** isFinalBoundary *)
Definition isFinalBoundary (nl line : gostr) : bool :=
  has_prefix (dashBoundary ++ L "--") line &&
  (let rest := drop_while lwsp (drop (length (dashBoundary ++ L "--")) line) in seqb rest [] || seqb rest nl).
(** isBoundaryDelimiterLine: the line end from now on, if it is one.  The first one may
    end with a line feed alone, and then all lines do. *)
Definition isBoundaryDelimiterLine (first : bool) (nl line : gostr) : option gostr :=
  if has_prefix dashBoundary line then
    let rest := drop_while lwsp (drop (length dashBoundary) line) in
    let nl := if first && seqb rest lf then lf else nl in
    if seqb rest nl then Some nl else None
  else None.
Inductive next := NPart (nl rest : gostr) | NEnd | NErr.
(** NextPart up to the header, its loop over lines; [fuel] beyond the length is enough.
    Simplification: lines before the first boundary may be longer than the buffer. *)
Fixpoint next_part (fuel : nat) (first : bool) (nl : gostr) (expect : bool) (s : gostr) : option next :=
  match fuel with
  | O => None
  | S fuel =>
      match cut_line s with
      | None => Some (if isFinalBoundary nl s then NEnd else NErr)
      | Some (line, rest) =>
          match isBoundaryDelimiterLine first nl line with
          | Some nl => Some (NPart nl rest)
          | None =>
              if isFinalBoundary nl line then Some NEnd
              else if expect then Some NErr
              else if first then next_part fuel first nl expect rest
              else if seqb line nl then next_part fuel first nl true rest
              else Some NErr
          end
      end
  end.
(** matchAfterPrefix = +1 *)
Definition after_boundary (s : gostr) : bool :=
  match s with [] => true | a :: _ => contains_byte a [" "; "009"; "013"; "010"; "-"]%char end.
(** scanUntilBoundary and the reads that it leads: the content up to the first
    boundary, and what follows it, beginning with that.  The text is taken as a whole,
    not in pieces of the buffer. *)
Fixpoint scan (sep s : gostr) : option (gostr * gostr) :=
  if has_prefix sep s && after_boundary (drop (length sep) s) then Some ([], s)
  else match s with
  | [] => None
  | a :: s' => match scan sep s' with Some (c, rest) => Some (a :: c, rest) | None => None end
  end.
Definition part_content (nl s : gostr) : option (gostr * gostr) :=
  if has_prefix dashBoundary s && after_boundary (drop (length dashBoundary) s) then Some ([], s)
  else scan (nl ++ dashBoundary) s.
(** Part.parseContentDisposition, FormName, FileName *)
Definition disposition (h : header) : gostr * gmap gostr gostr :=
  let '(d, ps, ok) := ParseMediaType (h_get h (L "Content-Disposition")) in (d, if ok : bool then ps else ∅).
Definition FormName (h : header) : gostr :=
  let '(d, ps) := disposition h in if seqb d (L "form-data") then default [] (ps !! L "name") else [].
Definition FileName (h : header) : gostr := let '(_, ps) := disposition h in default [] (ps !! L "filename").

(** ** formdata.go *)
(** FileHeader: the file name, the header, the content, and whether it is on disk *)
Record upload := mkUpload { up_name : gostr; up_header : header; up_content : gostr; up_disk : bool }.
Notation fields := (gmap gostr (list gostr)).
Notation files := (gmap gostr (list upload)).
Definition f_add {X} (m : gmap gostr (list X)) (k : gostr) (v : X) : gmap gostr (list X) := <[k := default [] (m !! k) ++ [v]]> m.
(** Reader.ReadForm, its loop; every round takes a part, so [fuel] beyond the length is
    enough.  [mem], [vals]: maxMemory and maxValueBytes.  The inner None is an error.
    Simplification: files on disk can be made and written. *)
Fixpoint read_parts (fuel : nat) (first : bool) (nl s : gostr) (mem vals : Z) (vs : fields) (fs : files) : option (option (fields * files)) :=
  match fuel with
  | O => None
  | S fuel =>
      match next_part (S (length s)) first nl false s with
      | None => None
      | Some NErr => Some None
      | Some NEnd => Some (Some (vs, fs))
      | Some (NPart nl s) =>
          match ReadMIMEHeader s with
          | None => Some None
          | Some (h, s) =>
              match part_content nl s with
              | None => Some None
              | Some (raw, s) =>
                  let qp := seqb (to_lower (h_get h (L "Content-Transfer-Encoding"))) (L "quoted-printable") in
                  let h := if qp then h_del h (L "Content-Transfer-Encoding") else h in
                  if seqb (FormName h) [] then read_parts fuel false nl s mem vals vs fs
                  else match (if qp then quoted_printable raw else Some raw) with
                  | None => Some None
                  | Some data =>
                      let n := Z.of_nat (length data) in
                      if seqb (FileName h) [] then
                        if (vals - n <? 0)%Z then Some None
                        else read_parts fuel false nl s mem (vals - n) (f_add vs (FormName h) data) fs
                      else if (mem <? n)%Z then
                        read_parts fuel false nl s mem vals vs (f_add fs (FormName h) (mkUpload (FileName h) h data true))
                      else
                        read_parts fuel false nl s (mem - n) (vals - n) vs (f_add fs (FormName h) (mkUpload (FileName h) h data false))
                  end
              end
          end
      end
  end.
Definition ReadForm (max : Z) (s : gostr) : option (fields * files) :=
  match read_parts (S (length s)) true crlf s max (max + 10 * 1024 * 1024) ∅ ∅ with
  | Some x => x
  | None => None (* not reached *)
  end.
End Reader.

(** ** package net/http, request.go *)
(** Request.multipartReader(false) and ReadForm on a body that ends: None is an error *)
Definition net_multi (quoted_printable : gostr -> option gostr) (max : Z) (ct body : gostr) : option (gmap gostr (list gostr) * gmap gostr (list upload)) :=
  if seqb ct [] then None
  else let '(d, ps, ok) := ParseMediaType ct in
       if (ok : bool) && seqb d (L "multipart/form-data") then
         match ps !! L "boundary" with
         | Some b => ReadForm b quoted_printable max body
         | None => None
         end
       else None.
