(** http.ServeContent of net/http (Go 1.15, go.mod:3: file net/http/fs.go) after the
    preconditions of NetServe.v: ranges, and the content.  Static files, Download and
    Attachment are sent with it (m_static.go:93-108, content.go:198-239).  None of
    this is in /repo; it is written from the documentation and source of Go's
    library. *)
From Verif Require Import Base GoStr Strconv Header Ctx NetServe NetFile.
Local Open Scope Z_scope.

Record httpRange := mkRange { rg_start : Z; rg_length : Z }.
Inductive rangeErr := ErrInvalidRange | ErrNoOverlap.

Section NetRange.
Context {F : Type}.
(** Go 1.16 and later refuse a suffix length with a minus sign; the bytes of a file;
    its type by extension or contents (mime.TypeByExtension, DetectContentType); the
    random boundary of multipart.NewWriter *)
Variable strict : bool.
Variable content : F -> gostr.
Variable ctype : F -> gostr.
Variable boundary : gostr.

(** fs.go parseRange, one element.  None: invalid; Some None: no overlap.
    Simplification: int64 does not overflow. *)
Definition parse_one (size : Z) (ra : gostr) : option (option httpRange) :=
  match index_byte "-" ra with
  | None => None
  | Some i =>
      let start := TrimString (take i ra) in
      let fin := TrimString (drop (S i) ra) in
      match start with
      | [] =>
          if strict && match fin with [] => true | a :: _ => Ascii.eqb a "-" end then None
          else match parse_int 64 fin with
               | (i, ErrNone) =>
                   if strict && (i <? 0) then None
                   else let i := if size <? i then size else i in
                        Some (Some (mkRange (size - i) (size - (size - i))))
               | _ => None
               end
      | _ =>
          match parse_int 64 start with
          | (i, ErrNone) =>
              if i <? 0 then None
              else if size <=? i then Some None
              else match fin with
                   | [] => Some (Some (mkRange i (size - i)))
                   | _ => match parse_int 64 fin with
                          | (j, ErrNone) =>
                              if j <? i then None
                              else let j := if size <=? j then size - 1 else j in
                                   Some (Some (mkRange i (j - i + 1)))
                          | _ => None
                          end
                   end
          | _ => None
          end
      end
  end.
(** the loop of parseRange *)
Fixpoint parse_all (size : Z) (l : list gostr) (ranges : list httpRange) (noOverlap : bool) : rangeErr + list httpRange :=
  match l with
  | [] => if noOverlap && (length ranges =? 0)%nat then inl ErrNoOverlap else inr ranges
  | ra :: l =>
      match TrimString ra with
      | [] => parse_all size l ranges noOverlap
      | ra => match parse_one size ra with
              | None => inl ErrInvalidRange
              | Some None => parse_all size l ranges true
              | Some (Some r) => parse_all size l (ranges ++ [r]) noOverlap
              end
      end
  end.
Definition parseRange (s : gostr) (size : Z) : rangeErr + list httpRange :=
  match s with
  | [] => inr []
  | _ => if has_prefix (L "bytes=") s then parse_all size (split_byte "," (drop 6 s)) [] false
         else inl ErrInvalidRange
  end.

(** fs.go sumRangesSize, contentRange *)
Definition sumRangesSize (l : list httpRange) : Z := fold_left (fun n r => n + rg_length r) l 0.
Definition contentRange (r : httpRange) (size : Z) : gostr :=
  L "bytes " ++ itoa (rg_start r) ++ L "-" ++ itoa (rg_start r + rg_length r - 1) ++ L "/" ++ itoa size.

(** io.CopyN after Seek: at most n bytes from start on *)
Definition read_at (f : F) (start n : Z) : gostr := take (Z.to_nat n) (drop (Z.to_nat start) (content f)).

Definition crlf : gostr := [ascii_of_nat 13; ascii_of_nat 10].
(** multipart.Writer.CreatePart with fs.go mimeHeader (keys sorted), and Close *)
Definition part_header (first : bool) (t : gostr) (r : httpRange) (size : Z) : gostr :=
  (if first then [] else crlf) ++ L "--" ++ boundary ++ crlf ++
  L "Content-Range: " ++ contentRange r size ++ crlf ++ L "Content-Type: " ++ t ++ crlf ++ crlf.
Fixpoint parts (f : F) (first : bool) (t : gostr) (l : list httpRange) (size : Z) : gostr :=
  match l with
  | [] => []
  | r :: l => part_header first t r size ++ read_at f (rg_start r) (rg_length r) ++ parts f false t l size
  end.
Definition closing : gostr := crlf ++ L "--" ++ boundary ++ L "--" ++ crlf.
(** fs.go rangesMIMESize *)
Fixpoint parts_size (first : bool) (t : gostr) (l : list httpRange) (size : Z) : Z :=
  match l with
  | [] => 0
  | r :: l => Z.of_nat (length (part_header first t r size)) + rg_length r + parts_size false t l size
  end.
Definition rangesMIMESize (l : list httpRange) (t : gostr) (size : Z) : Z :=
  parts_size true t l size + Z.of_nat (length closing).

(** fs.go serveContent from "code := StatusOK" on.  [t], [enc]: headers Content-Type and
    Content-Encoding of the response so far; [range]: the Range header to obey.
    Simplifications: an empty Content-Type counts as none; reading does not fail. *)
Definition net_send (r : request) (t enc : gostr) (f : F) (range : gostr) : list (gostr * option gostr) * Z * list gostr :=
  let '(th, t) := match t with [] => ([(L "Content-Type", Some (ctype f))], ctype f) | _ => ([], t) end in
  let size := Z.of_nat (length (content f)) in
  match parseRange range size with
  | inl e =>
      let '(hs, n, out) := http_Error (match e with ErrInvalidRange => L "invalid range" | ErrNoOverlap => L "invalid range: failed to overlap" end) 416 in
      (th ++ (match e with ErrNoOverlap => [(L "Content-Range", Some (L "bytes */" ++ itoa size))] | ErrInvalidRange => [] end) ++ hs, n, out)
  | inr ranges =>
      let ranges := if size <? sumRangesSize ranges then [] else ranges in
      let '(rh, code, sendSize, out) :=
        match ranges with
        | [] => ([], 200, size, content f)
        | [ra] => ([(L "Content-Range", Some (contentRange ra size))], 206, rg_length ra, read_at f (rg_start ra) (rg_length ra))
        | _ => ([(L "Content-Type", Some (L "multipart/byteranges; boundary=" ++ boundary))], 206, rangesMIMESize ranges t size,
                parts f true t ranges size ++ closing)
        end in
      (th ++ rh ++ [(L "Accept-Ranges", Some (L "bytes"))] ++
         (if seqb enc [] then [(L "Content-Length", Some (itoa sendSize))] else []),
       code, if seqb (rq_method r) (L "HEAD") then [] else [take (Z.to_nat sendSize) out])
  end.
End NetRange.
