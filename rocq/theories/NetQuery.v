(** Forms of net/http (Go 1.15): net/url's ParseQuery, and ParseForm and
    ParseMultipartForm of a Request, which content.go:328-344
    ParseFormOrMultipartForm calls.  Not code of /repo: what its getters read is
    what these give. *)
From Coq Require Import ZArith NArith.
From Verif Require Import Base GoStr Tree Header Router Ctx.

Notation values := (gmap gostr (list gostr)).

(** net/url url.go ishex, unhex *)
Definition unhex (c : ascii) : option N :=
  let n := byte_of c in
  if ((48 <=? n) && (n <=? 57))%N then Some (n - 48)%N
  else if ((97 <=? n) && (n <=? 102))%N then Some (n - 97 + 10)%N
  else if ((65 <=? n) && (n <=? 70))%N then Some (n - 65 + 10)%N
  else None.
(** net/url url.go QueryUnescape, unescape in mode encodeQueryComponent; None is
    an EscapeError *)
Fixpoint QueryUnescape (s : gostr) : option gostr :=
  match s with
  | [] => Some []
  | a :: s' =>
      if Ascii.eqb a "%" then
        match s' with
        | x :: y :: s'' =>
            match unhex x, unhex y, QueryUnescape s'' with
            | Some h, Some l, Some t => Some (ascii_of_N (16 * h + l) :: t)
            | _, _, _ => None
            end
        | _ => None
        end
      else match QueryUnescape s' with
           | Some t => Some ((if Ascii.eqb a "+" then " "%char else a) :: t)
           | None => None
           end
  end.
(** strings.IndexAny(key, "&;") and the two parts around it *)
Fixpoint cut_any (s : gostr) : gostr * option gostr :=
  match s with
  | [] => ([], None)
  | a :: s' => if Ascii.eqb a "&" || Ascii.eqb a ";" then ([], Some s')
               else let '(p, q) := cut_any s' in (a :: p, q)
  end.
(** m[key] = append(m[key], value) *)
Definition v_add (m : values) (k v : gostr) : values :=
  <[k := match m !! k with Some vs => vs | None => [] end ++ [v]]> m.
(** net/url url.go parseQuery, the body of its loop for one piece: the map, and
    whether there was no error *)
Definition parse_piece (key : gostr) (st : values * bool) : values * bool :=
  let '(m, ok) := st in
  match key with
  | [] => (m, ok)
  | _ =>
      let '(k, v) := match index_byte "=" key with
                     | Some i => (take i key, drop (S i) key)
                     | None => (key, [])
                     end in
      match QueryUnescape k with
      | None => (m, false)
      | Some k => match QueryUnescape v with
                  | None => (m, false)
                  | Some v => (v_add m k v, ok)
                  end
      end
  end.
(** net/url url.go parseQuery: its loop; every round but the last leaves a shorter
    query, so that the rounds are at most one more than the bytes ([fuel]) *)
Fixpoint parse_query (fuel : nat) (query : gostr) (st : values * bool) : option (values * bool) :=
  match fuel with
  | O => None
  | S fuel =>
      match query with
      | [] => Some st
      | _ => let '(key, rest) := cut_any query in
             parse_query fuel (match rest with Some q => q | None => [] end) (parse_piece key st)
      end
  end.
(** net/url url.go ParseQuery: the values and whether there is no error.  The
    default is not used: QueryFacts.ParseQuery_fuel *)
Definition ParseQuery (query : gostr) : values * bool :=
  match parse_query (S (length query)) query (∅, true) with Some st => st | None => (∅, false) end.

(** URL.RawQuery of a request: what follows the first ? of the request target
    (net/url url.go parse, as ReadRequest calls it) *)
Definition raw_query (r : request) : gostr :=
  match index_byte "?" (rq_uri r) with Some i => drop (S i) (rq_uri r) | None => [] end.

(** net/url url.go URL.Query: errors are ignored *)
Definition url_Query (r : request) : values := fst (ParseQuery (raw_query r)).

(** net/http request.go copyValues: all the values of src after those of dst *)
Definition copyValues (dst src : values) : values :=
  union_with (fun d s => Some (d ++ s)) dst src.

Section Form.
(** mime.ParseMediaType: the media type, and whether there is no error *)
Variable media : gostr -> gostr * bool.
(** multipart.Reader.ReadForm of a body with this Content-Type, made by
    Request.multipartReader: the fields, None in case of an error of the two, and
    what is left of the body *)
Variable read_form : gostr -> gostr * bool -> option values * gostr.

(** the bytes of a form body that are accepted: 10 << 20 *)
Definition maxFormSize : N := 10485760.
(** net/http request.go parsePostForm: the values (None is nil), whether there is
    no error, and what is left of the body.  A request of a server has a body, and
    that is no maxBytesReader. *)
Definition parsePostForm (r : request) (body : gostr * bool) : option values * bool * gostr :=
  let ct := h_get (rq_header r) (L "Content-Type") in
  let ct := if seqb ct [] then L "application/octet-stream" else ct in
  let '(ct, err) := media ct in
  if seqb ct (L "application/x-www-form-urlencoded") then
    let '(data, eof) := body in
    if (N.of_nat (length data) <=? maxFormSize)%N then
      if eof : bool then let '(vs, e) := ParseQuery data in (Some vs, err && e, []) else (None, false, [])
    else (None, false, drop (N.to_nat (maxFormSize + 1)) data)
  else (None, err, fst body).
(** net/http request.go ParseForm, called for the first time: Form, whether there
    is no error, and what is left of the body *)
Definition ParseForm (r : request) (body : gostr * bool) : values * bool * gostr :=
  let '(post, ok, rest) :=
    if seqb (rq_method r) (L "POST") || seqb (rq_method r) (L "PUT") || seqb (rq_method r) (L "PATCH")
    then parsePostForm r body else (None, true, fst body) in
  let post := match post with Some vs => vs | None => ∅ end in
  let '(vs, e) := ParseQuery (raw_query r) in
  (copyValues post vs, ok && e, rest).
(** net/http request.go ParseMultipartForm, called for the first time *)
Definition ParseMultipartForm (r : request) (body : gostr * bool) : values * bool * gostr :=
  let '(f, ok, rest) := ParseForm r body in
  if negb ok then (f, false, rest)
  else
    let '(vs, rest) := read_form (h_get (rq_header r) (L "Content-Type")) (rest, snd body) in
    match vs with
    | None => (f, false, rest)
    | Some vs => (copyValues f vs, true, rest)
    end.
(** the two as the parameter [parse_form] of the model of a Context *)
Definition net_form (multipart : bool) (r : request) (body : gostr * bool) : values * bool * gostr :=
  if multipart then ParseMultipartForm r body else ParseForm r body.
End Form.
