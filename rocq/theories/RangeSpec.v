(** Ranges of bytes (RFC 7233) and the replies to requests for them. *)
From Verif Require Import Base GoStr Header UtilSpec.
Local Open Scope Z_scope.

(** ** The header Range *)
(** bytes a to b, from a on, the last n *)
Inductive piece := Span (a b : Z) | From (a : Z) | Suffix (n : Z).
Inductive writes_piece : piece -> gostr -> Prop :=
  | wp_span a b s t : udecimal s a -> udecimal t b -> a <= b -> writes_piece (Span a b) (s ++ "-"%char :: t)
  | wp_from a s : udecimal s a -> writes_piece (From a) (s ++ L "-")
  | wp_suffix n s : udecimal s n -> writes_piece (Suffix n) ("-"%char :: s).
Definition blanks (s : gostr) : Prop := Forall (fun a => a = " "%char \/ a = ascii_of_nat 9) s.
(** an element of the list, which may be empty *)
Inductive writes_item : list piece -> gostr -> Prop :=
  | wi_none s : blanks s -> writes_item [] s
  | wi_one p s u v : writes_piece p s -> blanks u -> blanks v -> writes_item [p] (u ++ s ++ v).
Definition range_header (ps : list piece) (s : gostr) : Prop :=
  exists pss items, Forall2 writes_item pss items /\ ps = concat pss /\ ps <> [] /\ s = L "bytes=" ++ join (L ",") items.
(** the numbers are below 2^63 *)
Definition sized (p : piece) : Prop :=
  match p with Span a b => b < 2 ^ 63 | From a => a < 2 ^ 63 | Suffix n => n < 2 ^ 63 end.

(** ** The bytes asked for *)
(** the first and the last byte of a piece of a file of this size, if there are any *)
Definition selected (size : Z) (p : piece) : option (Z * Z) :=
  match p with
  | Span a b => if decide (a < size) then Some (a, Z.min b (size - 1)) else None
  | From a => if decide (a < size) then Some (a, size - 1) else None
  | Suffix n => if decide (0 < n /\ 0 < size) then Some (Z.max 0 (size - n), size - 1) else None
  end.
(** pieces that do not ask for the last bytes of an empty file, or for the last none *)
Definition counts (size : Z) (p : piece) : Prop := match p with Suffix n => 0 < n /\ 0 < size | _ => True end.
(** d are the bytes a to b of s *)
Definition bytes_at (s : gostr) (a b : Z) (d : gostr) : Prop :=
  exists u v, s = u ++ d ++ v /\ Z.of_nat (length u) = a /\ Z.of_nat (length d) = b - a + 1.
Definition total (l : list (Z * Z)) : Z := fold_right (fun x n => x.2 - x.1 + 1 + n) 0 l.

(** ** Replies *)
Definition has (h : header) (k v : gostr) : Prop := h_values h k = [v].
(** the text of a Content-Range *)
Definition content_range (a b size : Z) (t : gostr) : Prop :=
  exists x y z, udecimal x a /\ udecimal y b /\ udecimal z size /\ t = L "bytes " ++ x ++ L "-" ++ y ++ L "/" ++ z.
Definition newline : gostr := [ascii_of_nat 13; ascii_of_nat 10].
(** a body multipart/byteranges with these parts of the file s of type t *)
Inductive byteranges (s t bnd : gostr) : list (Z * Z) -> gostr -> Prop :=
  | br_end : byteranges s t bnd [] (L "--" ++ bnd ++ L "--" ++ newline)
  | br_part a b l cr d rest : content_range a b (Z.of_nat (length s)) cr -> bytes_at s a b d -> byteranges s t bnd l rest ->
      byteranges s t bnd ((a, b) :: l)
        (L "--" ++ bnd ++ newline ++ L "Content-Range: " ++ cr ++ newline ++ L "Content-Type: " ++ t ++ newline ++ newline ++ d ++ newline ++ rest).
(** the reply with the parts of a file s of type t: the whole file, if the parts
    have more bytes than it; otherwise the part, or the parts *)
Inductive parts_reply (s t bnd : gostr) (parts : list (Z * Z)) : Z -> header -> gostr -> Prop :=
  | pr_whole n hd : Z.of_nat (length s) < total parts -> has hd (L "Content-Type") t -> has hd (L "Accept-Ranges") (L "bytes") ->
      udecimal n (Z.of_nat (length s)) -> has hd (L "Content-Length") n -> parts_reply s t bnd parts 200 hd s
  | pr_one a b cr d n hd : parts = [(a, b)] -> total parts <= Z.of_nat (length s) ->
      has hd (L "Content-Type") t -> has hd (L "Accept-Ranges") (L "bytes") ->
      content_range a b (Z.of_nat (length s)) cr -> has hd (L "Content-Range") cr -> bytes_at s a b d ->
      udecimal n (Z.of_nat (length d)) -> has hd (L "Content-Length") n -> parts_reply s t bnd parts 206 hd d
  | pr_many body n hd : (2 <= length parts)%nat -> total parts <= Z.of_nat (length s) ->
      has hd (L "Content-Type") (L "multipart/byteranges; boundary=" ++ bnd) -> has hd (L "Accept-Ranges") (L "bytes") ->
      byteranges s t bnd parts body ->
      udecimal n (Z.of_nat (length body)) -> has hd (L "Content-Length") n -> parts_reply s t bnd parts 206 hd body.
(** the reply without any part *)
Definition no_part_reply (s : gostr) (n : Z) (hd : header) : Prop :=
  n = 416 /\ exists z, udecimal z (Z.of_nat (length s)) /\ has hd (L "Content-Range") (L "bytes */" ++ z).
(** the reply with the whole file *)
Definition whole_reply (s t : gostr) (n : Z) (hd : header) (body : gostr) : Prop :=
  n = 200 /\ body = s /\ has hd (L "Content-Type") t /\ has hd (L "Accept-Ranges") (L "bytes") /\
  exists z, udecimal z (Z.of_nat (length s)) /\ has hd (L "Content-Length") z.
(** the reply (status, headers, body) with the pieces of a file s of type t that
    were asked for; a request with the method HEAD gets no body *)
Definition ranged (s t bnd : gostr) (head : bool) (ps : list piece) (n : Z) (hd : header) (out : gostr) : Prop :=
  match omap (selected (Z.of_nat (length s))) ps with
  | [] => no_part_reply s n hd
  | l => exists body, parts_reply s t bnd l n hd body /\ out = if head then [] else body
  end.
(** parts that are in a file of this size; an empty part is next to some byte *)
Definition within (size : Z) (x : Z * Z) : Prop := 0 <= x.1 /\ x.1 - 1 <= x.2 /\ 0 <= x.2 < size.
(** requests without conditions *)
Definition unconditional (get : gostr -> gostr) : Prop :=
  get (L "If-Match") = [] /\ get (L "If-None-Match") = [] /\ get (L "If-Modified-Since") = [] /\
  get (L "If-Unmodified-Since") = [] /\ get (L "If-Range") = [].

(** What is sent of a file s of type t, given the value of Range (empty: none). *)
Definition delivered (s t bnd : gostr) (head : bool) (rg : gostr) (n : Z) (hd : header) (out : gostr) : Prop :=
  (rg = [] -> exists body, whole_reply s t n hd body /\ out = if head then [] else body) /\
  (forall ps, range_header ps rg -> Forall sized ps -> Forall (counts (Z.of_nat (length s))) ps -> ranged s t bnd head ps n hd out).
(** Whatever the value of Range: the file, parts that are in it, or 416 *)
Definition contained (s t bnd : gostr) (head : bool) (n : Z) (hd : header) (out : gostr) : Prop :=
  n = 416 \/
  exists body, out = (if head then [] else body) /\
   (whole_reply s t n hd body \/
    exists l, l <> [] /\ Forall (within (Z.of_nat (length s))) l /\ parts_reply s t bnd l n hd body).
