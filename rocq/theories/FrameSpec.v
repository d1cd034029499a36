(** How a client reads replies from a connection: RFC 7230, sections 3 and 4, without
    chunk extensions and trailers. *)
From Coq Require Import ZArith NArith.
From Verif Require Import Base GoStr UtilSpec Header RequestSpec.
Local Open Scope Z_scope.

Definition line_end : gostr := ["013"; "010"]%char.
(** a text without ends of lines *)
Definition bare (s : gostr) : Prop := "013"%char ∉ s /\ "010"%char ∉ s.
Definition blank (a : ascii) : Prop := a = " "%char \/ a = "009"%char.
(** ... that has no blanks at its ends *)
Definition one_line (v : gostr) : Prop :=
  bare v /\ (forall a v', v = a :: v' -> ~ blank a) /\ (forall a v', v = v' ++ [a] -> ~ blank a).
(** a name may be the name of a header line *)
Definition field_name (n : gostr) : Prop := n <> [] /\ is_token n.

Inductive line_text : gostr * gostr -> gostr -> Prop :=
  | line_is n v o o' : field_name n -> one_line v -> Forall blank o -> Forall blank o' ->
      line_text (n, v) (n ++ [":"%char] ++ o ++ v ++ o' ++ line_end).
Inductive lines_text : list (gostr * gostr) -> gostr -> Prop :=
  | lines_nil : lines_text [] []
  | lines_cons f fs t ts : line_text f t -> lines_text fs ts -> lines_text (f :: fs) (t ++ ts).
(** status line and header of a reply *)
Inductive head_text : Z -> list (gostr * gostr) -> gostr -> Prop :=
  | head_is v code c reason fs t : is_digit v -> length c = 3%nat -> udecimal c code -> bare reason -> lines_text fs t ->
      head_text code fs (L "HTTP/1." ++ [v] ++ L " " ++ c ++ L " " ++ reason ++ line_end ++ t ++ line_end).
(** the values of the lines with a name *)
Fixpoint field_values (n : gostr) (fs : list (gostr * gostr)) : list gostr :=
  match fs with
  | [] => []
  | f :: fs => if seqb (map lower_byte (fst f)) (map lower_byte n) then snd f :: field_values n fs else field_values n fs
  end.

(** chunked data *)
Inductive chunked_text : gostr -> gostr -> Prop :=
  | chunked_end : chunked_text [] (L "0" ++ line_end ++ line_end)
  | chunked_more d data s t : d <> [] -> hex_number s = Some (N.of_nat (length d)) -> chunked_text data t ->
      chunked_text (d ++ data) (s ++ line_end ++ d ++ line_end ++ t).
(** a reply to HEAD, and replies with these codes, end with their header *)
Definition bodiless (head : bool) (code : Z) : Prop := head = true \/ 100 <= code <= 199 \/ code = 204 \/ code = 304.
(** [body_text head code fs s b rest]: the client reads the body b from what comes behind
    the header, s, and leaves rest.  s is all that comes until the connection is closed. *)
Inductive body_text (head : bool) (code : Z) (fs : list (gostr * gostr)) : gostr -> gostr -> gostr -> Prop :=
  | body_none rest : bodiless head code -> body_text head code fs rest [] rest
  | body_chunked b t rest : ~ bodiless head code -> field_values (L "Transfer-Encoding") fs = [L "chunked"] ->
      chunked_text b t -> body_text head code fs (t ++ rest) b rest
  | body_length n b rest : ~ bodiless head code -> field_values (L "Transfer-Encoding") fs = [] ->
      field_values (L "Content-Length") fs = [n] -> udecimal n (Z.of_nat (length b)) -> body_text head code fs (b ++ rest) b rest
  | body_rest b : ~ bodiless head code -> field_values (L "Transfer-Encoding") fs = [] ->
      field_values (L "Content-Length") fs = [] -> body_text head code fs b b [].
(** The client reads a reply: its code, its header lines and its body.  Replies with
    codes from 100 to 199 (but for 101) announce another reply to the same request. *)
Inductive reads (head : bool) : gostr -> Z * list (gostr * gostr) * gostr -> gostr -> Prop :=
  | reads_reply code fs t s b rest : head_text code fs t -> ~ (100 <= code <= 199) -> body_text head code fs s b rest ->
      reads head (t ++ s) (code, fs, b) rest
  | reads_interim code fs t s m rest : head_text code fs t -> 100 <= code <= 199 -> code <> 101 -> reads head s m rest ->
      reads head (t ++ s) m rest.
(** the replies to the requests of a connection, one after the other, until it is closed;
    [heads]: which requests were HEAD *)
Inductive reads_all : list bool -> gostr -> list (Z * list (gostr * gostr) * gostr) -> Prop :=
  | reads_no : reads_all [] [] []
  | reads_next head heads s m ms rest : reads head s m rest -> reads_all heads rest ms -> reads_all (head :: heads) s (m :: ms).

(** the header names of a response are names in the spelling of package net/http *)
Definition names_ok (h : header) : Prop := forall k, is_Some (h !! k) -> field_name k /\ canon k = k.
(** ... and handlers leave the framing to the server *)
Definition plain_header (h : header) : Prop :=
  names_ok h /\ h_values h (L "Transfer-Encoding") = [] /\ h_values h (L "Trailer") = [].

(** a Content-Length, if there is one, is that of a body of m bytes; a reply that ends
    with its header may declare more *)
Definition declares (head : bool) (code : Z) (h : header) (m : nat) : Prop :=
  h_values h (L "Content-Length") = [] \/
  exists z n, h_values h (L "Content-Length") = [z] /\ udecimal z n /\ Z.of_nat m <= n < 2 ^ 63 /\ (n = Z.of_nat m \/ bodiless head code).
(** names that belong to the server *)
Definition hop_names : list gostr := [L "Date"; L "Content-Length"; L "Connection"; L "Transfer-Encoding"].

(** [line_of v l]: the value v is sent as l, in one line *)
Definition flat (a : ascii) : ascii := if bool_decide (a = "010"%char \/ a = "013"%char) then " "%char else a.
Definition line_of (v l : gostr) : Prop :=
  exists o o', map flat v = o ++ l ++ o' /\ Forall blank o /\ Forall blank o' /\ one_line l.
