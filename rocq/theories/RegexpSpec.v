(** What regular expressions mean: the texts they describe, with the parts their groups
    stand for, and how they are written.  Nothing here refers to searching or parsing. *)
From Coq Require Import NArith.
From Verif Require Import Base GoStr Pattern NetRegexp.
Local Open Scope nat_scope.

(** ** Meaning *)
(** a is among the characters of a class *)
Definition listed (rs : list (ascii * ascii)) (a : ascii) : Prop :=
  exists lo hi, (lo, hi) ∈ rs /\ (N_of_ascii lo <= N_of_ascii a <= N_of_ascii hi)%N.
(** the UTF-8 encoding of a character (RFC 3629) *)
Local Open Scope N_scope.
Inductive utf8 : gostr -> Prop :=
  | utf8_1 n : n < 128 -> utf8 [ascii_of_N n]
  | utf8_2 n : 128 <= n < 2048 -> utf8 [ascii_of_N (192 + n / 64); ascii_of_N (128 + n mod 64)]
  | utf8_3 n : 2048 <= n < 65536 -> ~ (55296 <= n <= 57343) ->
      utf8 [ascii_of_N (224 + n / 4096); ascii_of_N (128 + n / 64 mod 64); ascii_of_N (128 + n mod 64)]
  | utf8_4 n : 65536 <= n < 1114112 ->
      utf8 [ascii_of_N (240 + n / 262144); ascii_of_N (128 + n / 4096 mod 64); ascii_of_N (128 + n / 64 mod 64); ascii_of_N (128 + n mod 64)].
Local Close Scope N_scope.
(** the text x, followed by post, is one character; a byte that begins none is one by
    itself *)
Inductive character : gostr -> gostr -> Prop :=
  | ch_rune x post : utf8 x -> character x post
  | ch_byte a post : (forall x v, a :: post = x ++ v -> ~ utf8 x) -> character [a] post.
(** the text x, followed by post, is one character of a class *)
Inductive one_of (neg : bool) (rs : list (ascii * ascii)) : gostr -> gostr -> Prop :=
  | one_ascii a post : (N_of_ascii a < 128)%N -> (if neg then ~ listed rs a else listed rs a) -> one_of neg rs [a] post
  | one_rune a x post : neg = true -> (128 <= N_of_ascii a)%N -> character (a :: x) post ->
      one_of neg rs (a :: x) post.
(** [describes r pre x post gs]: r describes x, between pre and post, and its groups
    stand for gs, in the order of their opening parentheses.  A group that takes no part
    stands for the empty text. *)
Inductive describes : re -> gostr -> gostr -> gostr -> list gostr -> Prop :=
  | d_empty pre post : describes REmpty pre [] post []
  | d_set neg rs pre x post : one_of neg rs x post -> describes (RSet neg rs) pre x post []
  | d_begin post : describes RBegin [] [] post []
  | d_end pre : describes REnd pre [] [] []
  | d_cat a b pre x y post ga gb : describes a pre x (y ++ post) ga -> describes b (pre ++ x) y post gb ->
      describes (RCat a b) pre (x ++ y) post (ga ++ gb)
  | d_left a b pre x post ga : describes a pre x post ga -> describes (RAlt a b) pre x post (ga ++ repeat [] (groups b))
  | d_right a b pre x post gb : describes b pre x post gb -> describes (RAlt a b) pre x post (repeat [] (groups a) ++ gb)
  | d_some a pre x post ga : describes a pre x post ga -> describes (RQuest a) pre x post ga
  | d_none a pre post : describes (RQuest a) pre [] post (repeat [] (groups a))
  | d_stop a pre post : describes (RStar a) pre [] post []
  | d_again a pre x y post : describes a pre x (y ++ post) [] -> describes (RStar a) (pre ++ x) y post [] ->
      describes (RStar a) pre (x ++ y) post []
  | d_plus a pre x y post : describes a pre x (y ++ post) [] -> describes (RStar a) (pre ++ x) y post [] ->
      describes (RPlus a) pre (x ++ y) post []
  | d_group a pre x post ga : describes a pre x post ga -> describes (RGroup a) pre x post (x :: ga).

(** the text u, followed by post, consists of whole characters *)
Inductive whole : gostr -> gostr -> Prop :=
  | whole_nil post : whole [] post
  | whole_char x u post : character x (u ++ post) -> whole u post -> whole (x ++ u) post.
(** r describes the part m of the text s, which begins behind u *)
Definition occurs (r : re) (s u m : gostr) (gs : list gostr) : Prop :=
  exists v, s = u ++ m ++ v /\ whole u (m ++ v) /\ describes r u m v gs.
(** ... and no part that begins before *)
Definition first_occurs (r : re) (s u m : gostr) (gs : list gostr) : Prop :=
  occurs r s u m gs /\ forall u' m' gs', occurs r s u' m' gs' -> length u <= length u'.

(** ** Spelling *)
(** characters that stand for themselves *)
Definition plain (c : ascii) : Prop := (N_of_ascii c < 128)%N /\ c ∉ L "()[\.^$*+?{|".
Definition letter_or_digit (c : ascii) : Prop :=
  (48 <= N_of_ascii c <= 57 \/ 65 <= N_of_ascii c <= 90 \/ 97 <= N_of_ascii c <= 122)%N.
(** characters that stand for themselves behind a backslash *)
Definition mark (c : ascii) : Prop := (N_of_ascii c < 128)%N /\ ~ letter_or_digit c.
Inductive shorthand : ascii -> bool -> list (ascii * ascii) -> Prop :=
  | sh_d : shorthand "d" false [("0", "9")]%char
  | sh_D : shorthand "D" true [("0", "9")]%char
  | sh_w : shorthand "w" false [("0", "9"); ("A", "Z"); ("_", "_"); ("a", "z")]%char
  | sh_W : shorthand "W" true [("0", "9"); ("A", "Z"); ("_", "_"); ("a", "z")]%char
  | sh_s : shorthand "s" false [("009", "010"); ("012", "013"); (" ", " ")]%char
  | sh_S : shorthand "S" true [("009", "010"); ("012", "013"); (" ", " ")]%char.
(** a character in a class *)
Inductive class_char_text : ascii -> gostr -> Prop :=
  | cc_plain c : (N_of_ascii c < 128)%N -> c ∉ L "[]\^-" -> class_char_text c [c]
  | cc_mark c : mark c -> class_char_text c ["\"%char; c].
(** the inside of a class; a dash at the end stands for itself *)
Inductive class_text : list (ascii * ascii) -> gostr -> Prop :=
  | cl_nil : class_text [] []
  | cl_dash : class_text [("-", "-")]%char (L "-")
  | cl_char c t rs ts : class_char_text c t -> class_text rs ts -> class_text ((c, c) :: rs) (t ++ ts)
  | cl_range lo hi t t' rs ts : class_char_text lo t -> class_char_text hi t' -> (N_of_ascii lo <= N_of_ascii hi)%N ->
      class_text rs ts -> class_text ((lo, hi) :: rs) (t ++ ["-"%char] ++ t' ++ ts)
  | cl_short c l rs ts : shorthand c false l -> class_text rs ts -> class_text (l ++ rs) (["\"%char; c] ++ ts).
(** expressions: alternatives, sequences, repetitions and atoms *)
Inductive alt_text : re -> gostr -> Prop :=
  | at_one a t : cat_text a t -> alt_text a t
  | at_or a b t u : cat_text a t -> alt_text b u -> alt_text (RAlt a b) (t ++ ["|"%char] ++ u)
with cat_text : re -> gostr -> Prop :=
  | ct_nil : cat_text REmpty []
  | ct_cons a l t u : rep_text a t -> cat_text l u -> cat_text (RCat a l) (t ++ u)
with rep_text : re -> gostr -> Prop :=
  | rt_once a t : atom_text a t -> rep_text a t
  | rt_quest a t : atom_text a t -> rep_text (RQuest a) (t ++ ["?"%char])
  | rt_star a t : atom_text a t -> repeatable a = true -> rep_text (RStar a) (t ++ ["*"%char])
  | rt_plus a t : atom_text a t -> repeatable a = true -> rep_text (RPlus a) (t ++ ["+"%char])
with atom_text : re -> gostr -> Prop :=
  | as_char c : plain c -> atom_text (RSet false [(c, c)]) [c]
  | as_mark c : mark c -> atom_text (RSet false [(c, c)]) ["\"%char; c]
  | as_short c neg rs : shorthand c neg rs -> atom_text (RSet neg rs) ["\"%char; c]
  | as_any : atom_text (RSet true [("010", "010")]%char) (L ".")
  | as_begin : atom_text RBegin (L "^")
  | as_end : atom_text REnd (L "$")
  | as_class rs t : t <> [] -> class_text rs t -> atom_text (RSet false rs) (["["%char] ++ t ++ ["]"%char])
  | as_not rs t : t <> [] -> class_text rs t -> atom_text (RSet true rs) (L "[^" ++ t ++ ["]"%char])
  | as_group a t : alt_text a t -> atom_text (RGroup a) (["("%char] ++ t ++ [")"%char])
  | as_plain a t : alt_text a t -> atom_text a (L "(?:" ++ t ++ [")"%char]).

(** ** Segments of routes *)
(** the segment s of a route is analysed as p, and its expression is e, spelt t *)
Definition regexp_segment (s : gostr) (p : pat) (t : gostr) (e : re) : Prop :=
  analyzePattern go_ok s = Ok p /\ p_typ p = PRegexp /\ p_reg p = Some t /\ alt_text e t.
