(** What a client is told about a reply whose type is guessed from its text. *)
From Verif Require Import Base GoStr.
Local Open Scope nat_scope.

(** ** Pages *)
Definition blank_byte (a : ascii) : Prop := a ∈ ["009"; "010"; "012"; "013"; " "]%char.
Definition page_tags : list gostr :=
  [L "<!doctype html"; L "<html"; L "<head"; L "<body"; L "<title"; L "<script"; L "<style"; L "<iframe"; L "<div"; L "<table"; L "<font"; L "<h1"; L "<p"; L "<a";
   L "<b"; L "<br"; L "<!--"].
(** after blanks, one of these tags in any letters, then a space or the end of the tag;
    all within the first 512 bytes *)
Definition page_start (s : gostr) : Prop := exists (w t : gostr) c rest, s = w ++ t ++ c :: rest /\ Forall blank_byte w /\
  map lower_byte t ∈ page_tags /\ (c = " "%char \/ c = ">"%char) /\ length (w ++ t) < 2 ^ 9.
(** ** XML declarations *)
Definition xml_start (s : gostr) : Prop := exists w rest, s = w ++ L "<?xml" ++ rest /\ Forall blank_byte w /\ length (w ++ L "<?xml") <= 2 ^ 9.
(** ** Texts *)
(** no control characters other than blanks and escape *)
Definition text_byte (a : ascii) : Prop := 32 <= nat_of_ascii a \/ blank_byte a \/ a = "027"%char.
Definition starts_with (m s : gostr) : Prop := exists rest, s = m ++ rest.
(** texts that begin as files of other formats do *)
Inductive marked (s : gostr) : Prop :=
  | mk_start m : m ∈ [L "%PDF-"; L "%!PS-Adobe-"; L "BM"; L "GIF87a"; L "GIF89a"; L ".snd"; L "ID3"; L "OTTO"; L "ttcf"; L "wOFF"; L "wOF2"; ["255"; "216"; "255"]%char] ->
      starts_with m s -> marked s
  | mk_riff x m : m ∈ [L "WEBPVP"; L "AVI "; L "WAVE"] -> length x = 4 -> starts_with (L "RIFF" ++ x ++ m) s -> marked s
  | mk_form x : length x = 4 -> starts_with (L "FORM" ++ x ++ L "AIFF") s -> marked s
  | mk_font x : length x = 34 -> starts_with (x ++ L "LP") s -> marked s
  | mk_utf16 m a b : m ∈ [["254"; "255"]%char; ["255"; "254"]%char] -> starts_with (m ++ [a; b]) s -> marked s.
(** the mark of UTF-8 *)
Definition utf8_mark : gostr := ["239"; "187"; "191"]%char.
(** ** What a client is told *)
Definition html_type : gostr := L "text/html; charset=utf-8".
Definition xml_type : gostr := L "text/xml; charset=utf-8".
Definition plain_type : gostr := L "text/plain; charset=utf-8".
Definition told (s ty : gostr) : Prop :=
  (ty = html_type <-> page_start s) /\
  (ty = xml_type <-> xml_start s) /\
  (Forall text_byte (take (2 ^ 9) s) -> ~ starts_with utf8_mark s -> (ty = plain_type <-> ~ page_start s /\ ~ xml_start s /\ ~ marked s)) /\
  (Forall text_byte (take (2 ^ 9) s) -> starts_with utf8_mark s -> ty = plain_type) /\
  (forall t, starts_with (L "application/json") t \/ starts_with (L "application/xml") t \/ starts_with (L "application/javascript") t \/ starts_with (L "image/svg") t \/ starts_with (L "text/css") t -> ty <> t).
(** ** Texts that begin with a tag, and JSON *)
Definition opens_tag (s : gostr) : Prop := exists w rest, s = w ++ "<"%char :: rest /\ Forall blank_byte w.
(** a first byte of a JSON value, and a value with such a first byte that is no font *)
Definition json_like (s : gostr) : Prop := exists a rest, s = a :: rest /\ a ∈ L "{[""-0123456789tfn" /\ ~ starts_with (L "ttcf") s.
