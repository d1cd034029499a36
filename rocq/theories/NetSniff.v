(** net/http's guess of a content type (Go 1.15, src/net/http/sniff.go), in the place of
    the parameter [sniff] of the other files. *)
From Coq Require Import ZArith NArith.
From Verif Require Import Base GoStr.
Local Open Scope nat_scope.

(** bytes from their numbers *)
Definition bytes (l : list nat) : gostr := map ascii_of_nat l.
(** isWS *)
Definition isWS (b : ascii) : bool := Ascii.eqb b "009" || Ascii.eqb b "010" || Ascii.eqb b "012" || Ascii.eqb b "013" || Ascii.eqb b " ".
(** isTT *)
Definition isTT (b : ascii) : bool := Ascii.eqb b " " || Ascii.eqb b ">".
(** data[firstNonWS:] *)
Fixpoint skipWS (s : gostr) : gostr := match s with a :: s' => if isWS a then skipWS s' else s | [] => [] end.
(** a signature of the table.  In masks only 0x00 and 0xFF occur, so a pattern is bytes
    and, for 0x00, None *)
Inductive sniffSig :=
  | exactSig (sig ct : gostr)
  | maskedSig (pat : list (option ascii)) (skip : bool) (ct : gostr)
  | htmlSig (h : gostr)
  | mp4Sig
  | textSig.
(** db & 0xDF *)
Definition clear5 (b : ascii) : ascii := let '(Ascii x0 x1 x2 x3 x4 _ x6 x7) := b in Ascii x0 x1 x2 x3 x4 false x6 x7.
Definition is_upper (b : ascii) : bool := (65 <=? nat_of_ascii b) && (nat_of_ascii b <=? 90).
(** htmlSig.match, its loop and the tag-terminating byte *)
Fixpoint match_html (h data : gostr) : bool :=
  match h, data with
  | [], d :: _ => isTT d
  | b :: h, d :: data => Ascii.eqb b (if is_upper b then clear5 d else d) && match_html h data
  | _, [] => false
  end.
(** maskedSig.match, its loop *)
Fixpoint match_mask (pat : list (option ascii)) (data : gostr) : bool :=
  match pat, data with
  | [], _ => true
  | Some b :: pat, d :: data => Ascii.eqb b d && match_mask pat data
  | None :: pat, _ :: data => match_mask pat data
  | _ :: _, [] => false
  end.
(** binary.BigEndian.Uint32(data[:4]) *)
Definition uint32 (data : gostr) : N := fold_left (fun n b => n * 256 + N_of_ascii b)%N (take 4 data) 0%N.
(** the loop of mp4Sig.match: brands at 8, 16, 20, ... below the size of the box *)
Fixpoint mp4_brands (fuel st size : nat) (data : gostr) : bool :=
  match fuel with
  | O => false
  | S fuel =>
      if st <? size then
        if (negb (st =? 12)) && seqb (take 3 (drop st data)) (L "mp4") then true
        else mp4_brands fuel (st + 4) size data
      else false
  end.
(** mp4Sig.match *)
Definition match_mp4 (data : gostr) : bool :=
  if length data <? 12 then false
  else let boxSize := uint32 data in
       if (N.of_nat (length data) <? boxSize)%N || negb (boxSize mod 4 =? 0)%N then false
       else if negb (seqb (take 4 (drop 4 data)) (L "ftyp")) then false
       else mp4_brands (N.to_nat boxSize) 8 (N.to_nat boxSize) data.
(** the bytes that textSig.match refuses *)
Definition binary_byte (b : ascii) : bool :=
  let n := nat_of_ascii b in
  (n <=? 8) || (n =? 11) || ((14 <=? n) && (n <=? 26)) || ((28 <=? n) && (n <=? 31)).
(** sig.match(data, firstNonWS); [] is no match *)
Definition sig_match (sig : sniffSig) (data : gostr) : gostr :=
  match sig with
  | exactSig s ct => if has_prefix s data then ct else []
  | maskedSig pat skip ct => if match_mask pat (if skip then skipWS data else data) then ct else []
  | htmlSig h => if match_html h (skipWS data) then L "text/html; charset=utf-8" else []
  | mp4Sig => if match_mp4 data then L "video/mp4" else []
  | textSig => if existsb binary_byte (skipWS data) then [] else L "text/plain; charset=utf-8"
  end.
Definition any (n : nat) : list (option ascii) := repeat None n.
Definition exactly (s : gostr) : list (option ascii) := map Some s.
(** sniffSignatures *)
Definition sniffSignatures : list sniffSig :=
  map htmlSig [L "<!DOCTYPE HTML"; L "<HTML"; L "<HEAD"; L "<SCRIPT"; L "<IFRAME"; L "<H1"; L "<DIV"; L "<FONT"; L "<TABLE"; L "<A"; L "<STYLE";
               L "<TITLE"; L "<B"; L "<BODY"; L "<BR"; L "<P"; L "<!--"] ++
  [ maskedSig (exactly (L "<?xml")) true (L "text/xml; charset=utf-8");
    exactSig (L "%PDF-") (L "application/pdf");
    exactSig (L "%!PS-Adobe-") (L "application/postscript");
    maskedSig (exactly (bytes [254; 255]) ++ any 2) false (L "text/plain; charset=utf-16be");
    maskedSig (exactly (bytes [255; 254]) ++ any 2) false (L "text/plain; charset=utf-16le");
    maskedSig (exactly (bytes [239; 187; 191]) ++ any 1) false (L "text/plain; charset=utf-8");
    exactSig (bytes [0; 0; 1; 0]) (L "image/x-icon");
    exactSig (bytes [0; 0; 2; 0]) (L "image/x-icon");
    exactSig (L "BM") (L "image/bmp");
    exactSig (L "GIF87a") (L "image/gif");
    exactSig (L "GIF89a") (L "image/gif");
    maskedSig (exactly (L "RIFF") ++ any 4 ++ exactly (L "WEBPVP")) false (L "image/webp");
    exactSig (bytes [137] ++ L "PNG" ++ bytes [13; 10; 26; 10]) (L "image/png");
    exactSig (bytes [255; 216; 255]) (L "image/jpeg");
    maskedSig (exactly (L ".snd")) false (L "audio/basic");
    maskedSig (exactly (L "FORM") ++ any 4 ++ exactly (L "AIFF")) false (L "audio/aiff");
    maskedSig (exactly (L "ID3")) false (L "audio/mpeg");
    maskedSig (exactly (L "OggS" ++ bytes [0])) false (L "application/ogg");
    maskedSig (exactly (L "MThd" ++ bytes [0; 0; 0; 6])) false (L "audio/midi");
    maskedSig (exactly (L "RIFF") ++ any 4 ++ exactly (L "AVI ")) false (L "video/avi");
    maskedSig (exactly (L "RIFF") ++ any 4 ++ exactly (L "WAVE")) false (L "audio/wave");
    mp4Sig;
    exactSig (bytes [26; 69; 223; 163]) (L "video/webm");
    maskedSig (any 34 ++ exactly (L "LP")) false (L "application/vnd.ms-fontobject");
    exactSig (bytes [0; 1; 0; 0]) (L "font/ttf");
    exactSig (L "OTTO") (L "font/otf");
    exactSig (L "ttcf") (L "font/collection");
    exactSig (L "wOFF") (L "font/woff");
    exactSig (L "wOF2") (L "font/woff2");
    exactSig (bytes [31; 139; 8]) (L "application/x-gzip");
    exactSig (L "PK" ++ bytes [3; 4]) (L "application/zip");
    exactSig (L "Rar!" ++ bytes [26; 7; 0]) (L "application/x-rar-compressed");
    exactSig (L "Rar!" ++ bytes [26; 7; 1; 0]) (L "application/x-rar-compressed");
    exactSig (bytes [0] ++ L "asm") (L "application/wasm");
    textSig ].
(** the loop of DetectContentType *)
Fixpoint sniff_loop (sigs : list sniffSig) (data : gostr) : gostr :=
  match sigs with
  | [] => L "application/octet-stream"
  | sig :: sigs => match sig_match sig data with [] => sniff_loop sigs data | ct => ct end
  end.
(** DetectContentType *)
Definition sniffLen : nat := 2 ^ 9.
Definition DetectContentType (data : gostr) : gostr :=
  sniff_loop sniffSignatures (if sniffLen <? length data then take sniffLen data else data).
