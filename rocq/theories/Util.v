(** util.go: small helpers behind Context methods, and the functions of the Go
    standard library they call. *)
From Verif Require Import Base GoStr Strconv Header.

(** util.go:33-39 requestProxy (content.go:116-118 Proxy); nil is [] *)
Definition requestProxy (h : header) : list gostr :=
  let ips := h_get h (L "X-Forwarded-For") in
  if negb (seqb ips []) then split_str (L ", ") ips else [].

(** util.go:42-57 requestRealIp (content.go:111-113 RealIp) *)
Definition requestRealIp (h : header) (remote : gostr) : gostr :=
  let ip := h_get h (L "X-Real-IP") in
  if seqb ip [] then
    let ips := requestProxy h in
    match ips with
    | x :: _ => if negb (seqb x []) then x
                else match last_index_byte ":" remote with
                     | Some i => take i remote
                     | None => remote
                     end
    | [] => match last_index_byte ":" remote with
            | Some i => take i remote
            | None => remote
            end
    end
  else ip.

(** net/url shouldEscape for a path segment: letters, digits, -_.~ and $&+:=@
    stay as they are *)
Definition path_unreserved (a : ascii) : bool :=
  let n := byte_of a in
  ((48 <=? n) && (n <=? 57) || (65 <=? n) && (n <=? 90) || (97 <=? n) && (n <=? 122))%N
  || existsb (Ascii.eqb a) (L "-_.~$&+:=@").
(** upper-case hexadecimal digits *)
Definition upper_hex (d : N) : ascii :=
  if (d <? 10)%N then ascii_of_N (48 + d) else ascii_of_N (55 + d).
Definition pct_byte (a : ascii) : gostr :=
  let n := byte_of a in ["%"%char; upper_hex (n / 16); upper_hex (n mod 16)].
(** url.PathEscape *)
Definition PathEscape (s : gostr) : gostr :=
  flat_map (fun a => if path_unreserved a then [a] else pct_byte a) s.

(** util.go:59-70 contentDisposition *)
Definition contentDisposition (fileName dispositionType : gostr) : gostr :=
  let t := if seqb dispositionType [] then L "attachment" else dispositionType in
  if seqb fileName [] then t
  else t ++ L "; filename=""" ++ PathEscape fileName ++ L """; filename*=UTF-8''" ++ PathEscape fileName.

(** util.go:97-104 filterFlags (content.go:122-124 ContentType).  The loop is over
    runes; the two it looks for are single bytes, which are never part of
    another rune's encoding. *)
Fixpoint filterFlags (s : gostr) : gostr :=
  match s with
  | [] => []
  | a :: s' => if Ascii.eqb a " " || Ascii.eqb a ";" then [] else a :: filterFlags s'
  end.

(** util.go:112-114 GenerateETag; the time is given by its Unix second *)
Definition GenerateETag (unix size : Z) : gostr :=
  format_Z 16 unix ++ L "-" ++ format_Z 16 size.
(** util.go:117-119 GenerateETag2 *)
Definition GenerateETag2 (unix size : Z) (name : gostr) : gostr :=
  format_Z 16 unix ++ L "-" ++ format_Z 16 size ++ L "-" ++ hex_string name.

(** util.go:121-130 resolveAddress *)
Definition resolveAddress (addr : list gostr) : res gostr :=
  match addr with
  | [] => Ok (L ":8080")
  | [a] => Ok a
  | _ => Panic (L "too many addrs")
  end.

(** text/template HTMLEscapeString, which html/template re-exports *)
Definition html_byte (a : ascii) : gostr :=
  if Ascii.eqb a "000" then [ascii_of_N 239; ascii_of_N 191; ascii_of_N 189]
  else if Ascii.eqb a """" then L "&#34;"
  else if Ascii.eqb a "'" then L "&#39;"
  else if Ascii.eqb a "&" then L "&amp;"
  else if Ascii.eqb a "<" then L "&lt;"
  else if Ascii.eqb a ">" then L "&gt;"
  else [a].
Definition HTMLEscapeString (s : gostr) : gostr := flat_map html_byte s.
