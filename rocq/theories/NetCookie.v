(** Cookies of package net/http (cookie.go, as in Go 1.15), which cookie.go of
    water uses: Cookie.String and Request.Cookie.  Outside the repository; modelled
    because SetCookie and Cookie are calls of them. *)
From Verif Require Import Base GoStr Strconv Pattern Tree Header Router Ctx Util Getters.
Local Open Scope Z_scope.

(** net/http isCookieNameValid: a non-empty token (isNotToken is false for the runes
    of textproto's tokens only) *)
Definition isCookieNameValid (s : gostr) : bool := negb (seqb s []) && forallb token_byte s.

(** net/http validCookieValueByte *)
Definition validCookieValueByte (a : ascii) : bool :=
  let b := byte_of a in
  ((32 <=? b) && (b <? 127))%N && negb (Ascii.eqb a """") && negb (Ascii.eqb a ";") && negb (Ascii.eqb a "\").
(** net/http validCookiePathByte *)
Definition validCookiePathByte (a : ascii) : bool :=
  let b := byte_of a in ((32 <=? b) && (b <? 127))%N && negb (Ascii.eqb a ";").
(** net/http sanitizeOrWarn, without the warning that is logged *)
Definition sanitizeOrWarn (valid : ascii -> bool) (v : gostr) : gostr :=
  if forallb valid v then v else List.filter valid v.
(** net/http sanitizeCookieValue *)
Definition sanitizeCookieValue (v : gostr) : gostr :=
  let v := sanitizeOrWarn validCookieValueByte v in
  if (length v =? 0)%nat then v
  else if contains_byte " " v || contains_byte "," v then L """" ++ v ++ L """" else v.
(** net/http sanitizeCookiePath *)
Definition sanitizeCookiePath (v : gostr) : gostr := sanitizeOrWarn validCookiePathByte v.

Definition is_alpha (a : ascii) : bool :=
  let b := byte_of a in ((97 <=? b) && (b <=? 122) || (65 <=? b) && (b <=? 90))%N.
Definition is_num (a : ascii) : bool := let b := byte_of a in ((48 <=? b) && (b <=? 57))%N.

(** the loop of net/http isCookieDomainName *)
Fixpoint domain_loop (s : gostr) (last : ascii) (ok : bool) (partlen : nat) : bool :=
  match s with
  | [] => if Ascii.eqb last "-" || (63 <? partlen)%nat then false else ok
  | c :: s =>
      if is_alpha c then domain_loop s c true (S partlen)
      else if is_num c then domain_loop s c ok (S partlen)
      else if Ascii.eqb c "-" then
        if Ascii.eqb last "." then false else domain_loop s c ok (S partlen)
      else if Ascii.eqb c "." then
        if Ascii.eqb last "." || Ascii.eqb last "-" then false
        else if (63 <? partlen)%nat || (partlen =? 0)%nat then false
        else domain_loop s c ok 0
      else false
  end.
(** net/http isCookieDomainName *)
Definition isCookieDomainName (s : gostr) : bool :=
  if (length s =? 0)%nat then false
  else if (255 <? length s)%nat then false
  else domain_loop (trim_prefix (L ".") s) "." false 0.

(** package net, dtoi: the number at the beginning and what follows it; big is
    0xFFFFFF *)
Fixpoint dtoi_loop (s : gostr) (n : N) (some : bool) : option (N * gostr) :=
  match s with
  | a :: s' =>
      if is_num a then
        let n := (n * 10 + (byte_of a - 48))%N in
        if (16777215 <=? n)%N then None else dtoi_loop s' n true
      else if some then Some (n, s) else None
  | [] => if some then Some (n, s) else None
  end.
(** package net, the loop of parseIPv4: k numbers are left *)
Fixpoint ipv4_loop (k : nat) (first : bool) (s : gostr) : bool :=
  match k with
  | O => seqb s []
  | S k =>
      match (if first then Some s else match s with a :: s' => if Ascii.eqb a "." then Some s' else None | [] => None end) with
      | None => false
      | Some s =>
          match dtoi_loop s 0 false with
          | Some (n, s) => if (255 <? n)%N then false else ipv4_loop k false s
          | None => false
          end
      end
  end.
(** net/http validCookieDomain.  net.ParseIP of a text without ":" is parseIPv4. *)
Definition validCookieDomain (v : gostr) : bool :=
  isCookieDomainName v || (ipv4_loop 4 true v && negb (contains (L ":") v)).

(** net/http Cookie.String; Expires, which SetCookie does not set, is left out *)
Definition cookie_String (c : cookie) : gostr :=
  if negb (isCookieNameValid (ck_name c)) then []
  else
    ck_name c ++ L "=" ++ sanitizeCookieValue (ck_value c) ++
    (if (0 <? length (ck_path c))%nat then L "; Path=" ++ sanitizeCookiePath (ck_path c) else []) ++
    (if (0 <? length (ck_domain c))%nat then
       if validCookieDomain (ck_domain c) then L "; Domain=" ++ trim_prefix (L ".") (ck_domain c) else []
     else []) ++
    (if 0 <? ck_maxage c then L "; Max-Age=" ++ itoa (ck_maxage c)
     else if ck_maxage c <? 0 then L "; Max-Age=0" else []) ++
    (if ck_httponly c then L "; HttpOnly" else []) ++
    (if ck_secure c then L "; Secure" else []) ++
    (if ck_samesite c =? 4 then L "; SameSite=None"
     else if ck_samesite c =? 2 then L "; SameSite=Lax"
     else if ck_samesite c =? 3 then L "; SameSite=Strict" else []).

(** cookie.go:56-108 SetCookie as a handler calls it, going on with k;
    ctx.ResponseWriter.Header() is the map of ctx.Header() *)
Definition SetCookie_prog {V} (name value : gostr) (others : list dyn) (k : prog V) : prog V :=
  PDo (OHeaderAdd (L "Set-Cookie") (cookie_String (SetCookie name value others))) (fun _ => k).

(** net/http parseCookieValue with allowDoubleQuote *)
Definition parseCookieValue (raw : gostr) : option gostr :=
  let raw := if (1 <? length raw)%nat && has_prefix (L """") raw && has_suffix (L """") raw
             then take (length raw - 2) (drop 1 raw) else raw in
  if forallb validCookieValueByte raw then Some raw else None.

(** the body of the loop of net/http readCookies: a part of a line *)
Definition read_part (filter part : gostr) : option (gostr * gostr) :=
  let part := trim_space part in
  if (length part =? 0)%nat then None
  else
    let '(name, val) := match index_byte "=" part with
                        | Some j => (take j part, drop (S j) part)
                        | None => (part, [])
                        end in
    if negb (isCookieNameValid name) then None
    else if negb (seqb filter []) && negb (seqb filter name) then None
    else match parseCookieValue val with Some v => Some (name, v) | None => None end.
(** the parts of a line: it is cut at the first semicolon unless that is its first
    byte.  [fuel]: the length of the line; None: not enough. *)
Fixpoint line_parts (fuel : nat) (line : gostr) : option (list gostr) :=
  if (length line =? 0)%nat then Some []
  else match fuel with
       | O => None
       | S fuel =>
           match index_byte ";" line with
           | Some (S i) => cons (take (S i) line) <$> line_parts fuel (drop (S (S i)) line)
           | _ => Some [line]
           end
       end.
(** the cookies of a line *)
Definition read_line (filter line : gostr) : option (list (gostr * gostr)) :=
  let line := trim_space line in
  match line_parts (length line) line with Some l => Some (omap (read_part filter) l) | None => None end.
(** net/http readCookies *)
Fixpoint read_lines (filter : gostr) (lines : list gostr) : option (list (gostr * gostr)) :=
  match lines with
  | [] => Some []
  | line :: lines =>
      match read_line filter line, read_lines filter lines with Some a, Some b => Some (a ++ b) | _, _ => None end
  end.
Definition readCookies (h : header) (filter : gostr) : option (list (gostr * gostr)) :=
  read_lines filter (match h !! L "Cookie" with Some l => l | None => [] end).
(** net/http Request.Cookie: the value of the first one *)
Definition request_cookie (r : request) (name : gostr) : option gostr :=
  match readCookies (rq_header r) name with
  | Some ((_, v) :: _) => Some v
  | _ => None
  end.
