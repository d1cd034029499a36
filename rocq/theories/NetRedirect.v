(** http.Redirect of net/http (Go 1.15), which content.go:43-50 MovedPermanently and
    Found call: the target and the page that it sends.  Not code of /repo: instances
    of the parameters [location] and [page] of Content.Redirect. *)
From Coq Require Import ZArith NArith.
From Verif Require Import Base GoStr Tree Header Router Ctx PathClean Strconv Static NetQuery.

(** net/url url.go stringContainsCTLByte, negated *)
Definition ctl_free (s : gostr) : bool :=
  forallb (fun a => negb ((byte_of a <? 32)%N || (byte_of a =? 127)%N)) s.
(** net/url url.go unescape in the modes encodePath and encodeFragment: whether there
    is no error *)
Fixpoint escapes_ok (s : gostr) : bool :=
  match s with
  | [] => true
  | a :: s' =>
      if Ascii.eqb a "%" then
        match s' with
        | x :: y :: s'' => match unhex x, unhex y with Some _, Some _ => escapes_ok s'' | _, _ => false end
        | _ => false
        end
      else escapes_ok s'
  end.
(** net/url url.go getscheme: the scheme and the rest, None in case of an error.
    [n]: bytes that were read before s *)
Definition is_alpha (a : ascii) : bool :=
  let b := byte_of a in (((97 <=? b) && (b <=? 122)) || ((65 <=? b) && (b <=? 90)))%N.
Definition is_scheme_byte (a : ascii) : bool :=
  let b := byte_of a in ((48 <=? b) && (b <=? 57))%N || Ascii.eqb a "+" || Ascii.eqb a "-" || Ascii.eqb a ".".
Fixpoint getscheme_at (rawurl : gostr) (n : nat) (s : gostr) : option (gostr * gostr) :=
  match s with
  | [] => Some ([], rawurl)
  | c :: s' =>
      if is_alpha c then getscheme_at rawurl (S n) s'
      else if is_scheme_byte c then
        if (n =? 0)%nat then Some ([], rawurl) else getscheme_at rawurl (S n) s'
      else if Ascii.eqb c ":" then
        if (n =? 0)%nat then None else Some (take n rawurl, s')
      else Some ([], rawurl)
  end.
Definition getscheme (rawurl : gostr) : option (gostr * gostr) := getscheme_at rawurl 0 rawurl.
(** net/url url.go split(s, c, cutc = true): the parts before and after the first c *)
Definition split_at (c : ascii) (s : gostr) : gostr * gostr :=
  match index_byte c s with Some i => (take i s, drop (S i) s) | None => (s, []) end.

Section Redirect.
(** net/url url.go parseAuthority: the host, None in case of an error *)
Variable parseAuthority : gostr -> option gostr.

(** net/url url.go Parse and parse: whether there is no error, and neither a scheme
    nor a host *)
Definition parse_local (rawurl : gostr) : bool :=
  let '(u, frag) := split_at "#" rawurl in
  ctl_free u &&
  (if seqb u (L "*") then true
   else match getscheme u with
        | None => false
        | Some (scheme, rest) =>
            seqb scheme [] &&
            (let '(rest, _) := split_at "?" rest in
             (if has_prefix (L "/") rest then true
              else match index_byte ":" rest, index_byte "/" rest with
                   | None, _ => true
                   | Some _, None => false
                   | Some colon, Some slash => negb (colon <? slash)%nat
                   end) &&
             (let '(host, path) :=
                if negb (has_prefix (L "///") rest) && has_prefix (L "//") rest then
                  let authority := drop 2 rest in
                  match index_byte "/" authority with
                  | Some i => (parseAuthority (take i authority), drop i authority)
                  | None => (parseAuthority authority, [])
                  end
                else (Some [], rest) in
              match host with Some [] => escapes_ok path | _ => false end))
        end) &&
  (if seqb frag [] then true else escapes_ok frag).

(** path.Split, the directory: everything up to the last slash *)
Definition split_dir (p : gostr) : gostr :=
  match last_index_byte "/" p with Some i => take (S i) p | None => [] end.
(** net/http server.go Redirect: the URL after it was made absolute and cleaned *)
Definition redirect_url (r : request) (url : gostr) : gostr :=
  if parse_local url then
    let oldpath := if seqb (rq_path r) [] then L "/" else rq_path r in
    let url := if has_prefix (L "/") url then url else split_dir oldpath ++ url in
    let '(u, q) := match index_byte "?" url with Some i => (take i url, drop i url) | None => (url, []) end in
    let c := Clean u in
    (if has_suffix (L "/") u && negb (has_suffix (L "/") c) then c ++ L "/" else c) ++ q
  else url.
(** net/http server.go Redirect, http.go hexEscapeNonASCII: the Location *)
Definition redirect_location (r : request) (url : gostr) : gostr := flat_map hex_escape_byte (redirect_url r url).
(** net/http server.go htmlReplacer *)
Definition html_replace (a : ascii) : gostr :=
  if Ascii.eqb a "&" then L "&amp;"
  else if Ascii.eqb a "<" then L "&lt;"
  else if Ascii.eqb a ">" then L "&gt;"
  else if Ascii.eqb a """" then L "&#34;"
  else if Ascii.eqb a "'" then L "&#39;"
  else [a].
(** net/http status.go statusText, of the two codes that content.go uses *)
Definition redirect_text (code : Z) : gostr :=
  if (code =? 301)%Z then L "Moved Permanently" else if (code =? 302)%Z then L "Found" else [].
(** net/http server.go Redirect: the page, with the newline of fmt.Fprintln *)
Definition redirect_page_text (r : request) (url : gostr) (code : Z) : gostr :=
  L "<a href=""" ++ flat_map html_replace (redirect_url r url) ++ L """>" ++ redirect_text code ++ L "</a>." ++ [ascii_of_nat 10; ascii_of_nat 10].
End Redirect.
