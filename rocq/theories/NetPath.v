(** The path of a request: net/http request.go readRequest (Go 1.15) with
    url.ParseRequestURI, which make the Request.URL.Path that engine.go:102-110
    routes by out of the request target.  Not code of /repo.  CONNECT requests, which
    engine.go:85-88 refuses, are left out. *)
From Coq Require Import ZArith NArith.
From Verif Require Import Base GoStr Tree Header Router Ctx NetQuery NetRedirect.

(** net/url url.go unescape in the mode encodePath *)
Fixpoint PathUnescape (s : gostr) : option gostr :=
  match s with
  | [] => Some []
  | a :: s' =>
      if Ascii.eqb a "%" then
        match s' with
        | x :: y :: s'' =>
            match unhex x, unhex y with
            | Some h, Some l => match PathUnescape s'' with Some t => Some (ascii_of_N (16 * h + l) :: t) | None => None end
            | _, _ => None
            end
        | _ => None
        end
      else match PathUnescape s' with Some t => Some (a :: t) | None => None end
  end.
Section Path.
Variable parseAuthority : gostr -> option gostr.
(** net/url url.go ParseRequestURI, parse with viaRequest = true: the path, None in
    case of an error, which the server answers with 400 itself *)
Definition request_path (rawurl : gostr) : option gostr :=
  if negb (ctl_free rawurl) || seqb rawurl [] then None
  else if seqb rawurl (L "*") then Some (L "*")
  else match getscheme rawurl with
       | None => None
       | Some (scheme, rest) =>
           let '(rest, _) := split_at "?" rest in
           if negb (has_prefix (L "/") rest) then if seqb scheme [] then None else Some []
           else if negb (seqb scheme []) && has_prefix (L "//") rest then
             let authority := drop 2 rest in
             let '(host, path) := match index_byte "/" authority with
                                  | Some i => (parseAuthority (take i authority), drop i authority)
                                  | None => (parseAuthority authority, [])
                                  end in
             match host with Some _ => PathUnescape path | None => None end
           else PathUnescape rest
       end.
End Path.
