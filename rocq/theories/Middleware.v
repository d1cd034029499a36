(** The middleware that comes with the package: m_recovery.go, m_logger.go and
    m_cors.go, as handler programs. *)
From Verif Require Import Base GoStr Strconv Pattern Tree Header Router Ctx Util Content.
Local Open Scope Z_scope.

Section Middleware.
Context {V : Type}.

(** m_recovery.go:12-46.  [stable]: version.go's Status is Stable.  [crash v] is
    the text made of the panic value and the call stack.  recover() gives nil
    when there is no panic, and for panic(nil), which it ends as well (Go 1.15).
    Simplification: the line that is logged carries no time stamp. *)
Definition Recovery (stable : bool) (crash : gostr -> gostr) : prog V :=
  PTry (PNext PRet) (fun p =>
    match p with
    | Some (Some v) =>
        PDo OWritten (fun w =>
          seqp ((if w then [] else [OWriteHeader 500]) ++ [OLog (L "panic : " ++ crash v)])
            (if stable then PRet else String_ 500 (crash v) PRet))
    | _ => PDo OWritten (fun w => if w then PRet else PDo (OWriteHeader 200) (fun _ => PRet))
    end).

(** m_logger.go:16-20, the colours as terminal sequences *)
Definition esc (t : gostr) : gostr := ascii_of_nat 27 :: L "[" ++ t ++ L "m".
Definition green : gostr := esc (L "97;42").
Definition white : gostr := esc (L "90;47").
Definition yellow : gostr := esc (L "97;43").
Definition red : gostr := esc (L "97;41").
Definition reset : gostr := esc (L "0").
(** m_logger.go:28-39 *)
Definition colorForStatus (code : Z) : gostr :=
  if (200 <=? code) && (code <? 300) then green
  else if (300 <=? code) && (code <? 400) then white
  else if (400 <=? code) && (code <? 500) then yellow
  else red.
(** fmt: a text to the right of a field of the given width (in bytes: the texts
    are ASCII) *)
Definition pad (width : nat) (s : gostr) : gostr := repeat " "%char (width - length s) ++ s.
(** m_logger.go:41-47; [color] is LogColor *)
Definition logStatus (color : bool) (status : Z) : gostr :=
  if color then colorForStatus status ++ L " " ++ pad 3 (itoa status) ++ L " " ++ reset
  else L " " ++ pad 3 (itoa status) ++ L " ".
(** m_logger.go:49-51 *)
Definition logPrefix (h : header) : gostr := L "[ water : " ++ h_get h (L "Trace-ID") ++ L " ]".

(** What the log line takes from outside the repository: LogColor, the formatted
    time of the beginning, the formatted duration, and the text of the URL. *)
Record logfmt := mkLogfmt { lf_color : bool; lf_start : gostr; lf_used : gostr; lf_url : request -> gostr }.
(** m_logger.go:77-86 *)
Definition log_line (lf : logfmt) (status : Z) (r : request) (body : gostr) : gostr :=
  logPrefix (rq_header r) ++ L " " ++ lf_start lf ++ L " |" ++ logStatus (lf_color lf) status ++ L "| " ++ pad 13 (lf_used lf) ++
  L " | " ++ pad 16 (requestRealIp (rq_header r) (rq_remote r)) ++ L " | " ++ pad 7 (rq_method r) ++ L " " ++ lf_url lf r ++ body.

(** m_logger.go:74-86: ctx.Next() and the line; [text] is what the body adds to it *)
Definition log_after (lf : logfmt) (text : gostr) : prog V :=
  PNext (PDo OStatus (fun n => PDo ORequest (fun r => PDo (OLog (log_line lf n r text)) (fun _ => PRet)))).
(** m_logger.go:53-88.  [close] is LogClose, [body] is LogHttpBody and [limit] is
    the number of bytes read of the body, 1<<20 (m_logger.go:63).  On a server the
    request always has a body. *)
Definition Logger (lf : logfmt) (limit : nat) (close body : bool) : prog V :=
  if close then PRet
  else
    PDo ORequest (fun r =>
      if body && contains (L "application/json") (h_get (rq_header r) (L "Content-Type"))
      then PDo (OBodyRead limit) (fun d => PDo OBodyClose (fun _ => PDo (OBodySet d) (fun _ => log_after lf (ascii_of_nat 10 :: d))))
      else log_after lf []).

(** m_cors.go:26-58 *)
Record CORSConfig := mkCORS {
  AllowOrigins : list gostr;
  AllowMethods : list gostr;
  AllowHeaders : list gostr;
  AllowCredentials : bool;
  ExposeHeaders : list gostr;
  MaxAge : Z
}.
(** m_cors.go:63-66 *)
Definition default_origins : list gostr := [L "*"].
Definition default_methods : list gostr := [L "GET"; L "POST"; L "PUT"; L "PATCH"; L "DELETE"; L "HEAD"].

(** m_cors.go:86-92: the first entry that is * or the origin *)
Fixpoint allow_origin (origins : list gostr) (origin : gostr) : gostr :=
  match origins with
  | [] => []
  | o :: l => if seqb o (L "*") || seqb o origin then o else allow_origin l origin
  end.

(** m_cors.go:69-133.  The header of the response is reached through the
    underlying writer, which is the same map as ctx.Header(). *)
Definition CORS (config : CORSConfig) : prog V :=
  let origins := match AllowOrigins config with [] => default_origins | l => l end in
  let methods := match AllowMethods config with [] => default_methods | l => l end in
  let allowMethods := join (L ",") methods in
  let allowHeaders := join (L ",") (AllowHeaders config) in
  let exposeHeaders := join (L ",") (ExposeHeaders config) in
  let maxAge := itoa (MaxAge config) in
  let creds := if AllowCredentials config
               then [OHeaderSet (L "Access-Control-Allow-Credentials") (L "true")] else [] in
  PDo ORequest (fun r =>
    let allowOrigin := allow_origin origins (h_get (rq_header r) (L "Origin")) in
    if negb (seqb (rq_method r) (L "OPTIONS")) then
      seqp ([OHeaderAdd (L "Vary") (L "Origin");
             OHeaderSet (L "Access-Control-Allow-Origin") allowOrigin] ++ creds ++
            (if seqb exposeHeaders [] then []
             else [OHeaderSet (L "Access-Control-Expose-Headers") exposeHeaders]))
        (PNext PRet)
    else
      let h := h_get (rq_header r) (L "Access-Control-Request-Headers") in
      seqp ([OHeaderAdd (L "Vary") (L "Origin");
             OHeaderAdd (L "Vary") (L "Access-Control-Request-Method");
             OHeaderAdd (L "Vary") (L "Access-Control-Request-Headers");
             OHeaderSet (L "Access-Control-Allow-Origin") allowOrigin;
             OHeaderSet (L "Access-Control-Allow-Methods") allowMethods] ++ creds ++
            (if negb (seqb allowHeaders []) then [OHeaderSet (L "Access-Control-Allow-Headers") allowHeaders]
             else if negb (seqb h []) then [OHeaderSet (L "Access-Control-Allow-Headers") h] else []) ++
            (if 0 <? MaxAge config then [OHeaderSet (L "Access-Control-Max-Age") maxAge] else []) ++
            [OWriteHeader 204]) PRet).

End Middleware.
