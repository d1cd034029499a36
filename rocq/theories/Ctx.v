(** The request context: context.go, environ.go and the parts of content.go that
    drive the response.  Handlers are arbitrary programs over the operations the
    Context offers. *)
From Verif Require Import Base GoStr Strconv Pattern Tree Header Router.
Local Open Scope Z_scope.

(** ** The connection: what net/http hands to ServeHTTP *)

(** The part of *http.Request that water reads.  Simplification: a handler cannot
    replace or modify the request, except for its body. *)
Record request := mkReq {
  rq_method : gostr;
  rq_major : nat; rq_minor : nat;       (* protocol version *)
  rq_uri : gostr;                        (* RequestURI *)
  rq_path : gostr;                       (* URL.Path *)
  rq_header : header;
  rq_remote : gostr;                     (* RemoteAddr *)
  rq_tls : bool
}.

(** http.ResponseWriter as the server of package net/http implements it: the
    first WriteHeader fixes the status and a copy of the header map, later ones
    are ignored; a status outside 100..999 panics; the first Write implies
    WriteHeader(200); no body is sent for 1xx, 204 and 304.
    This is net/http of Go 1.15 (go.mod:3), without informational 1xx replies.
    Simplification: Content-Length accounting, flushing, hijacking, write errors
    (see Wire.v) and the suppression of bodies in replies to HEAD are left out. *)
Record rwstate := mkRw {
  rw_hdr : header;                       (* Header() *)
  rw_sent : option (Z * header);         (* status and header as sent *)
  rw_body : gostr                        (* the body so far *)
}.
Definition rw_new : rwstate := mkRw ∅ None [].

(** A request body: what can still be read of it, and how it ends.  Bodies that
    are not replaced are those that the server of net/http makes (transfer.go:
    [FMem] is http.NoBody, the others are its type body), or memory that a handler
    or a test put there (ioutil.NopCloser). *)
Inductive feed :=
  | FMem                                 (* ends with io.EOF, and Close has no effect *)
  | FWire                                (* ends with io.EOF; reading fails after Close *)
  | FBroken                              (* ends with an error, e.g. a client that goes away *)
  | FClosed.                             (* closed: reading fails *)
Record rbody := mkBody { bd_data : gostr; bd_feed : feed }.
Definition feed_ok (f : feed) : bool := match f with FMem | FWire => true | FBroken | FClosed => false end.
(** what a reader of all of it gets: the bytes, and whether they end with io.EOF *)
Definition bd_all (b : rbody) : gostr * bool := (bd_data b, feed_ok (bd_feed b)).
(** what is left when only [rest] is left *)
Definition bd_left (b : rbody) (rest : gostr) : rbody := mkBody rest (bd_feed b).
(** net/http transfer.go body.Close; Close of the others *)
Definition bd_close (b : rbody) : rbody :=
  match bd_feed b with FMem => b | _ => mkBody [] FClosed end.

Definition valid_code (c : Z) : bool := (100 <=? c) && (c <=? 999).
Definition body_allowed (c : Z) : bool :=
  negb ((100 <=? c) && (c <=? 199) || (c =? 204) || (c =? 304)).

(** A panic value: None is nil. *)
Notation pval := (option gostr).

Section Ctx.
Context {A V : Type}.

(** ** Handler programs *)

(** What a handler can do with its *Context.  Values stored in Environ are of
    type V. *)
Inductive op :=
  | OWriteHeader (code : Z)               (* ctx.WriteHeader *)
  | OWrite (data : gostr)                 (* ctx.Write *)
  | OHeaderGet (k : gostr)                (* ctx.Header().Get *)
  | OHeaderSet (k v : gostr)              (* ctx.Header().Set *)
  | OHeaderAdd (k v : gostr)              (* ctx.Header().Add *)
  | OHeaderDel (k : gostr)                (* ctx.Header().Del *)
  | ORawWriteHeader (code : Z)            (* ctx.ResponseWriter.WriteHeader *)
  | ORawWrite (data : gostr)              (* ctx.ResponseWriter.Write *)
  | OWritten                              (* ctx.Written *)
  | OStatus                               (* ctx.Status *)
  | OFullPath                             (* ctx.FullPath *)
  | OParams                               (* ctx.Params *)
  | OParamPut (k v : gostr)               (* ctx.Params[k] = v *)
  | OSet (name : gostr) (v : V)           (* ctx.Set *)
  | OGet (name : gostr)                   (* ctx.Get *)
  | OGetMaybe (name : gostr)              (* ctx.GetMaybe *)
  | OEnvPut (name : gostr) (v : V)        (* ctx.Environ[name] = v *)
  | ORequest                              (* ctx.Request *)
  | OBodyRead (n : nat)                   (* read up to n bytes of ctx.Request.Body, without regard to errors *)
  | OBodyReadAll                          (* ioutil.ReadAll(ctx.Request.Body): the bytes, and whether there was no error *)
  | OBodyClose                            (* ctx.Request.Body.Close() *)
  | OBodySet (data : gostr)               (* ctx.Request.Body = ioutil.NopCloser(a reader on data) *)
  | OParseForm                            (* ctx.ParseFormOrMultipartForm *)
  | OForm                                 (* ctx.Request.Form *)
  | OLog (line : gostr).                  (* logx.Infof, logx.Error: a line is logged *)
Definition ans (o : op) : Type :=
  match o with
  | OHeaderGet _ => gostr
  | OWritten => bool
  | OStatus => Z
  | OFullPath => gostr
  | OParams => option Params
  | OGet _ => V
  | OGetMaybe _ => option V
  | ORequest => request
  | OBodyRead _ => gostr
  | OBodyReadAll => gostr * bool
  | OForm => option (gmap gostr (list gostr))
  | _ => unit
  end.

(** A handler's code.  [Try b k]: run b with a deferred function k, which is
    given how b ended (None: normally, Some v: panicking with v) and decides
    whether to go on panicking.  Programs are well-founded: handlers that do not
    terminate, and handlers that go on in another goroutine, are not modelled. *)
Inductive prog :=
  | PRet
  | PPanic (v : pval)
  | PDo (o : op) (k : ans o -> prog)
  | PNext (k : prog)                      (* ctx.Next(), then k *)
  | PTry (b : prog) (k : option pval -> prog).

(** How an operation ends. *)
Inductive outcome (X : Type) := Norm (x : X) | Throw (v : pval).
Arguments Norm {X} x.
Arguments Throw {X} v.

(** ** What happens while a request is served, in order (ghost) *)
Inductive event :=
  | EvStart (i : nat)                          (* the handler at position i is called *)
  | EvEnd (i : nat)                            (* it returns *)
  | EvNext                                     (* a handler calls ctx.Next() *)
  | EvCall (o : op) (r : outcome (ans o))      (* another operation, and how it ended *)
  | EvSend (code : Z)                          (* WriteHeader of the underlying writer is called *)
  | EvData (data : gostr).                     (* Write of the underlying writer is called *)

(** a connection, and what has happened on it *)
Record conn := mkConn {
  cn_req : request;
  cn_rw : rwstate;
  cn_body : rbody;                                   (* the request body *)
  cn_form : option (gmap gostr (list gostr));        (* Request.Form, nil before parsing *)
  cn_log : list event                                (* ghost, latest last *)
}.

(** ** Context objects *)

(** context.go:14-31.  [x_conn] is the connection whose Request and
    ResponseWriter the object holds; [x_end] stands for endNode together with
    its matchNode. *)
Record ctxobj := mkCtx {
  x_env : option (gmap gostr V);
  x_params : option Params;
  x_conn : option nat;
  x_handlers : list (handler A);
  x_hlen : nat;
  x_index : nat;
  x_written : bool;
  x_status : Z;
  x_end : option (enode (handler A) * option (route A));
  x_parsed : bool
}.
(** context.go:33-35 *)
Definition newContext : ctxobj := mkCtx None None None [] 0 0 false 0 None false.
(** context.go:37-45 *)
Definition reset (x : ctxobj) : ctxobj :=
  mkCtx (x_env x) (x_params x) (x_conn x) (x_handlers x) (x_hlen x) 0 false 0 None false.

Definition set_index (x : ctxobj) (i : nat) : ctxobj :=
  mkCtx (x_env x) (x_params x) (x_conn x) (x_handlers x) (x_hlen x) i (x_written x) (x_status x) (x_end x) (x_parsed x).
Definition set_written (x : ctxobj) (code : Z) : ctxobj :=
  mkCtx (x_env x) (x_params x) (x_conn x) (x_handlers x) (x_hlen x) (x_index x) true code (x_end x) (x_parsed x).
Definition set_env (x : ctxobj) (m : gmap gostr V) : ctxobj :=
  mkCtx (Some m) (x_params x) (x_conn x) (x_handlers x) (x_hlen x) (x_index x) (x_written x) (x_status x) (x_end x) (x_parsed x).
Definition set_params (x : ctxobj) (m : option Params) : ctxobj :=
  mkCtx (x_env x) m (x_conn x) (x_handlers x) (x_hlen x) (x_index x) (x_written x) (x_status x) (x_end x) (x_parsed x).
Definition set_conn (x : ctxobj) (c : nat) : ctxobj :=
  mkCtx (x_env x) (x_params x) (Some c) (x_handlers x) (x_hlen x) (x_index x) (x_written x) (x_status x) (x_end x) (x_parsed x).
Definition set_end (x : ctxobj) (e : option (enode (handler A) * option (route A))) : ctxobj :=
  mkCtx (x_env x) (x_params x) (x_conn x) (x_handlers x) (x_hlen x) (x_index x) (x_written x) (x_status x) e (x_parsed x).
Definition set_handlers (x : ctxobj) (hs : list (handler A)) : ctxobj :=
  mkCtx (x_env x) (x_params x) (x_conn x) hs (length hs) (x_index x) (x_written x) (x_status x) (x_end x) (x_parsed x).
Definition set_parsed (x : ctxobj) : ctxobj :=
  mkCtx (x_env x) (x_params x) (x_conn x) (x_handlers x) (x_hlen x) (x_index x) (x_written x) (x_status x) (x_end x) true.

Definition set_rw (c : conn) (w : rwstate) : conn := mkConn (cn_req c) w (cn_body c) (cn_form c) (cn_log c).
Definition set_hdr (c : conn) (h : header) : conn :=
  set_rw c (mkRw h (rw_sent (cn_rw c)) (rw_body (cn_rw c))).
Definition set_body (c : conn) (b : rbody) : conn := mkConn (cn_req c) (cn_rw c) b (cn_form c) (cn_log c).
Definition log (c : conn) (e : event) : conn :=
  mkConn (cn_req c) (cn_rw c) (cn_body c) (cn_form c) (cn_log c ++ [e]).

(** Two functions of the standard library: http.DetectContentType; and form
    parsing, Request.ParseMultipartForm (true) or Request.ParseForm (false) of a
    request with that body (the bytes, and whether they end with io.EOF), which
    gives the form, whether there was no error, and the rest of the body.  The text of
    the error, which the panic of ParseFormOrMultipartForm ends with, is left out. *)
Variable sniff : gostr -> gostr.
Variable parse_form : bool -> request -> gostr * bool -> gmap gostr (list gostr) * bool * gostr.

(** content.go:334-335 *)
Definition is_multipart (r : request) : bool :=
  (seqb (rq_method r) (L "POST") || seqb (rq_method r) (L "PUT") || seqb (rq_method r) (L "PATCH")) &&
  contains (L "multipart/form-data") (h_get (rq_header r) (L "Content-Type")).

(** net/http server.go response.WriteHeader *)
Definition raw_WriteHeader (code : Z) (c : conn) : outcome unit * conn :=
  let c := log c (EvSend code) in
  match rw_sent (cn_rw c) with
  | Some _ => (Norm tt, c)
  | None =>
      if valid_code code then
        (Norm tt, set_rw c (mkRw (rw_hdr (cn_rw c)) (Some (code, rw_hdr (cn_rw c))) (rw_body (cn_rw c))))
      else (Throw (Some (L "invalid WriteHeader code")), c)
  end.
(** net/http server.go response.Write *)
Definition raw_Write (data : gostr) (c : conn) : conn :=
  let c := log c (EvData data) in
  let w := cn_rw c in
  let w := match rw_sent w with
           | Some _ => w
           | None => mkRw (rw_hdr w) (Some (200, rw_hdr w)) (rw_body w)
           end in
  match rw_sent w with
  | Some (code, h) => if body_allowed code then set_rw c (mkRw (rw_hdr w) (Some (code, h)) (rw_body w ++ data))
                      else set_rw c w
  | None => set_rw c w
  end.

(** context.go:71-79 WriteHeader *)
Definition ctx_WriteHeader (code : Z) (x : ctxobj) (c : conn) : outcome unit * (ctxobj * conn) :=
  if x_written x then (Norm tt, (x, c))
  else let x := set_written x code in
       let '(o, c) := raw_WriteHeader code c in (o, (x, c)).

(** context.go:81-90 Write; the results of the underlying Write are left out *)
Definition ctx_Write (data : gostr) (x : ctxobj) (c : conn) : outcome unit * (ctxobj * conn) :=
  let '(o, (x, c)) :=
    (if negb (x_written x) then
       let h := rw_hdr (cn_rw c) in
       let c := if negb (length data =? 0)%nat && seqb (h_get h (L "Content-Type")) []
                then set_hdr c (h_set h (L "Content-Type") (sniff data)) else c in
       ctx_WriteHeader 200 x c
     else (Norm tt, (x, c))) in
  match o with
  | Norm _ => (Norm tt, (x, raw_Write data c))
  | Throw v => (Throw v, (x, c))
  end.

Definition panic_nil_map : pval := Some (L "assignment to entry in nil map").

(** one operation *)
Definition do_op (o : op) (x : ctxobj) (c : conn) : outcome (ans o) * (ctxobj * conn) :=
  match o return outcome (ans o) * (ctxobj * conn) with
  | OWriteHeader code => ctx_WriteHeader code x c
  | OWrite data => ctx_Write data x c
  | OHeaderGet k => (Norm (h_get (rw_hdr (cn_rw c)) k), (x, c))
  | OHeaderSet k v => (Norm tt, (x, set_hdr c (h_set (rw_hdr (cn_rw c)) k v)))
  | OHeaderAdd k v => (Norm tt, (x, set_hdr c (h_add (rw_hdr (cn_rw c)) k v)))
  | OHeaderDel k => (Norm tt, (x, set_hdr c (h_del (rw_hdr (cn_rw c)) k)))
  | ORawWriteHeader code => let '(o, c) := raw_WriteHeader code c in (o, (x, c))
  | ORawWrite data => (Norm tt, (x, raw_Write data c))
  | OWritten => (Norm (x_written x), (x, c))          (* context.go:63-65 *)
  | OStatus => (Norm (x_status x), (x, c))            (* context.go:67-69 *)
  | OFullPath =>                                       (* content.go:314-320 *)
      match x_end x with
      | None => (Norm [], (x, c))
      | Some (_, Some rt) => (Norm (rt_uri rt), (x, c))
      | Some (_, None) => (Throw (Some (L "nil pointer dereference")), (x, c))
      end
  | OParams => (Norm (x_params x), (x, c))
  | OParamPut k v =>
      match x_params x with
      | None => (Throw panic_nil_map, (x, c))
      | Some m => (Norm tt, (set_params x (Some (<[k := v]> m)), c))
      end
  | OSet n v =>                                        (* environ.go:59-65 *)
      match x_env x with
      | None => (Throw panic_nil_map, (x, c))
      | Some m => match m !! n with
                  | Some _ => (Throw (Some (L "double Environ: " ++ n)), (x, c))
                  | None => (Norm tt, (set_env x (<[n := v]> m), c))
                  end
      end
  | OGet n =>                                          (* environ.go:68-73 *)
      match x_env x ≫= (.!! n) with
      | Some v => (Norm v, (x, c))
      | None => (Throw (Some (L "Environ not exist: " ++ n)), (x, c))
      end
  | OGetMaybe n => (Norm (x_env x ≫= (.!! n)), (x, c)) (* environ.go:77-80 *)
  | OEnvPut n v =>
      match x_env x with
      | None => (Throw panic_nil_map, (x, c))
      | Some m => (Norm tt, (set_env x (<[n := v]> m), c))
      end
  | ORequest => (Norm (cn_req c), (x, c))
  | OBodyRead n => (Norm (take n (bd_data (cn_body c))), (x, set_body c (bd_left (cn_body c) (drop n (bd_data (cn_body c))))))
  | OBodyReadAll => (Norm (bd_all (cn_body c)), (x, set_body c (bd_left (cn_body c) [])))
  | OBodyClose => (Norm tt, (x, set_body c (bd_close (cn_body c))))
  | OBodySet data => (Norm tt, (x, set_body c (mkBody data FMem)))
  | OParseForm =>                                      (* content.go:328-344 *)
      if x_parsed x then (Norm tt, (x, c))
      else
        let x := set_parsed x in
        let '(f, ok, rest) := parse_form (is_multipart (cn_req c)) (cn_req c) (bd_all (cn_body c)) in
        let c := mkConn (cn_req c) (cn_rw c) (bd_left (cn_body c) rest) (Some f) (cn_log c) in
        if ok : bool then (Norm tt, (x, c)) else
          (Throw (Some (if is_multipart (cn_req c) then L "parseMultipartForm error:" else L "parseForm error:")), (x, c))
  | OForm => (Norm (cn_form c), (x, c))
  | OLog line => (Norm tt, (x, c))                     (* the line is in the log *)
  end.

(** the same, recorded *)
Definition call (o : op) (x : ctxobj) (c : conn) : outcome (ans o) * (ctxobj * conn) :=
  let '(r, (x, c)) := do_op o x c in (r, (x, log c (EvCall o r))).

(** ** Running a chain *)

(** the code of a handler value; engine.go:24-35: the wrappers call it *)
Variable code : handler A -> prog.

(** How the execution of a program or of the chain ends. *)
Inductive ending := EDone | EThrow (v : pval) | EStuck.

(** a program; [next] is ctx.Next *)
Fixpoint pexec (next : ctxobj -> conn -> ending * (ctxobj * conn)) (p : prog)
    (x : ctxobj) (c : conn) : ending * (ctxobj * conn) :=
  match p with
  | PRet => (EDone, (x, c))
  | PPanic v => (EThrow v, (x, c))
  | PDo o k =>
      match call o x c with
      | (Norm a, (x, c)) => pexec next (k a) x c
      | (Throw v, (x, c)) => (EThrow v, (x, c))
      end
  | PNext k =>
      match next x c with
      | (EDone, (x, c)) => pexec next k x c
      | r => r
      end
  | PTry b k =>
      match pexec next b x c with
      | (EDone, (x, c)) => pexec next (k None) x c
      | (EThrow v, (x, c)) => pexec next (k (Some v)) x c
      | r => r
      end
  end.

(** context.go:52-61 run, and context.go:47-50 Next.  [fuel] bounds the number of
    handlers still to start; the index grows with each of them.  The remaining
    loop of run continues after a handler that did not write. *)
Fixpoint crun (fuel : nat) (x : ctxobj) (c : conn) : ending * (ctxobj * conn) :=
  if (x_index x <? x_hlen x)%nat then
    match fuel with
    | O => (EStuck, (x, c))
    | S fuel =>
        match x_handlers x !! x_index x with
        | None => (EThrow (Some (L "index out of range")), (x, c))
        | Some h =>
            let i := x_index x in
            let next := fun x c => crun fuel (set_index x (S (x_index x))) (log c EvNext) in
            match pexec next (code h) x (log c (EvStart i)) with
            | (EDone, (x, c)) =>
                let x := set_index x (S (x_index x)) in
                let c := log c (EvEnd i) in
                if x_written x then (EDone, (x, c)) else crun fuel x c
            | r => r
            end
        end
    end
  else (EDone, (x, c)).

End Ctx.
Arguments Norm {X} x.
Arguments Throw {X} v.
Arguments op : clear implicits.
Arguments prog : clear implicits.
Arguments ctxobj : clear implicits.
Arguments event : clear implicits.
Arguments conn : clear implicits.
