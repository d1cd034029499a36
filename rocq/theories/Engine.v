(** Serving one request: Engine.ServeHTTP of engine.go. *)
From Verif Require Import Base GoStr Strconv Pattern Tree Header Router Ctx.
Local Open Scope Z_scope.

Section Engine.
Context {A V : Type}.
Variable re_find : gostr -> gostr -> option (list gostr).
Variable sniff : gostr -> gostr.
Variable parse_form : bool -> request -> gostr * bool -> gmap gostr (list gostr) * bool * gostr.
Variable code : handler A -> prog V.

(** http.Request.ProtoAtLeast(1, 1) *)
Definition proto_11 (r : request) : bool :=
  (1 <? rq_major r)%nat || ((rq_major r =? 1) && (1 <=? rq_minor r))%nat.

(** engine.go:85-94: the status of a refusal, or the index of the method *)
Definition refusal (r : request) : Z + nat :=
  if negb (proto_11 r) || seqb (rq_uri r) (L "*") || seqb (rq_method r) (L "CONNECT") then inl 406
  else match MethodIndex (rq_method r) with
       | None => inl 405
       | Some i => inr i
       end.

(** engine.go:102-110: endNode (with its matchNode), and Params, where [old] is
    what Params holds before *)
Definition find_node (e : engine A) (i : nat) (path : gostr) (old : option Params)
  : option (enode (handler A) * option (route A)) * option Params :=
  match en_routers e !! i with
  | None => (None, old)     (* the array has 8 elements *)
  | Some m =>
      match (if o_static (en_options e) then m_static m !! path else None) with
      | Some n => (Some (n, m_match m !! e_id n), old)
      | None =>
          let '(n, ps) := Match re_find (m_tree m) path in
          ((fun n => (n, m_match m !! e_id n)) <$> n, ps)
      end
  end.

(** engine.go:97-127: the context [x] made ready for a request; false if there
    is nothing to run *)
Definition setup (e : engine A) (i : nat) (id : nat) (c : conn V) (x : ctxobj A V) : ctxobj A V * bool :=
  let x := set_conn (reset x) id in
  let '(n, ps) := find_node e i (rq_path (cn_req c)) (x_params x) in
  let x := set_params (set_end x n) ps in
  match n with
  | None => match o_nofound (en_options e) with
            | [] => (x, false)
            | hs => (set_handlers (set_env x ∅) hs, true)
            end
  | Some (n, _) => (set_handlers (set_env x ∅) (e_handlers n), true)
  end.

(** engine.go:84-132.  [id] names the connection, [x] is the context that the
    pool gives.  Result: how it ends, the context that goes back to the pool, and
    the connection. *)
Definition ServeHTTP (e : engine A) (id : nat) (x : ctxobj A V) (c : conn V)
  : ending * option (ctxobj A V) * conn V :=
  match refusal (cn_req c) with
  | inl code =>
      let '(o, c) := raw_WriteHeader code c in
      (match o with Norm _ => EDone | Throw v => EThrow v end, None, c)
  | inr i =>
      let '(x, go) := setup e i id c x in
      let '(r, (x, c)) :=
        (if go : bool then crun sniff parse_form code (x_hlen x) x c
         else match ctx_WriteHeader 404 x c with
              | (Norm _, s) => (EDone, s)
              | (Throw v, s) => (EThrow v, s)
              end) in
      (r, match r with EDone => Some x | _ => None end, c)
  end.

(** A request as it arrives. *)
Definition arrive (r : request) (body : rbody) : conn V := mkConn r rw_new body None [].

(** What the client of net/http gets after ServeHTTP returned: a response without
    a header is sent with 200; a body without Content-Type (nor Content-Encoding
    or Transfer-Encoding) gets a guessed one (http.DetectContentType looks at the
    first 512 bytes only). *)
Definition finish (w : rwstate) : Z * header * gostr :=
  let '(code, h) := match rw_sent w with Some s => s | None => (200, rw_hdr w) end in
  (code,
   if negb (length (rw_body w) =? 0)%nat && bool_decide (h !! L "Content-Type" = None) &&
      seqb (h_get h (L "Content-Encoding")) [] && seqb (h_get h (L "Transfer-Encoding")) []
   then h_set h (L "Content-Type") (sniff (rw_body w)) else h,
   rw_body w).

End Engine.

(** ** Invoking a handler value *)
Section Invoke.
Context {A V : Type}.
(** the code of water handlers, and of net/http handlers *)
Variable water_code : A -> prog V.
Variable http_code : A -> request -> prog V.
(** engine.go:15-20 and 24-35.  A net/http handler is called with the Context as
    its ResponseWriter and with ctx.Request.  Simplification: it is not prevented
    here from using other methods of the Context (it could, by a type assertion). *)
Definition invoke (h : handler A) : prog V :=
  match h with
  | HHandler a | HFuncCtx a => water_code a
  | HHttp a | HHttpFunc a => PDo ORequest (fun r => http_code a r)
  end.
End Invoke.
