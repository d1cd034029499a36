(** Requests served concurrently: the goroutines of net/http run
    Engine.ServeHTTP (engine.go:84-132) at the same time and share the pool of
    contexts.  One step is one statement of ServeHTTP, one turn of the loop of
    run, or one call of a handler on its Context; the steps of different requests
    interleave in any way. *)
From Verif Require Import Base GoStr Strconv Pattern Tree Header Router Ctx Engine.
Local Open Scope Z_scope.

Section Machine.
Context {A V : Type}.
Variable re_find : gostr -> gostr -> option (list gostr).
Variable sniff : gostr -> gostr.
Variable parse_form : bool -> request -> gostr * bool -> gmap gostr (list gostr) * bool * gostr.
Variable code : handler A -> prog V.
Variable e : engine A.

(** the stack of a goroutine, inside ctx.run *)
Inductive frame :=
  | FAfter (i : nat)                          (* context.go:55: the handler at i is running *)
  | FThen (q : prog V)                        (* a handler called ctx.Next() and goes on with q *)
  | FTry (q : option pval -> prog V).         (* a deferred function *)

(** where a goroutine is; [p] is its pointer to a context *)
Inductive ctrl :=
  | TStart                                    (* engine.go:85 *)
  | TGet (i : nat)                            (* engine.go:96 *)
  | TReset (i p : nat)                        (* engine.go:97 *)
  | TBind (i p : nat)                         (* engine.go:99-100 *)
  | TLookup (i p : nat)                       (* engine.go:102-110 *)
  | TReady (p : nat)                          (* engine.go:112-127 *)
  | TNotFound (p : nat)                       (* engine.go:116 *)
  | TLoop (p : nat) (k : list frame)          (* context.go:53, the head of the loop *)
  | TProg (p : nat) (q : prog V) (k : list frame)       (* in a handler *)
  | TRet (p : nat) (k : list frame)           (* run or a handler returns *)
  | TPanic (p : nat) (v : pval) (k : list frame)        (* a panic unwinds the stack *)
  | TPut (p : nat)                            (* engine.go:118, 131 *)
  | TEnd (en : ending).                       (* ServeHTTP has returned or panicked *)

(** the context a goroutine works on *)
Definition holds (k : ctrl) : option nat :=
  match k with
  | TReset _ p | TBind _ p | TLookup _ p | TReady p | TNotFound p | TLoop p _ | TProg p _ _ | TRet p _ | TPanic p _ _ | TPut p => Some p
  | TStart | TGet _ | TEnd _ => None
  end.

(** Goroutines, connections and inputs are numbered by the arrival of requests;
    contexts are objects with pointers to them; the pool holds pointers.
    [w_input] is ghost: the requests that arrived. *)
Record world := mkWorld {
  w_ctx : gmap nat (ctxobj A V);
  w_pool : list nat;
  w_conns : gmap nat (conn V);
  w_threads : gmap nat ctrl;
  w_input : gmap nat (request * rbody)
}.
Definition empty_world : world := mkWorld ∅ [] ∅ ∅ ∅.

(** A step of goroutine t that works on its context, which has the value x, and on
    the connection c; c is the one of the goroutine up to engine.go:110 and the one
    that the context refers to (ctx.Request, ctx.ResponseWriter) afterwards.
    engine.go:112-127 is one step. *)
Definition lstep (t : nat) (k : ctrl) (x : ctxobj A V) (c : conn V) : option (ctrl * ctxobj A V * conn V) :=
  match k with
  | TReset i p => Some (TBind i p, reset x, c)
  | TBind i p => Some (TLookup i p, set_conn x t, c)
  | TLookup i p =>
      let '(n, ps) := find_node re_find e i (rq_path (cn_req c)) (x_params x) in
      Some (TReady p, set_params (set_end x n) ps, c)
  | TReady p =>
      match x_end x with
      | None => match o_nofound (en_options e) with
                | [] => Some (TNotFound p, x, c)
                | hs => Some (TLoop p [], set_handlers (set_env x ∅) hs, c)
                end
      | Some (n, _) => Some (TLoop p [], set_handlers (set_env x ∅) (e_handlers n), c)
      end
  | TNotFound p =>
      match ctx_WriteHeader 404 x c with
      | (Norm _, (x, c)) => Some (TPut p, x, c)
      | (Throw v, (x, c)) => Some (TEnd (EThrow v), x, c)
      end
  | TLoop p k =>
      if (x_index x <? x_hlen x)%nat then
        match x_handlers x !! x_index x with
        | None => Some (TPanic p (Some (L "index out of range")) k, x, c)
        | Some h => Some (TProg p (code h) (FAfter (x_index x) :: k), x, log c (EvStart (x_index x)))
        end
      else Some (TRet p k, x, c)
  | TProg p q k =>
      match q with
      | PRet => Some (TRet p k, x, c)
      | PPanic v => Some (TPanic p v k, x, c)
      | PDo o f =>
          match call sniff parse_form o x c with
          | (Norm a, (x, c)) => Some (TProg p (f a) k, x, c)
          | (Throw v, (x, c)) => Some (TPanic p v k, x, c)
          end
      | PNext q => Some (TLoop p (FThen q :: k), set_index x (S (x_index x)), log c EvNext)
      | PTry b f => Some (TProg p b (FTry f :: k), x, c)
      end
  | TRet p k =>
      match k with
      | [] => Some (TPut p, x, c)
      | FAfter i :: k =>
          let x := set_index x (S (x_index x)) in
          let c := log c (EvEnd i) in
          if x_written x then Some (TRet p k, x, c) else Some (TLoop p k, x, c)
      | FThen q :: k => Some (TProg p q k, x, c)
      | FTry f :: k => Some (TProg p (f None) k, x, c)
      end
  | TPanic p v k =>
      match k with
      | [] => Some (TEnd (EThrow v), x, c)
      | FTry f :: k => Some (TProg p (f (Some v)) k, x, c)
      | _ :: k => Some (TPanic p v k, x, c)
      end
  | TStart | TGet _ | TPut _ | TEnd _ => None
  end.
(** the connection such a step works on *)
Definition target (t : nat) (k : ctrl) (x : ctxobj A V) : option nat :=
  match k with
  | TReset _ _ | TBind _ _ | TLookup _ _ => Some t
  | _ => x_conn x
  end.

(** The steps of goroutine t.  sync.Pool.Get returns some object of the pool, or a
    new one (also when the pool is not empty). *)
Inductive tstep (t : nat) (w : world) : world -> Prop :=
  | ts_refused c n o c' :
      w_threads w !! t = Some TStart -> w_conns w !! t = Some c -> refusal (cn_req c) = inl n ->
      raw_WriteHeader n c = (o, c') ->
      tstep t w (mkWorld (w_ctx w) (w_pool w) (<[t := c']> (w_conns w))
                   (<[t := TEnd (match o with Norm _ => EDone | Throw v => EThrow v end)]> (w_threads w)) (w_input w))
  | ts_accepted c i :
      w_threads w !! t = Some TStart -> w_conns w !! t = Some c -> refusal (cn_req c) = inr i ->
      tstep t w (mkWorld (w_ctx w) (w_pool w) (w_conns w) (<[t := TGet i]> (w_threads w)) (w_input w))
  | ts_new i p :
      w_threads w !! t = Some (TGet i) -> w_ctx w !! p = None ->
      tstep t w (mkWorld (<[p := newContext]> (w_ctx w)) (w_pool w) (w_conns w) (<[t := TReset i p]> (w_threads w)) (w_input w))
  | ts_reuse i p l1 l2 :
      w_threads w !! t = Some (TGet i) -> w_pool w = l1 ++ p :: l2 ->
      tstep t w (mkWorld (w_ctx w) (l1 ++ l2) (w_conns w) (<[t := TReset i p]> (w_threads w)) (w_input w))
  | ts_local k p x j c k' x' c' :
      w_threads w !! t = Some k -> holds k = Some p -> w_ctx w !! p = Some x ->
      target t k x = Some j -> w_conns w !! j = Some c -> lstep t k x c = Some (k', x', c') ->
      tstep t w (mkWorld (<[p := x']> (w_ctx w)) (w_pool w) (<[j := c']> (w_conns w)) (<[t := k']> (w_threads w)) (w_input w))
  | ts_put p :
      w_threads w !! t = Some (TPut p) ->
      tstep t w (mkWorld (w_ctx w) (p :: w_pool w) (w_conns w) (<[t := TEnd EDone]> (w_threads w)) (w_input w)).

(** Steps of the environment: a request arrives and net/http starts a goroutine
    for it; the garbage collector takes an object out of the pool. *)
Inductive estep (w : world) : world -> Prop :=
  | es_arrive t r body :
      w_threads w !! t = None ->
      estep w (mkWorld (w_ctx w) (w_pool w) (<[t := arrive r body]> (w_conns w)) (<[t := TStart]> (w_threads w))
                 (<[t := (r, body)]> (w_input w)))
  | es_drop p l1 l2 :
      w_pool w = l1 ++ p :: l2 ->
      estep w (mkWorld (w_ctx w) (l1 ++ l2) (w_conns w) (w_threads w) (w_input w)).

(** Executions, with the goroutine of each step (None: the environment). *)
Inductive execution : world -> list (option nat) -> world -> Prop :=
  | ex_nil w : execution w [] w
  | ex_thread w l w1 t w2 : execution w l w1 -> tstep t w1 w2 -> execution w (l ++ [Some t]) w2
  | ex_env w l w1 w2 : execution w l w1 -> estep w1 w2 -> execution w (l ++ [None]) w2.
Definition reachable (w : world) : Prop := exists l, execution empty_world l w.

End Machine.
Arguments frame : clear implicits.
Arguments ctrl : clear implicits.
Arguments world : clear implicits.
