(** An Engine as handler of another Engine: engine.go:84-132 called by the wrapper
    of engine.go:29-31 with a Context as its ResponseWriter (an *Engine is an
    http.Handler).  The Context of the inner engine is built on that of the outer
    one: its ResponseWriter is the outer Context (engine.go:99), so what it writes
    goes through context.go:71-90 twice. *)
From Verif Require Import Base GoStr Strconv Pattern Tree Header Router Ctx Engine.
Local Open Scope Z_scope.

Section Mount.
Context {A V : Type}.
Variable re_find : gostr -> gostr -> option (list gostr).
Variable sniff : gostr -> gostr.
Variable parse_form : bool -> request -> gostr * bool -> gmap gostr (list gostr) * bool * gostr.
(** handlers of the inner engine *)
Variable code : handler A -> prog V.
Implicit Types x y : ctxobj A V.
Implicit Types c : conn V.

(** context.go:71-79 WriteHeader of the inner Context x, whose ResponseWriter is the
    outer Context y *)
Definition sub_WriteHeader (n : Z) x y c : outcome unit * (ctxobj A V * (ctxobj A V * conn V)) :=
  if x_written x then (Norm tt, (x, (y, c)))
  else let x := set_written x n in
       let '(o, yc) := ctx_WriteHeader n y c in (o, (x, yc)).

(** context.go:81-90 Write of the inner Context *)
Definition sub_Write (data : gostr) x y c : outcome unit * (ctxobj A V * (ctxobj A V * conn V)) :=
  let '(o, (x, (y, c))) :=
    (if negb (x_written x) then
       let h := rw_hdr (cn_rw c) in
       let c := if negb (length data =? 0)%nat && seqb (h_get h (L "Content-Type")) []
                then set_hdr c (h_set h (L "Content-Type") (sniff data)) else c in
       sub_WriteHeader 200 x y c
     else (Norm tt, (x, (y, c)))) in
  match o with
  | Norm _ => let '(o, yc) := ctx_Write sniff data y c in (o, (x, yc))
  | Throw v => (Throw v, (x, (y, c)))
  end.

(** one operation of a handler of the inner engine (compare Ctx.do_op): what goes to
    ctx.ResponseWriter goes to the outer Context *)
Definition sub_op (o : op V) x y c : outcome (ans o) * (ctxobj A V * (ctxobj A V * conn V)) :=
  match o return outcome (ans o) * (ctxobj A V * (ctxobj A V * conn V)) with
  | OWriteHeader n => sub_WriteHeader n x y c
  | OWrite data => sub_Write data x y c
  | ORawWriteHeader n => let '(o, yc) := ctx_WriteHeader n y c in (o, (x, yc))
  | ORawWrite data => let '(o, yc) := ctx_Write sniff data y c in (o, (x, yc))
  | o => let '(r, (x, c)) := do_op sniff parse_form o x c in (r, (x, (y, c)))
  end.
Definition sub_call (o : op V) x y c : outcome (ans o) * (ctxobj A V * (ctxobj A V * conn V)) :=
  let '(r, (x, (y, c))) := sub_op o x y c in (r, (x, (y, log c (EvCall o r)))).

(** Ctx.pexec and Ctx.crun for the inner engine *)
Fixpoint sub_exec (next : ctxobj A V -> ctxobj A V -> conn V -> ending * (ctxobj A V * (ctxobj A V * conn V))) (p : prog V)
    x y c : ending * (ctxobj A V * (ctxobj A V * conn V)) :=
  match p with
  | PRet => (EDone, (x, (y, c)))
  | PPanic v => (EThrow v, (x, (y, c)))
  | PDo o k =>
      match sub_call o x y c with
      | (Norm a, (x, (y, c))) => sub_exec next (k a) x y c
      | (Throw v, s) => (EThrow v, s)
      end
  | PNext k =>
      match next x y c with
      | (EDone, (x, (y, c))) => sub_exec next k x y c
      | r => r
      end
  | PTry b k =>
      match sub_exec next b x y c with
      | (EDone, (x, (y, c))) => sub_exec next (k None) x y c
      | (EThrow v, (x, (y, c))) => sub_exec next (k (Some v)) x y c
      | r => r
      end
  end.
Fixpoint sub_run (fuel : nat) x y c : ending * (ctxobj A V * (ctxobj A V * conn V)) :=
  if (x_index x <? x_hlen x)%nat then
    match fuel with
    | O => (EStuck, (x, (y, c)))
    | S fuel =>
        match x_handlers x !! x_index x with
        | None => (EThrow (Some (L "index out of range")), (x, (y, c)))
        | Some h =>
            let i := x_index x in
            let next := fun x y c => sub_run fuel (set_index x (S (x_index x))) y (log c EvNext) in
            match sub_exec next (code h) x y (log c (EvStart i)) with
            | (EDone, (x, (y, c))) =>
                let x := set_index x (S (x_index x)) in
                let c := log c (EvEnd i) in
                if x_written x then (EDone, (x, (y, c))) else sub_run fuel x y c
            | r => r
            end
        end
    end
  else (EDone, (x, (y, c))).

(** engine.go:84-132 with the outer Context y for rw.  Result: how it ends, the inner
    Context that goes back to the pool, the outer Context and the connection. *)
Definition sub_ServeHTTP (e : engine A) (id : nat) x y c : ending * option (ctxobj A V) * (ctxobj A V * conn V) :=
  match refusal (cn_req c) with
  | inl n =>
      let '(o, yc) := ctx_WriteHeader n y c in
      (match o with Norm _ => EDone | Throw v => EThrow v end, None, yc)
  | inr i =>
      let '(x, go) := setup re_find e i id c x in
      let '(r, (x, yc)) :=
        (if go : bool then sub_run (x_hlen x) x y c
         else match sub_WriteHeader 404 x y c with
              | (Norm _, s) => (EDone, s)
              | (Throw v, s) => (EThrow v, s)
              end) in
      (r, match r with EDone => Some x | _ => None end, yc)
  end.

(** ** The outer engine *)
(** a handler of the outer engine: code, or an engine, here with the Context that
    its pool gives for this request *)
Inductive hcode := HCode (p : prog V) | HEngine (e : engine A) (id : nat) (x : ctxobj A V).
Variable outer : handler A -> hcode.

(** Ctx.crun and Engine.ServeHTTP for such handlers *)
Definition run_handler (next : ctxobj A V -> conn V -> ending * (ctxobj A V * conn V)) (h : hcode) y c : ending * (ctxobj A V * conn V) :=
  match h with
  | HCode p => pexec sniff parse_form next p y c
  | HEngine e id x => let '(r, _, yc) := sub_ServeHTTP e id x y c in (r, yc)
  end.
Fixpoint outer_run (fuel : nat) y c : ending * (ctxobj A V * conn V) :=
  if (x_index y <? x_hlen y)%nat then
    match fuel with
    | O => (EStuck, (y, c))
    | S fuel =>
        match x_handlers y !! x_index y with
        | None => (EThrow (Some (L "index out of range")), (y, c))
        | Some h =>
            let i := x_index y in
            let next := fun y c => outer_run fuel (set_index y (S (x_index y))) (log c EvNext) in
            match run_handler next (outer h) y (log c (EvStart i)) with
            | (EDone, (y, c)) =>
                let y := set_index y (S (x_index y)) in
                let c := log c (EvEnd i) in
                if x_written y then (EDone, (y, c)) else outer_run fuel y c
            | r => r
            end
        end
    end
  else (EDone, (y, c)).
Definition outer_ServeHTTP (e : engine A) (id : nat) y c : ending * option (ctxobj A V) * conn V :=
  match refusal (cn_req c) with
  | inl n =>
      let '(o, c) := raw_WriteHeader n c in
      (match o with Norm _ => EDone | Throw v => EThrow v end, None, c)
  | inr i =>
      let '(y, go) := setup re_find e i id c y in
      let '(r, (y, c)) :=
        (if go : bool then outer_run (x_hlen y) y c
         else match ctx_WriteHeader 404 y c with
              | (Norm _, s) => (EDone, s)
              | (Throw v, s) => (EThrow v, s)
              end) in
      (r, match r with EDone => Some y | _ => None end, c)
  end.
End Mount.
Arguments hcode : clear implicits.
