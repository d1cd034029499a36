(** Properties of routers made by Default(). *)
From Verif Require Import Base GoStr Strconv Pattern Tree TreeSpec Header Router RouterSpec Ctx CtxFacts TraceSpec
  Engine EngineSpec Content Middleware MiddlewareSpec RecoveryFacts DefaultFacts ExampleRegexp ExampleRouter ExampleServe PropMiddleware.
Local Open Scope Z_scope.

(** ** The example handlers *)
Definition dx_code (h : handler nat) : prog gostr :=
  match h with
  | HHandler 0%nat => Logger mx_lf 4 false true
  | HHandler 1%nat => Recovery false (fun v => L "crash: " ++ v)
  | HFuncCtx 4%nat => PPanic (Some (L "boom"))
  | HFuncCtx 13%nat => String_ 200 (L "hello") PRet
  | _ => PRet
  end.
Notation dx_run e r := (ServeHTTP ex_find ex_sniff ex_form dx_code e 0 mx_new (arrive r no_body)).
Notation dx_made := [RNew; RUse 0 [IHandler 0%nat]; RUse 0 [IHandler 1%nat]].

(** ** C79 *)
(** Default() is a new router on which Logger() and Recovery() are used in that
    order; the theorems below are about every registration that starts so. *)
Theorem C79_default_registers : forall (A : Type) (lg rc : A),
  run_ops [RNew; RUse 0 [IHandler lg]; RUse 0 [IHandler rc]] [] = Default lg rc [].
Proof. exact @default_ops. Qed.
Print Assumptions C79_default_registers.

(** Every route of every router or sub router of it is handled by the Before
    handlers, then Logger, then Recovery, then all that is specific to the route. *)
Theorem C79_default_chain : forall (A : Type) re_ok (lg rc : A) ops opts e v,
  engine_of re_ok ([RNew; RUse 0 [IHandler lg]; RUse 0 [IHandler rc]] ++ ops) 0 opts e -> v ∈ routes e ->
  exists bs rest, rt_handlers v = bs ++ HHandler lg :: HHandler rc :: rest /\ Forall2 converts (befores (history ops) 0) bs.
Proof. exact @default_chain. Qed.
Print Assumptions C79_default_chain.
Example C79_chain_case : exists e,
  engine_of ex_ok (dx_made ++ [RBefore 0 [IFuncCtx 9%nat]; RGroup 0 (L "/a") [GSub [RUse 1 [IFuncCtx 8%nat]; RHandle 1 0 (L "/b") [IFuncCtx 4%nat]]]]) 0 [] e /\
  map (fun v => (rt_uri v, rt_handlers v)) (routes e) =
    [(L "/a/b", [HFuncCtx 9%nat; HHandler 0%nat; HHandler 1%nat; HFuncCtx 8%nat; HFuncCtx 4%nat])].
Proof.
  edestruct (with_engine_split ex_ok (dx_made ++ [RBefore 0 [IFuncCtx 9%nat]; RGroup 0 (L "/a") [GSub [RUse 1 [IFuncCtx 8%nat];
    RHandle 1 0 (L "/b") [IFuncCtx 4%nat]]]]) [] (fun e => map (fun v => (rt_uri v, rt_handlers v)) (routes e)))
    as (e & He & Hs); [vm_compute; reflexivity|]. by exists e.
Qed.

(** Not every panic of a handler is contained.  A Before handler runs outside
    Recovery: *)
Theorem C79_before_refuted :
  exists (ops : list (rop nat)) e, engine_of ex_ok (dx_made ++ ops) 0 [] e /\
    mx_view [] (dx_run e (mx_req (L "GET") [])) = (EThrow (Some (L "boom")), 200, [], [], [0%nat]).
Proof.
  edestruct (with_engine_split ex_ok (dx_made ++ [RBefore 0 [IFuncCtx 4%nat]; RHandle 0 0 (L "/") [IFuncCtx 13%nat]]) []
    (fun e => mx_view [] (dx_run e (mx_req (L "GET") [])))) as (e & He & Hs); [vm_compute; reflexivity|].
  by exists [RBefore 0 [IFuncCtx 4%nat]; RHandle 0 0 (L "/") [IFuncCtx 13%nat]], e.
Qed.
Print Assumptions C79_before_refuted.
(** and so does a handler for paths that no route matches: *)
Theorem C79_nofound_refuted :
  exists (ops : list (rop nat)) opts e, engine_of ex_ok (dx_made ++ ops) 0 opts e /\
    mx_view [] (dx_run e (mx_req (L "GET") [])) = (EThrow (Some (L "boom")), 200, [], [], [0%nat]).
Proof.
  edestruct (with_engine_split ex_ok (dx_made ++ [RHandle 0 0 (L "/a") [IFuncCtx 13%nat]]) [WithNoFoundHandlers [IFuncCtx 4%nat]]
    (fun e => mx_view [] (dx_run e (mx_req (L "GET") [])))) as (e & He & Hs); [vm_compute; reflexivity|].
  by exists [RHandle 0 0 (L "/a") [IFuncCtx 13%nat]], [WithNoFoundHandlers [IFuncCtx 4%nat]], e.
Qed.
Print Assumptions C79_nofound_refuted.

(** What holds: without not-found handlers, and with Before handlers that are calm
    (do not panic of themselves and call Next at most once), no request makes
    ServeHTTP panic, whatever the registered middlewares and handlers do; and when
    a handler was started, the request was answered as in C21. *)
Theorem C79_contains_partial :
  forall (A V : Type) re_ok re_find sniff parse_form (code : handler A -> prog V) (lg rc : A) ops opts e id x r body en px c'
    lf limit close lb stable crash,
  engine_of re_ok ([RNew; RUse 0 [IHandler lg]; RUse 0 [IHandler rc]] ++ ops) 0 opts e ->
  code (HHandler lg) = Logger lf limit close lb -> code (HHandler rc) = Recovery stable crash ->
  (forall b h, b ∈ befores (history ops) 0 -> converts b h -> calm true (code h)) ->
  (forall us, WithNoFoundHandlers us ∉ opts) ->
  ServeHTTP re_find sniff parse_form code e id x (arrive r body) = (en, px, c') ->
  en = EDone /\
  (starts (cn_log c') <> [] -> exists pre h post, dispatched re_ok re_find e r (pre ++ h :: post) /\ code h = Recovery stable crash /\
    (length pre ∉ starts (cn_log c') /\ responded (cn_log c') \/
     rescued code (pre ++ h :: post) (length pre) (fun v => if stable then [] else crash v) (fun v => L "panic : " ++ crash v) [] (cn_log c'))).
Proof. exact @default_contains. Qed.
Print Assumptions C79_contains_partial.
Example C79_contains_case :
  let ops := [RBefore 0 [IFuncCtx 9%nat]; RHandle 0 0 (L "/") [IFuncCtx 4%nat]] in
  exists e, engine_of ex_ok (dx_made ++ ops) 0 [] e /\
  mx_view [] (dx_run e (mx_req (L "GET") [])) = (EDone, 500, [], L "crash: boom", [0%nat; 1%nat; 2%nat; 3%nat]) /\
  (exists b, b ∈ befores (history ops) 0) /\
  (forall b h, b ∈ befores (history ops) 0 -> converts b h -> calm true (dx_code h)).
Proof.
  intros ops. edestruct (with_engine_split ex_ok (dx_made ++ ops) []
    (fun e => mx_view [] (dx_run e (mx_req (L "GET") [])))) as (e & He & Hs); [vm_compute; reflexivity|].
  exists e. split; [exact He|]. split; [exact Hs|].
  change (befores (history ops) 0) with [@IFuncCtx nat 9%nat].
  split; [exists (IFuncCtx 9%nat); by apply elem_of_list_singleton|].
  intros b h ->%elem_of_list_singleton Hc. inversion Hc; subst. by constructor.
Qed.
