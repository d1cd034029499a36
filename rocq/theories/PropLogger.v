(** Properties of the lines that Logger and Recovery write. *)
From Verif Require Import Base GoStr Strconv Util Pattern Tree TreeSpec Header Router RouterSpec Ctx CtxFacts TraceSpec
  Engine EngineSpec ServeTop ServeThms Content Middleware MiddlewareSpec RecoveryFacts LoggerFacts DefaultFacts LogFacts
  ExampleRegexp ExampleRouter ExampleServe PropMiddleware.
Local Open Scope Z_scope.

(** ** The example handlers *)
Definition nx_code (h : handler nat) : prog gostr :=
  match h with
  | HHandler 0%nat => Logger mx_lf 4 false true
  | HHandler 1%nat => Recovery true (fun v => L "crash: " ++ v)
  | HFuncCtx 4%nat => PPanic (Some (L "boom"))
  | HFuncCtx 5%nat => PDo (ORawWriteHeader 404) (fun _ => PRet)
  | HFuncCtx 13%nat => String_ 201 (L "hello") PRet
  | _ => PRet
  end.
Notation nx_run e r body := (ServeHTTP ex_find ex_sniff ex_form nx_code e 0 mx_new (arrive r (full_body body))).
Notation nx_made := [RNew; RUse 0 [IHandler 0%nat]; RUse 0 [IHandler 1%nat]].
(** the lines and the status that is delivered *)
Definition nx_view (y : ending * option (ctxobj nat gostr) * conn gostr) : ending * list gostr * Z :=
  let '(en, _, c) := y in (en, logged (cn_log c), fst (fst (finish ex_sniff (cn_rw c)))).
Definition nx_line (status : gostr) (body : gostr) : gostr :=
  L "[ water :  ] 2026-01-02 03:04:05 | " ++ status ++ L " |         1.5ms |        192.0.2.1 |     GET /" ++ body.
(** a route with Logger and the given handler only *)
Notation nx_ops h := [RNew; RHandle 0 0 (L "/") [IHandler 0%nat; IFuncCtx h]].

(** ** C85 *)
(** Not every request that Logger sees is logged: a panic passes through it. *)
Theorem C85_panic_refuted :
  exists (ops : list (rop nat)) e, engine_of ex_ok ops 0 [] e /\
    nx_view (nx_run e (mx_req (L "GET") []) []) = (EThrow (Some (L "boom")), [], 200).
Proof.
  edestruct (with_engine_split ex_ok (nx_ops 4%nat) [] (fun e => nx_view (nx_run e (mx_req (L "GET") []) [])))
    as (e & He & Hs); [vm_compute; reflexivity|]. by exists (nx_ops 4%nat), e.
Qed.
Print Assumptions C85_panic_refuted.
(** The status in the line is not always the one that the client gets: if no
    handler makes a response the client gets 200 and the line says 0; *)
Theorem C85_status_refuted :
  exists (ops : list (rop nat)) e, engine_of ex_ok ops 0 [] e /\
    nx_view (nx_run e (mx_req (L "GET") []) []) = (EDone, [nx_line (L "  0") []], 200).
Proof.
  edestruct (with_engine_split ex_ok (nx_ops 9%nat) [] (fun e => nx_view (nx_run e (mx_req (L "GET") []) [])))
    as (e & He & Hs); [vm_compute; reflexivity|]. by exists (nx_ops 9%nat), e.
Qed.
Print Assumptions C85_status_refuted.
(** and with Default(), a handler that uses the ResponseWriter of the Context sends
    404 while the line says 200. *)
Theorem C85_raw_refuted :
  exists (ops : list (rop nat)) e, engine_of ex_ok (nx_made ++ ops) 0 [] e /\
    nx_view (nx_run e (mx_req (L "GET") []) []) = (EDone, [nx_line (L "200") []], 404).
Proof.
  edestruct (with_engine_split ex_ok (nx_made ++ [RHandle 0 0 (L "/") [IFuncCtx 5%nat]]) [] (fun e => nx_view (nx_run e (mx_req (L "GET") []) [])))
    as (e & He & Hs); [vm_compute; reflexivity|]. by exists [RHandle 0 0 (L "/") [IFuncCtx 5%nat]], e.
Qed.
Print Assumptions C85_raw_refuted.

(** What Logger logs: after the lines of the handlers behind it, which run as they
    would alone, exactly one line if they come back and none if they panic; the
    status is what Status() gives (0 if no response was made through the Context),
    and of a JSON body the beginning follows on a new line. *)
Theorem C85_logger_line_partial :
  forall (A V : Type) re_ok re_find sniff parse_form (code : handler A -> prog V) ops r0 opts e id x r body en px c' lf limit lb,
  engine_of re_ok ops r0 opts e ->
  ServeHTTP re_find sniff parse_form code e id x (arrive r body) = (en, px, c') -> starts (cn_log c') <> [] ->
  (forall hs, dispatched re_ok re_find e r hs -> exists g hs', hs = g :: hs' /\ code g = Logger lf limit false lb) ->
  exists g hs ps n c, dispatched re_ok re_find e r (g :: hs) /\ code g = Logger lf limit false lb /\
    ran sniff parse_form code id hs ps n r (body_seen false lb limit r body) en c /\
    logged (cn_log c') = logged (cn_log c) ++
      match en with
      | EDone => [log_line lf (match first_code (cn_log c') with Some m => m | None => 0 end) r
                    (if decide (logs_body false lb r) then ascii_of_nat 10 :: take limit (bd_data body) else [])]
      | _ => []
      end.
Proof. exact @logger_logs. Qed.
Print Assumptions C85_logger_line_partial.
Example C85_line_case : exists e, engine_of ex_ok (nx_ops 13%nat) 0 [] e /\
  nx_view (nx_run e (mx_req (L "GET") [(L "Content-Type", L "application/json")]) (L "[1, 2]")) =
    (EDone, [nx_line (L "201") (ascii_of_nat 10 :: L "[1, ")], 201) /\
  forall hs, dispatched ex_ok ex_find e (mx_req (L "GET") [(L "Content-Type", L "application/json")]) hs ->
    exists g hs', hs = g :: hs' /\ nx_code g = Logger mx_lf 4 false true.
Proof.
  edestruct (with_engine_split ex_ok (nx_ops 13%nat) [] (fun e =>
    (nx_view (nx_run e (mx_req (L "GET") [(L "Content-Type", L "application/json")]) (L "[1, 2]")), chains e)))
    as (e & He & Hs); [vm_compute; reflexivity|]. apply pair_equal_spec in Hs as [Hv Hc].
  exists e. split; [exact He|]. split; [exact Hv|]. intros hs Hd. apply (dispatched_chains _ _ _ _ _ _ Hc) in Hd.
  rewrite !elem_of_cons, elem_of_nil in Hd. destruct Hd as [Hd|[]]. injection Hd as ->. by eexists _, _.
Qed.

(** With Default() and without Before and not-found handlers every request that is
    handed to handlers is logged: after a panic a line that tells it, and then the
    line of Logger, whose status is the first one asked for through the Context, or
    else 500 after a panic and 200 without one. *)
Theorem C85_default_logs :
  forall (A V : Type) re_ok re_find sniff parse_form (code : handler A -> prog V) (lg rc : A) ops opts e id x r body en px c'
    lf limit lb stable crash,
  engine_of re_ok ([RNew; RUse 0 [IHandler lg]; RUse 0 [IHandler rc]] ++ ops) 0 opts e ->
  code (HHandler lg) = Logger lf limit false lb -> code (HHandler rc) = Recovery stable crash ->
  befores (history ops) 0 = [] -> (forall us, WithNoFoundHandlers us ∉ opts) ->
  ServeHTTP re_find sniff parse_form code e id x (arrive r body) = (en, px, c') -> starts (cn_log c') <> [] ->
  en = EDone /\ exists hs ps n en2 c m,
    dispatched re_ok re_find e r (HHandler lg :: HHandler rc :: hs) /\
    ran sniff parse_form code id hs ps n r (body_seen false lb limit r body) en2 c /\
    first_code (cn_log c') = Some m /\ m = match first_code (cn_log c) with Some k => k | None => rescue en2 end /\
    logged (cn_log c') = logged (cn_log c) ++ match en2 with EThrow (Some v) => [L "panic : " ++ crash v] | _ => [] end ++
      [log_line lf m r (if decide (logs_body false lb r) then ascii_of_nat 10 :: take limit (bd_data body) else [])].
Proof. exact @default_logs. Qed.
Print Assumptions C85_default_logs.
(** If moreover no handler goes around the Context and all codes are valid, the
    status in the last line is the one that the client gets. *)
Theorem C85_default_status :
  forall (A V : Type) re_ok re_find sniff parse_form (code : handler A -> prog V) (lg rc : A) ops opts e id x r body en px c'
    lf limit lb stable crash,
  engine_of re_ok ([RNew; RUse 0 [IHandler lg]; RUse 0 [IHandler rc]] ++ ops) 0 opts e ->
  code (HHandler lg) = Logger lf limit false lb -> code (HHandler rc) = Recovery stable crash ->
  befores (history ops) 0 = [] -> (forall us, WithNoFoundHandlers us ∉ opts) ->
  ServeHTTP re_find sniff parse_form code e id x (arrive r body) = (en, px, c') -> starts (cn_log c') <> [] ->
  uses_ctx code e -> (forall l1 m o l2, cn_log c' = l1 ++ EvCall (OWriteHeader m) o :: l2 -> 100 <= m <= 999) ->
  exists ls m hd out text, logged (cn_log c') = ls ++ [log_line lf m r text] /\ finish sniff (cn_rw c') = (m, hd, out).
Proof. exact @default_status. Qed.
Print Assumptions C85_default_status.
Example C85_default_case :
  let ops := [RHandle 0 0 (L "/") [IFuncCtx 4%nat]] in
  exists e, engine_of ex_ok (nx_made ++ ops) 0 [] e /\ uses_ctx nx_code e /\
  nx_view (nx_run e (mx_req (L "GET") []) []) = (EDone, [L "panic : crash: boom"; nx_line (L "500") []], 500).
Proof.
  intros ops. edestruct (with_engine_split ex_ok (nx_made ++ ops) [] (fun e =>
    (nx_view (nx_run e (mx_req (L "GET") []) []), (map rt_handlers (routes e), o_nofound (en_options e)))))
    as (e & He & Hs); [vm_compute; reflexivity|]. apply pair_equal_spec in Hs as [Hv Hc]. apply pair_equal_spec in Hc as [Hc Hn].
  exists e. split; [exact He|]. split; [|exact Hv]. split.
  - intros v h Hv' Hh. assert (rt_handlers v ∈ map rt_handlers (routes e)) as Hin by (by apply elem_of_list_fmap_1).
    rewrite Hc in Hin. apply elem_of_list_singleton in Hin. rewrite Hin in Hh.
    rewrite !elem_of_cons, elem_of_nil in Hh. destruct Hh as [->|[->|[->|[]]]]; cbn [nx_code].
    + unfold Logger. split; [by intros []|]. intros a. by destruct (_ && _); repeat (split; [by intros []|]; intros ?).
    + unfold Recovery. cbn. split; [done|]. intros [[v'|]|]; (split; [by intros []|]); intros [];
        cbn; repeat (split; [by intros []|]; intros ?); done.
    + done.
  - intros h. rewrite Hn. by intros ?%elem_of_nil.
Qed.

(** The text of the line: its fields, each after blanks, in this order; the colour
    tells the class of the status. *)
Theorem C85_line_fields : forall lf n r text, exists b1 b2 b3 b4 c,
  log_line lf n r text =
    L "[ water : " ++ h_get (rq_header r) (L "Trace-ID") ++ L " ] " ++ lf_start lf ++
    L " |" ++ (if lf_color lf then c else []) ++ L " " ++ b1 ++ itoa n ++ L " " ++ (if lf_color lf then bytes [27; 91; 48; 109]%nat else []) ++
    L "| " ++ b2 ++ lf_used lf ++ L " | " ++ b3 ++ requestRealIp (rq_header r) (rq_remote r) ++
    L " | " ++ b4 ++ rq_method r ++ L " " ++ lf_url lf r ++ text /\
  blanks b1 /\ blanks b2 /\ blanks b3 /\ blanks b4 /\ painted n c.
Proof. exact line_fields. Qed.
Print Assumptions C85_line_fields.
