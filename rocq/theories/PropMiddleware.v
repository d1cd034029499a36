(** Properties of the middleware and of the response helpers. *)
From Verif Require Import Base GoStr Strconv Util Pattern Tree TreeSpec Header Router RouterSpec Ctx CtxFacts TraceSpec
  Engine EngineSpec ServeTop ServeThms Content ContentFacts Middleware MiddlewareSpec RecoveryFacts LoggerFacts CorsFacts CorsMore RedirectFacts
  BodySpec RequestSpec BodyFacts BodyTop ExampleRegexp ExampleRouter ExampleServe.
Local Open Scope Z_scope.

(** ** The example handlers *)
Definition mx_cors : CORSConfig := mkCORS [L "http://a.example"; L "http://b.example"] [] [] true [L "X-A"; L "X-B"] 60.
Definition mx_serve (r : request) (t etag enc : gostr) (f : gostr) : list (gostr * option gostr) * Z * list gostr :=
  ([(L "Content-Length", Some (itoa (Z.of_nat (length f))))], 200, [f]).
Definition mx_lf : logfmt := mkLogfmt false (L "2026-01-02 03:04:05") (L "1.5ms") rq_uri.
Definition mx_text (a : option gostr) : gostr := match a with Some d => L "read: " ++ d | None => L "an error" end.
Definition mx_code (h : handler nat) : prog gostr :=
  match h with
  | HFuncCtx 0%nat => Recovery false (fun v => L "crash: " ++ v)
  | HFuncCtx 1%nat => Recovery true (fun v => L "crash: " ++ v)
  | HFuncCtx 2%nat => Logger mx_lf 4 false true
  | HFuncCtx 3%nat => CORS mx_cors
  | HFuncCtx 4%nat => PPanic (Some (L "boom"))
  | HFuncCtx 5%nat => PDo (OWriteHeader 0) (fun _ => PRet)
  | HFuncCtx 6%nat => PNext (PNext PRet)
  | HFuncCtx 7%nat => PDo OBodyReadAll (fun d => PDo (OWrite (fst d)) (fun _ => PRet))
  | HFuncCtx 8%nat => Data 200 (L "image/png") (L "pixels") PRet
  | HFuncCtx 9%nat => Stream (L "image/png") [L "pix"; []; L "els"] true (fun _ => PRet)
  | HFuncCtx 10%nat => Found (fun _ u => u) (fun _ u _ => L "see " ++ u) (L "/new") PRet
  | HFuncCtx 11%nat => Attachment mx_serve (L "a.txt") false (L "text") PRet
  | HFuncCtx 12%nat => Download mx_serve (Some (L "a.txt", L "text")) true (fun _ => PRet)
  | HFuncCtx 13%nat => String_ 200 (L "hello") PRet
  | HFuncCtx 14%nat => Download mx_serve None true (fun ok => if ok then PRet else seqp [OWriteHeader 410; OWrite (L "gone")] PRet)
  | HFuncCtx 15%nat => BodyBytes (fun a => BodyBytes (fun b => PDo (OWrite (mx_text a ++ L ", then " ++ mx_text b)) (fun _ => PRet)))
  | HFuncCtx 16%nat => seqp [OHeaderSet (L "Access-Control-Allow-Origin") (L "old"); OHeaderSet (L "Vary") (L "Accept"); OHeaderSet (L "X-Id") (L "7")] PRet
  | _ => PRet
  end.
Definition mx_new : ctxobj nat gostr := newContext.
(** one route "/" with the given chain, for GET and OPTIONS *)
Definition mx_ops (chain : list nat) : list (rop nat) :=
  [RNew; RHandle 0 0 (L "/") (map IFuncCtx chain); RHandle 0 6 (L "/") (map IFuncCtx chain)].
Notation mx_run e r body := (ServeHTTP ex_find ex_sniff ex_form mx_code e 0 mx_new (arrive r (full_body body))).
Definition mx_req (m : gostr) (hs : list (gostr * gostr)) : request :=
  mkReq m 1 1 (L "/") (L "/") (list_to_map (map (fun kv => (fst kv, [snd kv])) hs)) (L "192.0.2.1:9") false.
(** ending, status, values of a header, body, handlers started *)
Definition mx_view (k : gostr) (y : ending * option (ctxobj nat gostr) * conn gostr) :
    ending * Z * list gostr * gostr * list nat :=
  let '(en, _, c) := y in let '(n, h, b) := finish ex_sniff (cn_rw c) in (en, n, h_values h k, b, starts (cn_log c)).

(** an engine for a chain, what it answers, and that it dispatches to this chain only *)
Lemma mx_engine chain r body k view tbl :
  with_engine ex_ok (mx_ops chain) [] (fun e => (mx_view k (mx_run e r body), chains e)) = Some (view, (tbl, [])) ->
  exists e, engine_of ex_ok (mx_ops chain) 0 [] e /\
  exists en px c', mx_run e r body = (en, px, c') /\ mx_view k (en, px, c') = view /\
  forall hs, dispatched ex_ok ex_find e r hs -> (rq_method r, hs) ∈ tbl.
Proof.
  intros Hw. apply with_engine_split in Hw as (e & He & Hs).
  destruct (mx_run e r body) as [[en px] c'] eqn:H. apply pair_equal_spec in Hs as [Hv Hc].
  exists e. split; [exact He|]. exists en, px, c'. split; [done|]. split; [exact Hv|].
  intros hs Hd. by apply (dispatched_chains _ _ _ _ _ _ Hc) in Hd.
Qed.
(** ... and the chain that it dispatches to *)
Ltac mx chain r body k :=
  edestruct (mx_engine chain r body k) as (e & He & en & px & c' & Hrun & Hview & Hd);
  [vm_compute; reflexivity|];
  exists e; (split; [assumption|]); exists en, px, c'; (split; [assumption|]); (split; [assumption|]);
  let hs := fresh "hs" in let Hin := fresh "Hin" in
  intros hs Hin; apply Hd in Hin; rewrite !elem_of_cons, elem_of_nil in Hin;
  destruct Hin as [E|[E|Hin]]; [injection E; intros; subst hs|injection E; intros; subst hs|destruct Hin]; try done.

(** ** C20 *)
(** ctx.Data(200, "image/png", ...) is delivered with another Content-Type. *)
Theorem C20_content_type_refuted :
  exists (ops : list (rop nat)) e (r : request) h n t s,
    engine_of ex_ok ops 0 [] e /\ dispatched ex_ok ex_find e r [h] /\ helps (mx_code h) n t s /\
    let '(_, _, c') := mx_run e r [] in
    starts (cn_log c') = [0%nat] /\
    exists hd, finish ex_sniff (cn_rw c') = (n, hd, s) /\ h_values hd (L "Content-Type") <> [t].
Proof.
  edestruct (mx_engine [8%nat] (mx_req (L "GET") []) [] (L "Content-Type")) as (e & He & en & px & c' & H & Hv & Hd);
    [vm_compute; reflexivity|].
  exists (mx_ops [8%nat]), e, (mx_req (L "GET") []), (HFuncCtx 8%nat), 200, (L "image/png"), (L "pixels").
  split; [exact He|]. rewrite H. unfold mx_view in Hv.
  destruct (finish ex_sniff (cn_rw c')) as [[n hd] b]. injection Hv as Hv1 Hv2 Hv3 Hv4 Hv5.
  assert (starts (cn_log c') <> []) as Hne by (rewrite Hv5; done).
  destruct (serve_ran _ _ _ _ _ _ _ _ _ _ _ _ _ _ _ _ He H Hne) as (hs & ps & nd & Hdis & _).
  split; [|split; [constructor|split; [exact Hv5|]]].
  - pose proof (Hd _ Hdis) as Hin. rewrite !elem_of_cons, elem_of_nil in Hin.
    destruct Hin as [E|[E|[]]]; injection E; intros; subst hs; exact Hdis.
  - exists hd. rewrite Hv3. subst n b. done.
Qed.
Print Assumptions C20_content_type_refuted.

(** What holds: status and body are as given; the type is the one that net/http
    guesses from the body, which is the documented one only if it is the same. *)
Theorem C20_response_helpers_partial :
  forall (A V : Type) re_ok re_find sniff parse_form (code : handler A -> prog V) ops r0 opts e id x r body en px c' n t s,
  engine_of re_ok ops r0 opts e ->
  ServeHTTP re_find sniff parse_form code e id x (arrive r body) = (en, px, c') -> starts (cn_log c') <> [] ->
  (forall hs, dispatched re_ok re_find e r hs -> exists h, hs = [h] /\ helps (code h) n t s) ->
  proper_code n = true ->
  en = EDone /\
  finish sniff (cn_rw c') =
    if bears_body n
    then (n, if decide (s = []) then ∅ else {[ L "Content-Type" := [sniff s] ]}, s)
    else (n, ∅, []).
Proof. exact @helper_delivers. Qed.
Print Assumptions C20_response_helpers_partial.
Example C20_case : exists e, engine_of ex_ok (mx_ops [13%nat]) 0 [] e /\
  exists en px c', mx_run e (mx_req (L "GET") []) [] = (en, px, c') /\
  mx_view (L "Content-Type") (en, px, c') = (EDone, 200, [L "text/plain; charset=utf-8"], L "hello", [0%nat]) /\
  forall hs, dispatched ex_ok ex_find e (mx_req (L "GET") []) hs ->
    exists h, hs = [h] /\ helps (mx_code h) 200 (L "text/plain; charset=utf-8") (L "hello").
Proof.
  mx [13%nat] (mx_req (L "GET") []) (@nil ascii) (L "Content-Type").
 eexists. split; [reflexivity|]. constructor.
Qed.

(** Stream delivers its type. *)
Theorem C20_stream_partial :
  forall (A V : Type) re_ok re_find sniff parse_form (code : handler A -> prog V) ops r0 opts e id x r body en px c' t out ok,
  engine_of re_ok ops r0 opts e ->
  ServeHTTP re_find sniff parse_form code e id x (arrive r body) = (en, px, c') -> starts (cn_log c') <> [] ->
  (forall hs, dispatched re_ok re_find e r hs -> exists h, hs = [h] /\ code h = Stream t out ok (fun _ => PRet)) ->
  t <> [] -> concat out <> [] ->
  en = EDone /\ finish sniff (cn_rw c') = (200, {[ L "Content-Type" := [t] ]}, concat out).
Proof. exact @stream_delivers. Qed.
Print Assumptions C20_stream_partial.
Example C20_stream_case : exists e, engine_of ex_ok (mx_ops [9%nat]) 0 [] e /\
  exists en px c', mx_run e (mx_req (L "GET") []) [] = (en, px, c') /\
  mx_view (L "Content-Type") (en, px, c') = (EDone, 200, [L "image/png"], L "pixels", [0%nat]) /\
  forall hs, dispatched ex_ok ex_find e (mx_req (L "GET") []) hs ->
    exists h, hs = [h] /\ mx_code h = Stream (L "image/png") [L "pix"; []; L "els"] true (fun _ => PRet).
Proof.
  mx [9%nat] (mx_req (L "GET") []) (@nil ascii) (L "Content-Type").
 by eexists.
Qed.

(** ** C21 *)
(** The status is not always 500: ctx.WriteHeader(0) panics after the Context has
    noted the status, so Recovery sends nothing (here the stable version) and the
    client gets 200. *)
Theorem C21_status_refuted :
  exists (ops : list (rop nat)) e,
    engine_of ex_ok ops 0 [] e /\
    mx_view [] (mx_run e (mx_req (L "GET") []) []) = (EDone, 200, [], [], [0%nat; 1%nat]) /\
    exists l1 l2 v, (let '(_, _, c') := mx_run e (mx_req (L "GET") []) [] in cn_log c') =
      l1 ++ EvCall (OWriteHeader 0) (Throw (Some v)) :: l2.
Proof.
  edestruct (with_engine_split ex_ok (mx_ops [1%nat; 5%nat]) [] (fun e =>
    (mx_view [] (mx_run e (mx_req (L "GET") []) []), let '(_, _, c') := mx_run e (mx_req (L "GET") []) [] in cn_log c')))
    as (e & He & Hs); [vm_compute; reflexivity|]. injection Hs as Hv Hc.
  exists (mx_ops [1%nat; 5%nat]), e. split; [exact He|]. split; [exact Hv|].
  exists [EvStart 0; EvNext; EvStart 1; EvSend 0]. eexists _, _. exact Hc.
Qed.
Print Assumptions C21_status_refuted.
(** A panic can escape: with a handler before Recovery that calls Next twice, the
    second call starts a handler outside Recovery. *)
Theorem C21_escape_refuted :
  exists (ops : list (rop nat)) e,
    engine_of ex_ok ops 0 [] e /\
    mx_view [] (mx_run e (mx_req (L "GET") []) []) = (EThrow (Some (L "boom")), 500, [], L "crash: boom", [0%nat; 1%nat; 2%nat; 4%nat]).
Proof.
  edestruct (with_engine_split ex_ok (mx_ops [6%nat; 0%nat; 4%nat; 4%nat; 4%nat]) [] (fun e =>
    mx_view [] (mx_run e (mx_req (L "GET") []) [])))
    as (e & He & Hs); [vm_compute; reflexivity|]. by exists (mx_ops [6%nat; 0%nat; 4%nat; 4%nat; 4%nat]), e.
Qed.
Print Assumptions C21_escape_refuted.

(** What holds: if the handlers before Recovery are calm (they do not panic of
    themselves and call Next at most once), nothing escapes; either Recovery was not
    reached because there had been a response, or whatever the rest of the chain
    did, a response was asked for (500 after a panic if none had been before, 200
    without a panic), and no handler was started after that. *)
Theorem C21_recovery_contains_partial :
  forall (A V : Type) re_ok re_find sniff parse_form (code : handler A -> prog V) ops r0 opts e id x r body en px c' stable crash,
  engine_of re_ok ops r0 opts e ->
  ServeHTTP re_find sniff parse_form code e id x (arrive r body) = (en, px, c') -> starts (cn_log c') <> [] ->
  (forall hs, dispatched re_ok re_find e r hs ->
     exists pre h post, hs = pre ++ h :: post /\ code h = Recovery stable crash /\ forall g, g ∈ pre -> calm true (code g)) ->
  en = EDone /\
  exists pre h post, dispatched re_ok re_find e r (pre ++ h :: post) /\ code h = Recovery stable crash /\
    (length pre ∉ starts (cn_log c') /\ responded (cn_log c') \/
     rescued code (pre ++ h :: post) (length pre) (fun v => if stable then [] else crash v) (fun v => L "panic : " ++ crash v) [] (cn_log c')).
Proof. exact @recovery_contains. Qed.
Print Assumptions C21_recovery_contains_partial.
(** Classic installs Logger before Recovery; CORS may come before it too. *)
Theorem C21_logger_is_calm : forall (V : Type) lf limit close lb, calm (V:=V) true (Logger lf limit close lb).
Proof. exact @calm_logger. Qed.
Print Assumptions C21_logger_is_calm.
Theorem C21_cors_is_calm : forall (V : Type) cfg, calm (V:=V) true (CORS cfg).
Proof. exact @calm_cors. Qed.
Print Assumptions C21_cors_is_calm.
Example C21_case : exists e, engine_of ex_ok (mx_ops [2%nat; 0%nat; 4%nat]) 0 [] e /\
  exists en px c', mx_run e (mx_req (L "GET") []) [] = (en, px, c') /\
  mx_view [] (en, px, c') = (EDone, 500, [], L "crash: boom", [0%nat; 1%nat; 2%nat]) /\
  forall hs, dispatched ex_ok ex_find e (mx_req (L "GET") []) hs ->
    exists pre h post, hs = pre ++ h :: post /\ mx_code h = Recovery false (fun v => L "crash: " ++ v) /\
      forall g, g ∈ pre -> calm true (mx_code g).
Proof.
  mx [2%nat; 0%nat; 4%nat] (mx_req (L "GET") []) (@nil ascii) (@nil ascii).

  exists [HFuncCtx 2%nat], (HFuncCtx 0%nat), [HFuncCtx 4%nat]. split; [done|]. split; [done|].
  intros g Hg. apply elem_of_list_singleton in Hg as ->. apply calm_logger.
Qed.

(** ** C26 *)
(** A preflight request that is handed to CORS is answered 204, with the
    announcement and without a body; no later handler is started. *)
Theorem C26_preflight :
  forall (A V : Type) re_ok re_find sniff parse_form (code : handler A -> prog V) ops r0 opts e id x r body en px c' cfg,
  engine_of re_ok ops r0 opts e ->
  ServeHTTP re_find sniff parse_form code e id x (arrive r body) = (en, px, c') -> starts (cn_log c') <> [] ->
  (forall hs, dispatched re_ok re_find e r hs -> exists g hs', hs = g :: hs' /\ code g = CORS cfg) ->
  rq_method r = L "OPTIONS" ->
  en = EDone /\ starts (cn_log c') = [0%nat] /\
  exists h, finish sniff (cn_rw c') = (204, h, []) /\ cors_preflight cfg r h.
Proof. exact @cors_answers. Qed.
Print Assumptions C26_preflight.
Example C26_preflight_case : exists e, engine_of ex_ok (mx_ops [3%nat; 13%nat]) 0 [] e /\
  exists en px c', mx_run e (mx_req (L "OPTIONS") [(L "Origin", L "http://b.example")]) [] = (en, px, c') /\
  mx_view (L "Access-Control-Allow-Origin") (en, px, c') = (EDone, 204, [L "http://b.example"], [], [0%nat]) /\
  forall hs, dispatched ex_ok ex_find e (mx_req (L "OPTIONS") [(L "Origin", L "http://b.example")]) hs ->
    exists g hs', hs = g :: hs' /\ mx_code g = CORS mx_cors.
Proof.
  mx [3%nat; 13%nat] (mx_req (L "OPTIONS") [(L "Origin", L "http://b.example")]) (@nil ascii) (L "Access-Control-Allow-Origin").
 by eexists _, _.
Qed.
(** Any other request continues down the chain, with the announcement set before;
    the client gets it unless a later handler touches that header. *)
Theorem C26_ordinary :
  forall (A V : Type) re_ok re_find sniff parse_form (code : handler A -> prog V) ops r0 opts e id x r body en px c' cfg,
  engine_of re_ok ops r0 opts e ->
  ServeHTTP re_find sniff parse_form code e id x (arrive r body) = (en, px, c') -> starts (cn_log c') <> [] ->
  (forall hs, dispatched re_ok re_find e r hs -> exists g hs', hs = g :: hs' /\ code g = CORS cfg) ->
  rq_method r <> L "OPTIONS" ->
  exists g hs l1 l2, dispatched re_ok re_find e r (g :: hs) /\ cn_log c' = EvStart 0 :: l1 ++ EvNext :: l2 /\
    starts l1 = [] /\ ~ responded l1 /\ cors_simple cfg r (headers_of l1) /\
    (hs <> [] -> exists l3, l2 = EvStart 1 :: l3) /\
    forall k, canon k <> canon (L "Content-Type") -> (forall f, f ∈ hs -> only (spares k) (code f)) ->
      h_values (snd (fst (finish sniff (cn_rw c')))) k = h_values (headers_of l1) k.
Proof. exact @cors_passes. Qed.
Print Assumptions C26_ordinary.
(** the announced origin is determined by the list and the request *)
Theorem C26_origin_decision : forall origins origin v w,
  announced origins origin v -> announced origins origin w -> v = w.
Proof. exact announced_fun. Qed.
Print Assumptions C26_origin_decision.
Example C26_ordinary_case : exists e, engine_of ex_ok (mx_ops [3%nat; 13%nat]) 0 [] e /\
  exists en px c', mx_run e (mx_req (L "GET") [(L "Origin", L "http://c.example")]) [] = (en, px, c') /\
  mx_view (L "Access-Control-Allow-Origin") (en, px, c') = (EDone, 200, [[]], L "hello", [0%nat; 1%nat]) /\
  forall hs, dispatched ex_ok ex_find e (mx_req (L "GET") [(L "Origin", L "http://c.example")]) hs ->
    exists g hs', hs = g :: hs' /\ mx_code g = CORS mx_cors.
Proof.
  mx [3%nat; 13%nat] (mx_req (L "GET") [(L "Origin", L "http://c.example")]) (@nil ascii) (L "Access-Control-Allow-Origin").
 by eexists _, _.
Qed.
(** Behind other handlers: a preflight request that reaches CORS before anything was
    answered is answered 204 without a body; CORS starts no other handler, adds to
    Vary, replaces the other headers of the announcement and keeps the rest. *)
Theorem C26_preflight_behind :
  forall (A V : Type) re_ok re_find sniff parse_form (code : handler A -> prog V) ops r0 opts e id x r body en px c' cfg i l1 l2,
  engine_of re_ok ops r0 opts e ->
  ServeHTTP re_find sniff parse_form code e id x (arrive r body) = (en, px, c') -> uses_ctx code e ->
  (forall hs, dispatched re_ok re_find e r hs -> exists g, hs !! i = Some g /\ code g = CORS cfg) ->
  cn_log c' = l1 ++ EvStart i :: l2 -> rq_method r = L "OPTIONS" -> ~ responded l1 ->
  exists m l3 h, l2 = m ++ EvEnd i :: l3 /\ starts m = [] /\ finish sniff (cn_rw c') = (204, h, []) /\
    cors_preflight_over cfg r (headers_of l1) h.
Proof. exact @cors_behind_preflight. Qed.
Print Assumptions C26_preflight_behind.
(** Any other request goes on to Next, with the announcement. *)
Theorem C26_ordinary_behind :
  forall (A V : Type) re_ok re_find sniff parse_form (code : handler A -> prog V) ops r0 opts e id x r body en px c' cfg i l1 l2,
  engine_of re_ok ops r0 opts e ->
  ServeHTTP re_find sniff parse_form code e id x (arrive r body) = (en, px, c') ->
  (forall hs, dispatched re_ok re_find e r hs -> exists g, hs !! i = Some g /\ code g = CORS cfg) ->
  cn_log c' = l1 ++ EvStart i :: l2 -> rq_method r <> L "OPTIONS" ->
  exists m l3, l2 = m ++ EvNext :: l3 /\ starts m = [] /\ ~ responded m /\
    cors_simple_over cfg r (headers_of l1) (headers_of (l1 ++ EvStart i :: m)).
Proof. exact @cors_behind. Qed.
Print Assumptions C26_ordinary_behind.
Lemma mx_uses e tbl : chains e = (tbl, []) -> Forall (fun mh => Forall (fun h => only (fun o => ~ raw o) (mx_code h)) (snd mh)) tbl ->
  uses_ctx mx_code e.
Proof.
  intros [= <- Hn] Hf. split; [|by rewrite Hn; intros h ?%elem_of_nil].
  intros v h Hv Hh. rewrite Forall_map, Forall_forall in Hf. specialize (Hf v Hv). cbn [snd] in Hf. rewrite Forall_forall in Hf. by apply Hf.
Qed.
Lemma mx_cors_plain : only (fun o => ~ raw o) (CORS (V:=gostr) mx_cors).
Proof.
  unfold CORS. cbn [only]. split; [by intros []|]. intros r. destruct (seqb (rq_method r) (L "OPTIONS")); cbn [negb].
  - cbn. destruct (seqb (h_get _ _) []); cbn; repeat first [by intros []|intros ?|split|exact I].
  - cbn. repeat first [by intros []|intros ?|split|exact I].
Qed.
Example C26_behind_case : exists e, engine_of ex_ok (mx_ops [16%nat; 3%nat; 13%nat]) 0 [] e /\ uses_ctx mx_code e /\
  (forall m hs, dispatched ex_ok ex_find e (mx_req m []) hs -> exists g, hs !! 1%nat = Some g /\ mx_code g = CORS mx_cors) /\
  (forall m, m = L "OPTIONS" \/ m = L "GET" -> exists en px c' l1 l2, mx_run e (mx_req m []) [] = (en, px, c') /\
    cn_log c' = l1 ++ EvStart 1 :: l2 /\ ~ responded l1 /\ h_values (headers_of l1) (L "Access-Control-Allow-Origin") = [L "old"]).
Proof.
  edestruct (with_engine_split ex_ok (mx_ops [16%nat; 3%nat; 13%nat]) [] (fun e => (chains e,
    ((let '(_, _, c') := mx_run e (mx_req (L "OPTIONS") []) [] in take 6 (cn_log c')),
     (let '(_, _, c') := mx_run e (mx_req (L "GET") []) [] in take 6 (cn_log c')))))) as (e & He & Hs); [vm_compute; reflexivity|].
  apply pair_equal_spec in Hs as [Hc Hs]. apply pair_equal_spec in Hs as [H1 H2].
  exists e. split; [exact He|]. split; [|split].
  - eapply mx_uses; [exact Hc|]. assert (Hall : Forall (fun h => only (fun o => ~ raw o) (mx_code h)) [HFuncCtx 16%nat; HFuncCtx 3%nat; HFuncCtx 13%nat]).
    { apply Forall_cons; split; [cbn; repeat first [by intros []|intros ?|split|exact I]|].
      apply Forall_cons; split; [exact mx_cors_plain|]. apply Forall_cons; split; [cbn; repeat first [by intros []|intros ?|split|exact I]|apply Forall_nil_2]. }
    apply Forall_cons; split; [exact Hall|]. apply Forall_cons; split; [exact Hall|apply Forall_nil_2].
  - intros m hs Hd. apply (dispatched_chains _ _ _ _ _ _ Hc) in Hd. rewrite !elem_of_cons, elem_of_nil in Hd.
    destruct Hd as [E|[E|[]]]; injection E as _ ->; by eexists.
  - intros m [->| ->].
    + destruct (mx_run e (mx_req (L "OPTIONS") []) []) as [[en px] c']. exists en, px, c', (take 5 (cn_log c')), (drop 6 (cn_log c')).
      split; [done|].
      assert (E : take 5 (cn_log c') = take 5 (take 6 (cn_log c'))) by (by rewrite take_take).
      split; [|rewrite E, H1; split; [by intros Hr; apply Hr|vm_compute; reflexivity]].
      rewrite <- (take_drop 6 (cn_log c')) at 1. rewrite E, H1. reflexivity.
    + destruct (mx_run e (mx_req (L "GET") []) []) as [[en px] c']. exists en, px, c', (take 5 (cn_log c')), (drop 6 (cn_log c')).
      split; [done|].
      assert (E : take 5 (cn_log c') = take 5 (take 6 (cn_log c'))) by (by rewrite take_take).
      split; [|rewrite E, H2; split; [by intros Hr; apply Hr|vm_compute; reflexivity]].
      rewrite <- (take_drop 6 (cn_log c')) at 1. rewrite E, H2. reflexivity.
Qed.
(** The preflight request only gets to the middleware if there is an OPTIONS
    route for the path: otherwise it is answered 404. *)
Theorem C26_no_route_refuted :
  exists (ops : list (rop nat)) e,
    engine_of ex_ok ops 0 [] e /\
    mx_view (L "Access-Control-Allow-Origin") (mx_run e (mx_req (L "GET") []) []) = (EDone, 200, [[]], L "hello", [0%nat; 1%nat]) /\
    mx_view (L "Access-Control-Allow-Origin") (mx_run e (mx_req (L "OPTIONS") []) []) = (EDone, 404, [], [], []).
Proof.
  edestruct (with_engine_split ex_ok [RNew; RUse 0 [IFuncCtx 3%nat]; RHandle 0 0 (L "/") [IFuncCtx 13%nat]] [] (fun e =>
    (mx_view (L "Access-Control-Allow-Origin") (mx_run e (mx_req (L "GET") []) []),
     mx_view (L "Access-Control-Allow-Origin") (mx_run e (mx_req (L "OPTIONS") []) []))))
    as (e & He & Hs); [vm_compute; reflexivity|]. injection Hs as H1 H2. eexists _, e. by split_and!.
Qed.
Print Assumptions C26_no_route_refuted.

(** ** C27 *)
(** A JSON body longer than the limit is cut: a handler behind Logger that reads
    the body sees the first [limit] bytes only.  (The limit is 1<<20.) *)
Definition cut_code (limit : nat) (h : handler nat) : prog gostr :=
  match h with HFuncCtx 0%nat => Logger mx_lf limit false true | _ => PDo OBodyReadAll (fun _ => PRet) end.
Definition cut_req : request := mx_req (L "GET") [(L "Content-Type", L "application/json")].
Theorem C27_long_body_refuted :
  forall (limit : nat) (body : gostr), (limit < length body)%nat ->
  exists (ops : list (rop nat)) e,
    engine_of ex_ok ops 0 [] e /\
    exists en px c' l1 d l2, ServeHTTP ex_find ex_sniff ex_form (cut_code limit) e 0 mx_new (arrive cut_req (full_body body)) = (en, px, c') /\
      cn_log c' = l1 ++ EvCall OBodyReadAll (Norm (d, true)) :: l2 /\ d <> body.
Proof.
  intros limit body Hlim.
  edestruct (with_engine_split ex_ok (mx_ops [0%nat; 1%nat]) [] (fun e =>
    let '(_, _, c') := ServeHTTP ex_find ex_sniff ex_form (cut_code limit) e 0 mx_new (arrive cut_req (full_body body)) in
    match last (List.filter (fun ev => match ev with EvCall OBodyReadAll _ => true | _ => false end) (cn_log c')) with
    | Some ev => ev | None => EvNext end))
    as (e & He & Hs); [vm_compute; reflexivity|].
  exists (mx_ops [0%nat; 1%nat]), e. split; [exact He|].
  destruct (ServeHTTP _ _ _ _ _ _ _ _) as [[en px] c'] eqn:H. exists en, px, c'.
  destruct (last _) as [ev|] eqn:Hlast; [|done]. subst ev.
  apply last_Some_elem_of, elem_of_list_In, filter_In in Hlast as [Hin _]. apply elem_of_list_In, elem_of_list_split in Hin as (l1 & l2 & Hl).
  eexists l1, (take limit body), l2. split; [done|]. split; [exact Hl|].
  intros E. apply (f_equal length) in E. rewrite take_length in E. lia.
Qed.
Print Assumptions C27_long_body_refuted.
(** What holds: the rest of the chain runs exactly as it would alone on the body
    that Logger leaves: in memory, and at most [limit] bytes of it, if Logger reads
    it; the body that arrived otherwise.  The log is the same except for Logger's own
    reading of the request and its line. *)
Theorem C27_logger_chain_partial :
  forall (A V : Type) re_ok re_find sniff parse_form (code : handler A -> prog V) ops r0 opts e id x r body en px c' lf limit close lb,
  engine_of re_ok ops r0 opts e ->
  ServeHTTP re_find sniff parse_form code e id x (arrive r body) = (en, px, c') -> starts (cn_log c') <> [] ->
  (forall hs, dispatched re_ok re_find e r hs -> exists g hs', hs = g :: hs' /\ code g = Logger lf limit close lb) ->
  exists g hs ps n c, dispatched re_ok re_find e r (g :: hs) /\ code g = Logger lf limit close lb /\
    ran sniff parse_form code id hs ps n r (body_seen close lb limit r body) en c /\
    cn_rw c' = cn_rw c /\ cn_body c' = cn_body c /\ cn_form c' = cn_form c /\
    exists w1 w2, cn_log c' = w1 ++ map (shift_event [g]) (cn_log c) ++ w2 /\ Forall log_own w1 /\ Forall log_own w2 /\
      starts w2 = [] /\ logged w1 = [] /\ logged w2 = log_lines lf close lb r (take limit (bd_data body)) en (cn_log c).
Proof. exact @logger_serves. Qed.
Print Assumptions C27_logger_chain_partial.
(** Compared with the chain alone on the body that arrived: same ending, same
    response, same form, and the same log, if Logger does not read the body; or the
    body is at most [limit] bytes long, it comes without an error, and the chain alone
    does not read it after closing it.  (Parsing a form does not count as reading if
    it leaves bodies of this request alone.) *)
Theorem C27_logger_invisible_partial :
  forall (A V : Type) re_ok re_find sniff parse_form (code : handler A -> prog V) ops r0 opts e id x r body en px c' lf limit close lb forms,
  engine_of re_ok ops r0 opts e ->
  ServeHTTP re_find sniff parse_form code e id x (arrive r body) = (en, px, c') -> starts (cn_log c') <> [] ->
  (forall hs, dispatched re_ok re_find e r hs -> exists g hs', hs = g :: hs' /\ code g = Logger lf limit close lb) ->
  (forms = true \/ exists f ok, forall i, parse_form (is_multipart r) r i = (f, ok, fst i)) ->
  exists g hs ps n en0 c, dispatched re_ok re_find e r (g :: hs) /\ code g = Logger lf limit close lb /\
    ran sniff parse_form code id hs ps n r body en0 c /\
    ((logs_body close lb r -> (length (bd_data body) <= limit)%nat /\ ends_well (bd_feed body) = true /\ left_closed forms (cn_log c)) ->
     en = en0 /\ cn_rw c' = cn_rw c /\ cn_form c' = cn_form c /\
     exists w1 w2, cn_log c' = w1 ++ map (shift_event [g]) (cn_log c) ++ w2 /\ Forall log_own w1 /\ Forall log_own w2 /\
       starts w2 = [] /\ logged w1 = [] /\ logged w2 = log_lines lf close lb r (bd_data body) en (cn_log c)).
Proof. exact @logger_hidden. Qed.
Print Assumptions C27_logger_invisible_partial.
(** When Logger reads the body, no handler ever sees an error of reading it, *)
Theorem C27_no_errors :
  forall (A V : Type) re_ok re_find sniff parse_form (code : handler A -> prog V) ops r0 opts e id x r body en px c' lf limit close lb a,
  engine_of re_ok ops r0 opts e ->
  ServeHTTP re_find sniff parse_form code e id x (arrive r body) = (en, px, c') -> starts (cn_log c') <> [] ->
  (forall hs, dispatched re_ok re_find e r hs -> exists g hs', hs = g :: hs' /\ code g = Logger lf limit close lb) ->
  logs_body close lb r -> EvCall OBodyReadAll a ∈ cn_log c' -> exists d, a = Norm (d, true).
Proof. exact @logger_no_errors. Qed.
Print Assumptions C27_no_errors.
(** also when there was one: if the client goes away, a handler behind Logger takes
    what came for the whole body, while alone it gets an error. *)
Definition cut_read (e : engine nat) (r : request) (body : rbody) : list (event gostr) :=
  let '(_, _, c) := ServeHTTP ex_find ex_sniff ex_form mx_code e 0 mx_new (arrive r body) in
  List.filter (fun ev => match ev with EvCall OBodyReadAll _ => true | _ => false end) (cn_log c).
Theorem C27_broken_body_refuted :
  exists e1 e2, engine_of ex_ok (mx_ops [7%nat]) 0 [] e1 /\ engine_of ex_ok (mx_ops [2%nat; 7%nat]) 0 [] e2 /\
    cut_read e1 cut_req (mkBody (L "[1") FBroken) = [EvCall OBodyReadAll (Norm (L "[1", false))] /\
    cut_read e2 cut_req (mkBody (L "[1") FBroken) = [EvCall OBodyReadAll (Norm (L "[1", true))].
Proof.
  edestruct (with_engine_split ex_ok (mx_ops [7%nat]) [] (fun e => cut_read e cut_req (mkBody (L "[1") FBroken))) as (e1 & He1 & H1);
    [vm_compute; reflexivity|].
  edestruct (with_engine_split ex_ok (mx_ops [2%nat; 7%nat]) [] (fun e => cut_read e cut_req (mkBody (L "[1") FBroken))) as (e2 & He2 & H2);
    [vm_compute; reflexivity|].
  exists e1, e2. by split_and!.
Qed.
Print Assumptions C27_broken_body_refuted.
(** Reading a second time after BodyBytes fails, but behind Logger it gives an empty
    body. *)
Theorem C27_second_read_refuted :
  exists e1 e2, engine_of ex_ok (mx_ops [15%nat]) 0 [] e1 /\ engine_of ex_ok (mx_ops [2%nat; 15%nat]) 0 [] e2 /\
    mx_view [] (mx_run e1 cut_req (L "[1]")) = (EDone, 200, [], L "read: [1], then an error", [0%nat]) /\
    mx_view [] (mx_run e2 cut_req (L "[1]")) = (EDone, 200, [], L "read: [1], then read: ", [0%nat; 1%nat]).
Proof.
  edestruct (with_engine_split ex_ok (mx_ops [15%nat]) [] (fun e => mx_view [] (mx_run e cut_req (L "[1]")))) as (e1 & He1 & H1);
    [vm_compute; reflexivity|].
  edestruct (with_engine_split ex_ok (mx_ops [2%nat; 15%nat]) [] (fun e => mx_view [] (mx_run e cut_req (L "[1]")))) as (e2 & He2 & H2);
    [vm_compute; reflexivity|].
  exists e1, e2. by split_and!.
Qed.
Print Assumptions C27_second_read_refuted.
Example C27_case : exists e, engine_of ex_ok (mx_ops [2%nat; 7%nat]) 0 [] e /\
  exists en px c', mx_run e cut_req (L "{12}") = (en, px, c') /\
  mx_view [] (en, px, c') = (EDone, 200, [], L "{12}", [0%nat; 1%nat]) /\
  forall hs, dispatched ex_ok ex_find e cut_req hs ->
    exists g hs', hs = g :: hs' /\ mx_code g = Logger mx_lf 4 false true /\ logs_body false true cut_req /\ (length (L "{12}") <= 4)%nat /\
      exists en0 c, ran ex_sniff ex_form mx_code 0 hs' None None cut_req (full_body (L "{12}")) en0 c /\ left_closed true (cn_log c).
Proof.
  mx [2%nat; 7%nat] cut_req (L "{12}") (@nil ascii).
 eexists _, _. split_and!; [done|done|split_and!; [done|done|vm_compute; done]|vm_compute; lia|].
 destruct (ran_exists ex_sniff ex_form mx_code 0 [HFuncCtx 7%nat] None None cut_req (full_body (L "{12}"))) as (en0 & c0 & Hr).
 exists en0, c0. split; [exact Hr|]. destruct Hr as [x0 Hr].
 match type of Hr with ?y = _ => assert (cn_log c0 = cn_log (snd (snd y))) as -> by (by rewrite Hr) end.
 match goal with |- left_closed _ ?l => let l' := eval vm_compute in l in change (left_closed true l') end.
 apply left_closed_none. by repeat constructor; intros [].
Qed.

(** ** C54 *)
Theorem C54_redirects :
  forall (A V : Type) re_ok re_find sniff parse_form (code : handler A -> prog V) (location : request -> gostr -> gostr)
    (page : request -> gostr -> Z -> gostr) ops r0 opts e id x r body en px c' uri n,
  engine_of re_ok ops r0 opts e ->
  ServeHTTP re_find sniff parse_form code e id x (arrive r body) = (en, px, c') -> starts (cn_log c') <> [] ->
  (forall hs, dispatched re_ok re_find e r hs -> exists h, hs = [h] /\
     (code h = MovedPermanently location page uri PRet /\ n = 301 \/ code h = Found location page uri PRet /\ n = 302)) ->
  en = EDone /\ exists hd, finish sniff (cn_rw c') = (n, hd, if decide (rq_method r = L "GET") then page r uri n else []) /\
    h_values hd (L "Location") = [location r uri] /\
    (rq_method r = L "GET" \/ rq_method r = L "HEAD" -> h_values hd (L "Content-Type") = [L "text/html; charset=utf-8"]).
Proof. exact @redirect_delivers. Qed.
Print Assumptions C54_redirects.
Example C54_case : exists e, engine_of ex_ok (mx_ops [10%nat]) 0 [] e /\
  exists en px c', mx_run e (mx_req (L "GET") []) [] = (en, px, c') /\
  mx_view (L "Location") (en, px, c') = (EDone, 302, [L "/new"], L "see /new", [0%nat]) /\
  forall hs, dispatched ex_ok ex_find e (mx_req (L "GET") []) hs ->
    exists h, hs = [h] /\ mx_code h = Found (fun _ u => u) (fun _ u _ => L "see " ++ u) (L "/new") PRet.
Proof.
  mx [10%nat] (mx_req (L "GET") []) (@nil ascii) (L "Location").
 by eexists.
Qed.

(** ** C55 *)
Theorem C55_attachments :
  forall (A V F : Type) re_ok re_find sniff parse_form (code : handler A -> prog V)
    (serve : request -> gostr -> gostr -> gostr -> F -> list (gostr * option gostr) * Z * list gostr)
    ops r0 opts e id x r body en px c' (download : bool) name inline f,
  decent serve ->
  engine_of re_ok ops r0 opts e ->
  ServeHTTP re_find sniff parse_form code e id x (arrive r body) = (en, px, c') -> starts (cn_log c') <> [] ->
  (forall hs, dispatched re_ok re_find e r hs -> exists h, hs = [h] /\
     code h = if download then Download serve (Some (name, f)) inline (fun _ => PRet) else Attachment serve name inline f PRet) ->
  en = EDone /\
    let '(_, n, out) := serve r (if download then L "application/octet-stream" else []) [] [] f in
    exists hd, finish sniff (cn_rw c') = (n, hd, if bears_body n then concat out else []) /\
      h_values hd (L "Content-Disposition") = [contentDisposition name (disposition inline)].
Proof. exact @attach_delivers. Qed.
Print Assumptions C55_attachments.
(** Download returns an error if there is no such file, and then has set nothing:
    a handler may still answer as it likes. *)
Theorem C55_no_file :
  forall (A V F : Type) re_ok re_find sniff parse_form (code : handler A -> prog V)
    (serve : request -> gostr -> gostr -> gostr -> F -> list (gostr * option gostr) * Z * list gostr)
    ops r0 opts e id x r body en px c' file inline m text,
  decent serve -> proper_code m = true ->
  engine_of re_ok ops r0 opts e ->
  ServeHTTP re_find sniff parse_form code e id x (arrive r body) = (en, px, c') -> starts (cn_log c') <> [] ->
  (forall hs, dispatched re_ok re_find e r hs -> exists h, hs = [h] /\
     code h = Download serve file inline (fun ok => if ok then PRet else seqp [OWriteHeader m; OWrite text] PRet)) ->
  en = EDone /\
    match file with
    | None => exists hd, finish sniff (cn_rw c') = (m, hd, if bears_body m then text else []) /\ h_values hd (L "Content-Disposition") = []
    | Some (name, f) =>
        let '(_, n, out) := serve r (L "application/octet-stream") [] [] f in
        exists hd, finish sniff (cn_rw c') = (n, hd, if bears_body n then concat out else []) /\
          h_values hd (L "Content-Disposition") = [contentDisposition name (disposition inline)]
    end.
Proof. exact @download_reports. Qed.
Print Assumptions C55_no_file.
Example C55_case : decent mx_serve /\ exists e, engine_of ex_ok (mx_ops [12%nat]) 0 [] e /\
  exists en px c', mx_run e (mx_req (L "GET") []) [] = (en, px, c') /\
  mx_view (L "Content-Disposition") (en, px, c') = (EDone, 200, [L "inline; filename=""a.txt""; filename*=UTF-8''a.txt"], L "text", [0%nat]) /\
  forall hs, dispatched ex_ok ex_find e (mx_req (L "GET") []) hs ->
    exists h, hs = [h] /\ mx_code h = Download mx_serve (Some (L "a.txt", L "text")) true (fun _ => PRet).
Proof.
  split.
  { intros r t etag enc f. split; [done|]. intros kv Hin. apply elem_of_list_singleton in Hin as ->. vm_compute. done. }
  mx [12%nat] (mx_req (L "GET") []) (@nil ascii) (L "Content-Disposition").
 by eexists.
Qed.
Example C55_no_file_case : decent mx_serve /\ proper_code 410 = true /\ exists e, engine_of ex_ok (mx_ops [14%nat]) 0 [] e /\
  exists en px c', mx_run e (mx_req (L "GET") []) [] = (en, px, c') /\
  mx_view (L "Content-Disposition") (en, px, c') = (EDone, 410, [], L "gone", [0%nat]) /\
  forall hs, dispatched ex_ok ex_find e (mx_req (L "GET") []) hs ->
    exists h, hs = [h] /\ mx_code h = Download mx_serve None true (fun ok => if ok then PRet else seqp [OWriteHeader 410; OWrite (L "gone")] PRet).
Proof.
  split.
  { intros r t etag enc f. split; [done|]. intros kv Hin. apply elem_of_list_singleton in Hin as ->. vm_compute. done. }
  split; [done|]. mx [14%nat] (mx_req (L "GET") []) (@nil ascii) (L "Content-Disposition").
  by eexists.
Qed.
