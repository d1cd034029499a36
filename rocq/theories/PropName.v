(** Property theorems: the chain of a request (C03), and HandlerName (C89). *)
From Verif Require Import Base GoStr Strconv Pattern Tree TreeSpec Header Router RouterSpec Ctx CtxFacts Engine TraceSpec EngineSpec
  ServeTop ServeMore ParamSpec PickSpec PickFacts ExampleRegexp ExampleRouter ExampleServe PropEngine PropParams Machine MachineSpec
  MachineThms ExampleMachine PropConc HandlerName NameFacts.

(** ** C03 *)
(** A request is for one chain of handlers at most. *)
Theorem C03_one_chain :
  forall (A : Type) re_ok re_find (e : engine A) r hs hs',
  picked re_ok re_find e r hs -> picked re_ok re_find e r hs' -> hs = hs'.
Proof. exact @picked_unique. Qed.
Print Assumptions C03_one_chain.
(** The handlers that run are those of this chain; if there is none, no route fits
    and there are no not-found handlers, the answer is a bare 404. *)
Theorem C03_served_by_its_chain :
  forall (A : Type) re_ok re_find (V : Type) sniff parse_form (code : handler A -> prog V) ops r0 opts e id x r body en px c',
  engine_of re_ok ops r0 opts e ->
  ServeHTTP re_find sniff parse_form code e id x (arrive r body) = (en, px, c') -> (forall n, ~ refused r n) ->
  (exists hs, picked re_ok re_find e r hs /\ EngineSpec.turns code hs (cn_log c') en) \/
  ((forall v, v ∈ routes e -> ~ fits re_ok re_find v r /\ ~ verbatim re_ok e v r) /\ o_nofound (en_options e) = [] /\
   en = EDone /\ c' = bare r body 404%Z).
Proof. exact @serve_picked. Qed.
Print Assumptions C03_served_by_its_chain.
(** [qx_engine] and [C03_served_case] meet the hypotheses. *)

(** ** The example *)
Definition hx_kind (a : nat) : fkind := match a with 30 => KPointer | 31 => KOther | _ => KFunc end.
Definition hx_name (a : nat) : gostr := L "main.handler" ++ itoa_nat a.
(** a middleware, and routes that end with the four sorts of handlers *)
Definition hx_ops : list (rop nat) :=
  [RNew; RUse 0 [IFuncCtx 10]; RHandle 0 0 (L "/u/<id>") [IFuncCtx 1; IFuncCtx 2];
   RHandle 0 0 (L "/h") [IHttpHandler 40]; RHandle 0 0 (L "/p") [IHandler 30]; RHandle 0 0 (L "/s") [IHandler 31]].
(** what HandlerName gives in the middleware *)
Definition hx_at (w : option (world nat gostr)) (t : nat) : option (res gostr) :=
  w ← w; k ← w_threads w !! t;
  match k with TProg p _ _ => HandlerName hx_kind hx_name <$> w_ctx w !! p | _ => None end.
Lemma hx_at_inv w t n : hx_at (Some w) t = Some n ->
  exists p q k x, w_threads w !! t = Some (TProg p q k) /\ w_ctx w !! p = Some x /\ HandlerName hx_kind hx_name x = n.
Proof.
  unfold hx_at. intros H. unfold mbind, option_bind in H. destruct (w_threads w !! t) as [k|]; [|congruence].
  destruct k as [| | | | | | | |p q k| | | |]; try congruence.
  destruct (w_ctx w !! p) as [x|] eqn:Hx; cbn [fmap option_fmap option_map] in H; [|congruence].
  injection H as <-. by exists p, q, k, x.
Qed.
Definition hx_moves (paths : list gostr) : list choice :=
  imap (fun i p => CArrive i (get p) no_body) paths ++ concat (replicate 7 (imap (fun i _ => CStep i i) paths)).
Definition hx_paths : list gostr := [L "/u/7"; L "/h"; L "/p"; L "/s"].
Lemma hx_here : exists e w, engine_of ex_ok hx_ops 0 [] e /\ cx_reachable e w /\
  map (hx_at (Some w)) [0; 1; 2; 3] =
    [Some (Ok (L "main.handler2")); Some (Ok (L "github.com/meilihao/water.newHandler.func1")); Some (Ok []);
     Some (Panic (L "reflect: call of reflect.Value.Pointer on a value without one"))] /\
  map (fun t => w_input w !! t) [0; 1; 2; 3] = map (fun p => Some (get p, no_body)) hx_paths /\
  map rt_handlers (routes e) = [[HFuncCtx 10; HFuncCtx 1; HFuncCtx 2]; [HFuncCtx 10; HHttp 40]; [HFuncCtx 10; HHandler 30]; [HFuncCtx 10; HHandler 31]].
Proof.
  edestruct (with_engine_split ex_ok hx_ops [] (fun e =>
    (map (hx_at (cx_schedule e (hx_moves hx_paths))) [0; 1; 2; 3],
     (fun w => map (fun t => w_input w !! t) [0; 1; 2; 3]) <$> cx_schedule e (hx_moves hx_paths),
     map rt_handlers (routes e)))) as (e & He & Hs); [vm_compute; reflexivity|].
  apply pair_equal_spec in Hs as [Hs Hr]. apply pair_equal_spec in Hs as [Hn Hi].
  destruct (cx_schedule e (hx_moves hx_paths)) as [w|] eqn:Hw; [|discriminate Hi].
  apply schedule_reachable in Hw. exists e, w. split_and!; [done|done|exact Hn| |exact Hr].
  cbn [fmap option_fmap option_map] in Hi. exact (f_equal (default []) Hi).
Qed.

(** ** C89 *)
(** False in general: if the last handler is a net/http handler, the name is that
    of a function of water; for a pointer it is empty; for a struct the call
    panics. *)
Theorem C89_name_refuted :
  exists (ops : list (rop nat)) e w t1 p1 q1 k1 x1 t2 p2 q2 k2 x2 t3 p3 q3 k3 x3,
    engine_of ex_ok ops 0 [] e /\ cx_reachable e w /\
    (w_threads w !! t1 = Some (TProg p1 q1 k1) /\ w_ctx w !! p1 = Some x1 /\ last (x_handlers x1) = Some (HHttp 40) /\
     HandlerName hx_kind hx_name x1 = Ok (L "github.com/meilihao/water.newHandler.func1") /\ hx_name 40 = L "main.handler40") /\
    (w_threads w !! t2 = Some (TProg p2 q2 k2) /\ w_ctx w !! p2 = Some x2 /\ HandlerName hx_kind hx_name x2 = Ok []) /\
    (w_threads w !! t3 = Some (TProg p3 q3 k3) /\ w_ctx w !! p3 = Some x3 /\ exists m, HandlerName hx_kind hx_name x3 = Panic m).
Proof.
  edestruct (with_engine_split ex_ok hx_ops [] (fun e =>
    (map (hx_at (cx_schedule e (hx_moves hx_paths))) [1; 2; 3],
     (fun w => x ← (k ← w_threads w !! 1; match k with TProg p _ _ => w_ctx w !! p | _ => None end); last (x_handlers x)) <$>
       cx_schedule e (hx_moves hx_paths)))) as (e & He & Hs); [vm_compute; reflexivity|].
  apply pair_equal_spec in Hs as [Hn Hl].
  destruct (cx_schedule e (hx_moves hx_paths)) as [w|] eqn:Hw; [|discriminate Hl].
  apply schedule_reachable in Hw. cbn [fmap option_fmap option_map] in Hl. injection Hl as Hl.
  cbn [map] in Hn. injection Hn as H1 H2 H3.
  apply hx_at_inv in H1 as (p1 & q1 & k1 & x1 & E1 & X1 & H1). apply hx_at_inv in H2 as (p2 & q2 & k2 & x2 & E2 & X2 & H2).
  apply hx_at_inv in H3 as (p3 & q3 & k3 & x3 & E3 & X3 & H3).
  rewrite E1 in Hl. cbn [mbind option_bind] in Hl. rewrite X1 in Hl. cbn [option_bind] in Hl.
  exists hx_ops, e, w, 1, p1, q1, k1, x1, 2, p2, q2, k2, x2, 3, p3, q3, k3, x3.
  split_and!; [done|done|done|done|exact Hl|exact H1|done|done|done|exact H2|done|done|].
  eexists. exact H3.
Qed.
Print Assumptions C89_name_refuted.
(** What holds: in every handler of a request, at every moment, whatever other
    requests are served, it is about the last handler of the chain of this
    request, and if this is a function of water, it gives its name. *)
Theorem C89_name_partial :
  forall (A V : Type) re_find sniff parse_form (code : handler A -> prog V) e re_ok kind fname ops r0 opts w t p q k x r body,
  engine_of re_ok ops r0 opts e -> reachable re_find sniff parse_form code e w ->
  w_threads w !! t = Some (TProg p q k) -> w_ctx w !! p = Some x -> w_input w !! t = Some (r, body) ->
  exists hs h, picked re_ok re_find e r hs /\ last hs = Some h /\
    (forall a, h = HFuncCtx a \/ (h = HHandler a /\ kind a = KFunc) -> HandlerName kind fname x = Ok (fname a)) /\
    (forall a, h = HHttp a -> HandlerName kind fname x = Ok (L "github.com/meilihao/water.newHandler.func1")) /\
    (forall a, h = HHttpFunc a -> HandlerName kind fname x = Ok (L "github.com/meilihao/water.newHandler.func2")) /\
    (forall a, h = HHandler a -> kind a = KPointer -> HandlerName kind fname x = Ok []) /\
    (forall a, h = HHandler a -> kind a = KOther -> exists m, HandlerName kind fname x = Panic m).
Proof.
  intros A V re_find sniff parse_form code e re_ok kind fname ops r0 opts w t p q k x r body He Hw Hk Hx Hin.
  destruct (handler_name re_find sniff parse_form code e re_ok kind fname ops r0 opts w t p q k x r body He Hw Hk Hx Hin) as (hs & h & Hp & Hl & Hn).
  exists hs, h. rewrite Hn. split_and!; [done|done| | | | |]; intros a; unfold nameOfFunction.
  - by intros [->|[-> ->]].
  - by intros ->.
  - by intros ->.
  - by intros -> ->.
  - intros -> ->. by eexists.
Qed.
Print Assumptions C89_name_partial.
Example C89_case : exists e w, engine_of ex_ok hx_ops 0 [] e /\ cx_reachable e w /\
  hx_at (Some w) 0 = Some (Ok (L "main.handler2")) /\ w_input w !! 0 = Some (get (L "/u/7"), no_body).
Proof.
  destruct hx_here as (e & w & He & Hw & Hn & Hi & _). exists e, w. split_and!; [done|done|..].
  - by injection Hn.
  - by injection Hi.
Qed.
