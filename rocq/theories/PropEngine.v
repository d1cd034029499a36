(** Properties of serving requests. *)
From Coq Require Import Sorted.
From Verif Require Import Base GoStr Strconv Pattern Tree TreeSpec Header Router RouterSpec RouterFacts
  MethodFacts HandlerFacts RouterProps Variant Ctx CtxFacts TraceSpec Engine EngineSpec ServeTop ServeMore ServePairs ServeThms
  ExampleRegexp ExampleRouter ExampleServe.

(** ** The example: a middleware that calls Next, handlers that use Params,
    Environ and Write *)
Definition sx_code (h : handler nat) : prog gostr :=
  match h with
  | HFuncCtx 10 => PNext PRet
  | HFuncCtx 1 => PDo (OSet (L "k") (L "value")) (fun _ => PRet)
  | HFuncCtx 2 => PDo (OGet (L "k")) (fun v => PDo (OWrite v) (fun _ => PDo OStatus (fun _ => PRet)))
  | HFuncCtx 3 => PDo OParams (fun p =>
      PDo (OWrite (match p with Some m => default (L "none") (m !! L "id") | None => L "nil" end)) (fun _ => PRet))
  | HFuncCtx 4 => PDo OFullPath (fun p => PDo (OWrite p) (fun _ => PRet))
  | HFuncCtx 5 => PNext (PNext PRet)
  | HFuncCtx 6 => PPanic (Some (L "reached"))
  | HFuncCtx 7 => PDo (OWriteHeader 404%Z) (fun _ => PDo (OWriteHeader 500%Z) (fun _ =>
      PDo (OWrite (L "x")) (fun _ => PDo OStatus (fun _ => PDo OWritten (fun _ => PRet)))))
  | _ => PRet
  end.
Definition sx_ops : list (rop nat) :=
  [RNew; RUse 0 [IFuncCtx 10]; RHandle 0 0 (L "/u/<id>") [IFuncCtx 1; IFuncCtx 2];
   RHandle 0 0 (L "/a") [IFuncCtx 3]; RHandle 0 0 (L "/<id>") [IFuncCtx 3]].
Notation sx_serve e x path :=
  (ServeHTTP ex_find ex_sniff ex_form sx_code e 0 x (arrive (get path) no_body)).
Definition new_ctx : ctxobj nat gostr := newContext.
(** the context after a request *)
Definition after (y : ending * option (ctxobj nat gostr) * conn gostr) : ctxobj nat gostr :=
  match y with (_, Some x, _) => x | _ => new_ctx end.

(** a dispatched request exists, with every feature used below *)
Example engine_case :
  exists e px c', engine_of ex_ok sx_ops 0 [] e /\
    sx_serve e new_ctx (L "/u/7") = (EDone, px, c') /\
    cn_log c' = [EvStart 0; EvNext; EvStart 1; EvCall (OSet (L "k") (L "value")) (Norm tt); EvEnd 1;
      EvStart 2; EvCall (OGet (L "k")) (Norm (L "value")); EvSend 200%Z; EvData (L "value");
      EvCall (OWrite (L "value")) (Norm tt); EvCall OStatus (Norm 200%Z); EvEnd 2; EvEnd 0] /\
    rw_body (cn_rw c') = L "value".
Proof.
  edestruct (with_engine_split ex_ok sx_ops [] (fun e =>
    let '(en, _, c) := sx_serve e new_ctx (L "/u/7") in (en, cn_log c, rw_body (cn_rw c))))
    as (e & He & Hs); [vm_compute; reflexivity|].
  destruct (sx_serve e new_ctx (L "/u/7")) as [[en px] c'] eqn:H.
  injection Hs as H1 H2 H3. subst en. exists e, px, c'. done.
Qed.
Lemma sx_plain h : only (fun o => ~ raw o) (sx_code h).
Proof.
  destruct h as [n|n|n|n]; try constructor.
  do 11 (destruct n as [|n]; [cbn; repeat first [by intros []|intros ?|constructor]|]). constructor.
Qed.
Lemma sx_uses_ctx e : uses_ctx sx_code e.
Proof. split; intros; apply sx_plain. Qed.

(** ** C01, for a whole engine *)
(** Whenever handlers run, they are those of a route that fits the request (with
    the static router: or that is spelled exactly like the path), or the
    not-found handlers when no route does. *)
Theorem C01_served_by_a_fitting_route :
  forall (A V : Type) re_ok re_find sniff parse_form (code : handler A -> prog V) ops r0 opts e id x r body en px c',
  engine_of re_ok ops r0 opts e ->
  ServeHTTP re_find sniff parse_form code e id x (arrive r body) = (en, px, c') ->
  starts (cn_log c') <> [] ->
  exists hs, dispatched re_ok re_find e r hs /\ turns code hs (cn_log c') en.
Proof. exact @serve_handlers. Qed.
Print Assumptions C01_served_by_a_fitting_route.

(** ** C07 *)
(** With the static router a handler of a literal route finds Params nil. *)
Theorem C07_params_refuted :
  exists (ops : list (rop nat)) e1 e2,
    engine_of ex_ok ops 0 ([] ++ [WithStaticRouter false]) e1 /\
    engine_of ex_ok ops 0 ([] ++ [WithStaticRouter true]) e2 /\
    seen3 (sx_serve e1 new_ctx (L "/a")) = (EDone, 200%Z, L "none", [0; 1]) /\
    seen3 (sx_serve e2 new_ctx (L "/a")) = (EDone, 200%Z, L "nil", [0; 1]).
Proof.
  edestruct (with_engine_split ex_ok sx_ops ([] ++ [WithStaticRouter false]) (fun e => seen3 (sx_serve e new_ctx (L "/a"))))
    as (e1 & He1 & Hs1); [vm_compute; reflexivity|].
  edestruct (with_engine_split ex_ok sx_ops ([] ++ [WithStaticRouter true]) (fun e => seen3 (sx_serve e new_ctx (L "/a"))))
    as (e2 & He2 & Hs2); [vm_compute; reflexivity|].
  exists sx_ops, e1, e2. done.
Qed.
Print Assumptions C07_params_refuted.
(** A route with an empty segment is found with the static router only. *)
Theorem C07_empty_segment_refuted :
  exists (ops : list (rop nat)) e1 e2,
    engine_of ex_ok ops 0 ([] ++ [WithStaticRouter false]) e1 /\
    engine_of ex_ok ops 0 ([] ++ [WithStaticRouter true]) e2 /\
    seen3 (sx_serve e1 new_ctx (L "/a//b")) = (EDone, 404%Z, [], []) /\
    seen3 (sx_serve e2 new_ctx (L "/a//b")) = (EDone, 200%Z, L "/a//b", [0]).
Proof.
  set (ops := [RNew; RHandle 0 0 (L "/a//b") [IFuncCtx 4]] : list (rop nat)).
  edestruct (with_engine_split ex_ok ops ([] ++ [WithStaticRouter false]) (fun e => seen3 (sx_serve e new_ctx (L "/a//b"))))
    as (e1 & He1 & Hs1); [vm_compute; reflexivity|].
  edestruct (with_engine_split ex_ok ops ([] ++ [WithStaticRouter true]) (fun e => seen3 (sx_serve e new_ctx (L "/a//b"))))
    as (e2 & He2 & Hs2); [vm_compute; reflexivity|].
  exists ops, e1, e2. done.
Qed.
Print Assumptions C07_empty_segment_refuted.
(** What holds: the replies are the same, whatever contexts are recycled, unless
    the path is spelled like a literal route; and also then, if that route has no
    empty segments and no handler uses Params. *)
Theorem C07_static_router_partial :
  forall (A V : Type) re_ok re_find sniff parse_form (code : handler A -> prog V) ops r0 opts e1 e2 id x x' r body,
  engine_of re_ok ops r0 (opts ++ [WithStaticRouter false]) e1 ->
  engine_of re_ok ops r0 (opts ++ [WithStaticRouter true]) e2 ->
  (forall u, u ∈ routes e2 -> verbatim re_ok e2 u r ->
     uri_segs (rt_variant u) = path_segs (rq_path r) /\
     forall v h, v ∈ routes e2 -> h ∈ rt_handlers v -> only param_free (code h)) ->
  reply re_find sniff parse_form code e1 id x r body = reply re_find sniff parse_form code e2 id x' r body.
Proof. exact @static_router_same. Qed.
Print Assumptions C07_static_router_partial.
(** both situations: a path that is no literal route, and a literal route whose
    handlers do not use Params *)
Definition sx_ops2 : list (rop nat) := [RNew; RHandle 0 0 (L "/p/q") [IFuncCtx 10; IFuncCtx 4]].
Example C07_case :
  (exists e2, engine_of ex_ok sx_ops 0 ([] ++ [WithStaticRouter true]) e2 /\
     (forall u, u ∈ routes e2 -> ~ verbatim ex_ok e2 u (get (L "/u/7")))) /\
  (exists e2 u, engine_of ex_ok sx_ops2 0 ([] ++ [WithStaticRouter true]) e2 /\ u ∈ routes e2 /\
     rt_variant u = rq_path (get (L "/p/q")) /\ uri_segs (rt_variant u) = path_segs (L "/p/q") /\
     forall v h, v ∈ routes e2 -> h ∈ rt_handlers v -> only param_free (sx_code h)).
Proof.
  split.
  - edestruct (with_engine_split ex_ok sx_ops ([] ++ [WithStaticRouter true]) (fun e => map rt_variant (routes e)))
      as (e2 & He2 & Hs2); [vm_compute; reflexivity|].
    exists e2. split; [done|]. intros u Hu (_ & _ & Hp & _).
    assert (rt_variant u ∈ map rt_variant (routes e2)) as Hin by (apply elem_of_list_fmap; eauto).
    rewrite Hs2, Hp in Hin. revert Hin. apply (bool_decide_eq_false _). vm_compute. reflexivity.
  - edestruct (with_engine_split ex_ok sx_ops2 ([] ++ [WithStaticRouter true]) (fun e => routes e))
      as (e2 & He2 & Hs2); [vm_compute; reflexivity|].
    exists e2. eexists. split; [done|]. rewrite Hs2. split; [left|]. split; [reflexivity|]. split; [reflexivity|].
    intros v h Hv. apply elem_of_list_singleton in Hv as ->. cbn [rt_handlers]. intros Hh.
    repeat (apply elem_of_cons in Hh as [->|Hh]; [cbn; repeat (constructor; try intros ?); done|]). by apply elem_of_nil in Hh.
Qed.

(** ** C08 *)
(** The context that served /x shows its Params to the handler of /a. *)
Theorem C08_recycled_params_refuted :
  exists (ops : list (rop nat)) e, engine_of ex_ok ops 0 [WithStaticRouter true] e /\
    seen3 (sx_serve e new_ctx (L "/a")) = (EDone, 200%Z, L "nil", [0; 1]) /\
    seen3 (sx_serve e (after (sx_serve e new_ctx (L "/secret"))) (L "/a")) = (EDone, 200%Z, L "secret", [0; 1]).
Proof.
  edestruct (with_engine_split ex_ok sx_ops [WithStaticRouter true] (fun e =>
    (seen3 (sx_serve e new_ctx (L "/a")), seen3 (sx_serve e (after (sx_serve e new_ctx (L "/secret"))) (L "/a")))))
    as (e & He & Hs); [vm_compute; reflexivity|].
  injection Hs as H1 H2. exists sx_ops, e. done.
Qed.
Print Assumptions C08_recycled_params_refuted.
(** What holds: the reply does not depend on the recycled context, unless the
    static router finds the path and a handler uses Params. *)
Theorem C08_recycled_context_partial :
  forall (A V : Type) re_ok re_find sniff parse_form (code : handler A -> prog V) ops r0 opts e,
  engine_of re_ok ops r0 opts e -> forall id x x' r body,
  (forall v, v ∈ routes e -> ~ verbatim re_ok e v r) ->
  reply re_find sniff parse_form code e id x r body = reply re_find sniff parse_form code e id x' r body.
Proof. exact @recycled_irrelevant. Qed.
Print Assumptions C08_recycled_context_partial.
Theorem C08_no_static_router_partial :
  forall (A V : Type) re_ok re_find sniff parse_form (code : handler A -> prog V) ops r0 opts e,
  engine_of re_ok ops r0 opts e -> forall id x x' r body, o_static (en_options e) = false ->
  reply re_find sniff parse_form code e id x r body = reply re_find sniff parse_form code e id x' r body.
Proof. exact @recycled_static_off. Qed.
Print Assumptions C08_no_static_router_partial.
Theorem C08_no_params_partial :
  forall (A V : Type) re_ok re_find sniff parse_form (code : handler A -> prog V) ops r0 opts e,
  engine_of re_ok ops r0 opts e -> forall id x x' r body,
  (forall v h, v ∈ routes e -> h ∈ rt_handlers v -> only param_free (code h)) ->
  reply re_find sniff parse_form code e id x r body = reply re_find sniff parse_form code e id x' r body.
Proof. exact @recycled_param_free. Qed.
Print Assumptions C08_no_params_partial.
Example C08_case :
  exists e, engine_of ex_ok sx_ops 0 [] e /\ o_static (en_options e) = false.
Proof.
  edestruct (with_engine_split ex_ok sx_ops [] (fun e => o_static (en_options e))) as (e & He & Hs); [vm_compute; reflexivity|].
  eauto.
Qed.

(** ** C12 *)
(** "/:id" and "/<id>" are both accepted, but no request runs the handlers of the
    second: its handler, which panics, is never called. *)
Theorem C12_shadowed_refuted :
  exists (ops : list (rop nat)) e v, engine_of ex_ok ops 0 [] e /\ v ∈ routes e /\ rt_handlers v = [HFuncCtx 6] /\
    (forall l en, turns sx_code [HFuncCtx 6] l en -> l <> [] -> en = EThrow (Some (L "reached"))) /\
    forall id x r body en px c', ServeHTTP ex_find ex_sniff ex_form sx_code e id x (arrive r body) = (en, px, c') ->
      en = EDone.
Proof.
  set (ops := [RNew; RHandle 0 0 (L "/:id") [IFuncCtx 0]; RHandle 0 0 (L "/<id>") [IFuncCtx 6]] : list (rop nat)).
  edestruct (with_engine_split ex_ok ops [] (fun e => (routes e, o_nofound (en_options e)))) as (e & He & Hs); [vm_compute; reflexivity|].
  injection Hs as Hs Hn. exists ops, e. eexists. split; [done|]. rewrite Hs. split; [right; left|]. split; [reflexivity|]. split.
  { intros l en Ht Hne. inversion Ht as [|i h l1 l2 en' Hi Hd|i h l1 v Hi Hd]; subst; [done|..];
      (destruct i; [|done]); injection Hi as <-; cbn in Hd; inversion Hd; done. }
  intros id x r body en px c' H.
  destruct (shadowed ex_ok ex_find ex_sniff ex_form sx_code ops 0 [] e id x r body en px c' He H) as
    [[? _]|[Ht|(v & Hv & Hf & Ht)]]; [done|..].
  { rewrite Hn in Ht. by inversion Ht. }
  assert (v = mkRoute (L "GET") (L "/:id") (L "/<id>") [HFuncCtx 0]) as ->.
  { rewrite Hs in Hv. apply elem_of_cons in Hv as [->|Hv]; [done|]. apply elem_of_list_singleton in Hv as ->. exfalso.
    destruct (Hf 0 (mkRoute (L "GET") (L "/:id") (L "/<id>") [HFuncCtx 0])) as (j & Hj & Hl).
    - by rewrite Hs.
    - split; [done|]. eexists. split; apply calc_route_ok; vm_compute; reflexivity.
    - assert (j = 0) as -> by lia. rewrite Hs in Hl. done. }
  assert (forall l en, turns sx_code [HFuncCtx 0] l en -> en = EDone) as Hk; [clear|by eapply Hk].
  intros l. induction l as [l IH] using (induction_ltof1 _ length). unfold ltof in IH. intros en' Ht.
  destruct Ht as [|i h l1 l2 en'' Hi Hd Ht2|i h l1 v Hi Hd]; [done|..]; (destruct i; [|done]); injection Hi as <-; cbn in Hd.
  - apply (IH l2); [|done]. simpl. rewrite app_length. simpl. lia.
  - inversion Hd.
Qed.
Print Assumptions C12_shadowed_refuted.
(** What holds: a route is reached by every request that it alone fits. *)
Theorem C12_sole_route_partial :
  forall (A V : Type) re_ok re_find sniff parse_form (code : handler A -> prog V) ops r0 opts e v id x r body en px c',
  engine_of re_ok ops r0 opts e -> v ∈ routes e -> (forall n, ~ refused r n) -> fits re_ok re_find v r ->
  (forall w, w ∈ routes e -> fits re_ok re_find w r \/ verbatim re_ok e w r -> w = v) ->
  ServeHTTP re_find sniff parse_form code e id x (arrive r body) = (en, px, c') ->
  turns code (rt_handlers v) (cn_log c') en /\ hist (path_rule (rt_uri v)) (cn_log c').
Proof. exact @sole_turns. Qed.
Print Assumptions C12_sole_route_partial.
(** A literal route is reached by its own path, whatever the other routes are,
    provided no other spells the same pattern. *)
Theorem C12_literal_route_partial :
  forall (A V : Type) re_ok re_find sniff parse_form (code : handler A -> prog V) ops r0 opts e v id x r body en px c',
  engine_of re_ok ops r0 opts e -> v ∈ routes e -> (forall n, ~ refused r n) -> literal re_ok v ->
  rt_method v = rq_method r -> path_segs (rq_path r) = uri_segs (rt_variant v) ->
  (forall w, w ∈ routes e -> same_pattern re_ok v w \/ verbatim re_ok e w r -> w = v) ->
  ServeHTTP re_find sniff parse_form code e id x (arrive r body) = (en, px, c') ->
  turns code (rt_handlers v) (cn_log c') en /\ hist (path_rule (rt_uri v)) (cn_log c').
Proof. exact @literal_turns. Qed.
Print Assumptions C12_literal_route_partial.
(** the only route of its pattern, and a request that it alone fits *)
Example C12_case :
  exists e v, engine_of ex_ok sx_ops 0 [] e /\ v ∈ routes e /\ rt_variant v = L "/a" /\
    (forall n, ~ refused (get (L "/a")) n) /\ literal ex_ok v /\
    path_segs (L "/a") = uri_segs (rt_variant v) /\
    (forall w, w ∈ routes e -> same_pattern ex_ok v w \/ verbatim ex_ok e w (get (L "/a")) -> w = v).
Proof.
  edestruct (with_engine_split ex_ok sx_ops [] (fun e => (routes e, o_static (en_options e)))) as (e & He & Hs); [vm_compute; reflexivity|].
  injection Hs as Hs Ho. exists e. eexists. split; [done|]. rewrite Hs. split; [right; left|]. split; [reflexivity|]. split.
  { intros n Hn. apply refusal_refused in Hn. vm_compute in Hn. discriminate. }
  split.
  { eexists. split; [apply calc_route_ok; vm_compute; reflexivity|]. vm_compute. repeat constructor. }
  split; [reflexivity|]. intros w Hw [Hsame|[Hbad _]]; [|congruence].
  destruct Hsame as [_ (q & Q1 & Q2)].
  assert (Hlen : forall u, uri_route ex_ok u q -> q = calc_route ex_ok u).
  { intros u Hu. unfold calc_route. unfold uri_route in Hu. clear -Hu. induction Hu as [|s p l k Hs Hl IH]; [done|].
    cbn [calc_pats]. by rewrite Hs, <- IH. }
  apply Hlen in Q1. apply Hlen in Q2. rewrite Q1 in Q2. clear -Hw Q2.
  repeat (apply elem_of_cons in Hw as [->|Hw]; [try done; vm_compute in Q2; discriminate|]). by apply elem_of_nil in Hw.
Qed.

(** ** C16 *)
Theorem C16_at_most_once_in_order :
  forall (A V : Type) re_ok re_find sniff parse_form (code : handler A -> prog V) ops r0 opts e id x r body en px c',
  engine_of re_ok ops r0 opts e ->
  ServeHTTP re_find sniff parse_form code e id x (arrive r body) = (en, px, c') ->
  starts (cn_log c') = [] \/
  exists hs, dispatched re_ok re_find e r hs /\ StronglySorted lt (starts (cn_log c')) /\
    Forall (fun i => i < length hs) (starts (cn_log c')).
Proof. exact @serve_order. Qed.
Print Assumptions C16_at_most_once_in_order.
(** even a handler that calls Next twice does not make another run twice *)
Example C16_case :
  exists e, engine_of ex_ok [RNew; RHandle 0 0 (L "/n") [IFuncCtx 5; IFuncCtx 0; IFuncCtx 2]] 0 [] e /\
    seen3 (sx_serve e new_ctx (L "/n")) = (EThrow (Some (L "Environ not exist: k")), 0%Z, [], [0; 1; 2]).
Proof.
  edestruct (with_engine_split ex_ok [RNew; RHandle 0 0 (L "/n") [IFuncCtx 5; IFuncCtx 0; IFuncCtx 2]] []
    (fun e => seen3 (sx_serve e new_ctx (L "/n")))) as (e & He & Hs); [vm_compute; reflexivity|]. eauto.
Qed.

(** ** C17 *)
(** A handler starts only at the beginning, by Next, or right after a handler
    returned while there was no response yet. *)
Theorem C17_chain_stops :
  forall (A V : Type) re_find sniff parse_form (code : handler A -> prog V) (e : engine A) id x r body en px c',
  ServeHTTP re_find sniff parse_form code e id x (arrive r body) = (en, px, c') ->
  hist start_rule (cn_log c').
Proof. exact @serve_stops. Qed.
Print Assumptions C17_chain_stops.
(** Without a response or a panic all of them run. *)
Theorem C17_all_run :
  forall (A V : Type) re_ok re_find sniff parse_form (code : handler A -> prog V) ops r0 opts e id x r body en px c',
  engine_of re_ok ops r0 opts e ->
  ServeHTTP re_find sniff parse_form code e id x (arrive r body) = (en, px, c') ->
  starts (cn_log c') <> [] -> en = EDone -> ~ responded (cn_log c') ->
  exists hs, dispatched re_ok re_find e r hs /\ starts (cn_log c') = seq 0 (length hs).
Proof. exact @serve_all. Qed.
Print Assumptions C17_all_run.
Example C17_case :
  exists e px c' px2 c2, engine_of ex_ok [RNew; RHandle 0 0 (L "/n") [IFuncCtx 0; IFuncCtx 0; IFuncCtx 0];
                                  RHandle 0 0 (L "/w") [IFuncCtx 7; IFuncCtx 0]] 0 [] e /\
    sx_serve e new_ctx (L "/n") = (EDone, px, c') /\ ~ responded (cn_log c') /\ starts (cn_log c') = [0; 1; 2] /\
    sx_serve e new_ctx (L "/w") = (EDone, px2, c2) /\ starts (cn_log c2) = [0].
Proof.
  edestruct (with_engine_split ex_ok [RNew; RHandle 0 0 (L "/n") [IFuncCtx 0; IFuncCtx 0; IFuncCtx 0];
                                  RHandle 0 0 (L "/w") [IFuncCtx 7; IFuncCtx 0]] []
    (fun e => let '(en, _, c) := sx_serve e new_ctx (L "/n") in let '(en2, _, c2) := sx_serve e new_ctx (L "/w") in
       (en, first_code (cn_log c), starts (cn_log c), (en2, starts (cn_log c2))))) as (e & He & Hs); [vm_compute; reflexivity|].
  destruct (sx_serve e new_ctx (L "/n")) as [[en px] c'] eqn:H1. destruct (sx_serve e new_ctx (L "/w")) as [[en2 px2] c2] eqn:H2.
  injection Hs as E1 E2 E3 E4 E5. subst. exists e, px, c', px2, c2. split_and!; try done. intros Hr. by apply Hr.
Qed.

(** ** C53 *)
(** Next called again after a response skips a handler: of four, the third is
    not run although the last one is. *)
Theorem C53_next_skips_refuted :
  exists (ops : list (rop nat)) e, engine_of ex_ok ops 0 [] e /\
    seen3 (sx_serve e new_ctx (L "/n")) = (EDone, 404%Z, L "x", [0; 1; 3]).
Proof.
  set (ops := [RNew; RHandle 0 0 (L "/n") [IFuncCtx 5; IFuncCtx 7; IFuncCtx 0; IFuncCtx 0]] : list (rop nat)).
  edestruct (with_engine_split ex_ok ops [] (fun e => seen3 (sx_serve e new_ctx (L "/n")))) as (e & He & Hs); [vm_compute; reflexivity|].
  exists ops, e. done.
Qed.
Print Assumptions C53_next_skips_refuted.
(** What holds: as long as there is no response, no handler is skipped. *)
Theorem C53_no_gap_partial :
  forall (A V : Type) re_find sniff parse_form (code : handler A -> prog V) (e : engine A) id x r body en px c',
  ServeHTTP re_find sniff parse_form code e id x (arrive r body) = (en, px, c') ->
  hist no_gap (cn_log c').
Proof. exact @serve_gap. Qed.
Print Assumptions C53_no_gap_partial.

(** ** C18 *)
(** Written() and Status() report the first status asked for. *)
Theorem C18_flags :
  forall (A V : Type) re_find sniff parse_form (code : handler A -> prog V) (e : engine A) id x r body en px c',
  ServeHTTP re_find sniff parse_form code e id x (arrive r body) = (en, px, c') ->
  hist flag_rule (cn_log c').
Proof. exact @serve_flags. Qed.
Print Assumptions C18_flags.
(** If no handler goes around the Context, the underlying WriteHeader is called
    at most once, with the first status asked for; if it is a valid one, it is
    the status of the response. *)
Theorem C18_first_status_wins :
  forall (A V : Type) re_ok re_find sniff parse_form (code : handler A -> prog V) ops r0 opts e id x r body en px c',
  engine_of re_ok ops r0 opts e ->
  ServeHTTP re_find sniff parse_form code e id x (arrive r body) = (en, px, c') ->
  starts (cn_log c') <> [] -> uses_ctx code e ->
  sends (cn_log c') = match first_code (cn_log c') with Some n => [n] | None => [] end /\
  forall n, first_code (cn_log c') = Some n -> (100 <= n <= 999)%Z -> exists h, rw_sent (cn_rw c') = Some (n, h).
Proof. exact @first_status. Qed.
Print Assumptions C18_first_status_wins.
(** The header map that is sent is the one before that call, and all data written
    follows (unless the status forbids a body). *)
Theorem C18_explicit_header :
  forall (A V : Type) re_ok re_find sniff parse_form (code : handler A -> prog V) ops r0 opts e id x r body en px c' l1 n o1 l2,
  engine_of re_ok ops r0 opts e ->
  ServeHTTP re_find sniff parse_form code e id x (arrive r body) = (en, px, c') ->
  starts (cn_log c') <> [] -> uses_ctx code e ->
  cn_log c' = l1 ++ EvCall (OWriteHeader n) o1 :: l2 -> first_code l1 = None -> (100 <= n <= 999)%Z ->
  sends (cn_log c') = [n] /\ o1 = Norm tt /\ rw_sent (cn_rw c') = Some (n, headers_of l1) /\
  (bodiless n -> rw_body (cn_rw c') = []) /\ (~ bodiless n -> rw_body (cn_rw c') = data_of l2).
Proof. exact @explicit_header. Qed.
Print Assumptions C18_explicit_header.
Example C18_case :
  exists e px c', engine_of ex_ok [RNew; RHandle 0 0 (L "/w") [IFuncCtx 7]] 0 [] e /\ uses_ctx sx_code e /\
    sx_serve e new_ctx (L "/w") = (EDone, px, c') /\
    cn_log c' = [EvStart 0; EvSend 404%Z; EvCall (OWriteHeader 404%Z) (Norm tt); EvCall (OWriteHeader 500%Z) (Norm tt);
      EvData (L "x"); EvCall (OWrite (L "x")) (Norm tt); EvCall OStatus (Norm 404%Z); EvCall OWritten (Norm true); EvEnd 0].
Proof.
  edestruct (with_engine_split ex_ok [RNew; RHandle 0 0 (L "/w") [IFuncCtx 7]] []
    (fun e => let '(en, _, c) := sx_serve e new_ctx (L "/w") in (en, cn_log c))) as (e & He & Hs); [vm_compute; reflexivity|].
  destruct (sx_serve e new_ctx (L "/w")) as [[en px] c'] eqn:H. injection Hs as E1 E2. subst.
  exists e, px, c'. split_and!; try done. apply sx_uses_ctx.
Qed.

(** ** C19 *)
Theorem C19_implicit_header :
  forall (A V : Type) re_ok re_find sniff parse_form (code : handler A -> prog V) ops r0 opts e id x r body en px c' l1 d o1 l2,
  engine_of re_ok ops r0 opts e ->
  ServeHTTP re_find sniff parse_form code e id x (arrive r body) = (en, px, c') ->
  starts (cn_log c') <> [] -> uses_ctx code e ->
  cn_log c' = l1 ++ EvCall (OWrite d) o1 :: l2 -> first_code l1 = None ->
  sends (cn_log c') = [200%Z] /\ o1 = Norm tt /\
  rw_sent (cn_rw c') = Some (200%Z, guess sniff d (headers_of l1)) /\
  rw_body (cn_rw c') = d ++ data_of l2.
Proof. exact @implicit_header. Qed.
Print Assumptions C19_implicit_header.
(** [engine_case] is an example: the log has the Write of "value", with no
    response before. *)

(** ** C22 *)
Theorem C22_refusals :
  forall (A V : Type) re_find sniff parse_form (code : handler A -> prog V) (e : engine A) id x r body n,
  refused r n ->
  exists px, ServeHTTP re_find sniff parse_form code e id x (arrive r body) = (EDone, px, bare r body n).
Proof. exact @serve_refused. Qed.
Print Assumptions C22_refusals.
(** every other request is dispatched, or answered 404 when there is nothing to
    dispatch it to *)
Theorem C22_no_other_refusals :
  forall (A V : Type) re_ok re_find sniff parse_form (code : handler A -> prog V) ops r0 opts e id x r body en px c',
  engine_of re_ok ops r0 opts e ->
  ServeHTTP re_find sniff parse_form code e id x (arrive r body) = (en, px, c') ->
  (forall n, ~ refused r n) ->
  (exists hs, dispatched re_ok re_find e r hs /\ turns code hs (cn_log c') en) \/
  (o_nofound (en_options e) = [] /\ (forall v, v ∈ routes e -> ~ fits re_ok re_find v r /\ ~ verbatim re_ok e v r) /\
   en = EDone /\ c' = bare r body 404%Z).
Proof. exact @serve_rest. Qed.
Print Assumptions C22_no_other_refusals.
Example C22_case :
  refused (mkReq (L "GET") 1 0 (L "/a") (L "/a") ∅ [] false) 406%Z /\
  refused (mkReq (L "GET") 1 1 (L "*") (L "*") ∅ [] false) 406%Z /\
  refused (mkReq (L "CONNECT") 2 0 (L "/a") (L "/a") ∅ [] false) 406%Z /\
  refused (mkReq (L "TRACE") 1 1 (L "/a") (L "/a") ∅ [] false) 405%Z /\
  forall n, ~ refused (get (L "/a")) n.
Proof.
  split_and!; try (apply refusal_refused; vm_compute; reflexivity).
  intros n Hn. apply refusal_refused in Hn. vm_compute in Hn. discriminate.
Qed.

(** ** C23 *)
Theorem C23_unmatched :
  forall (A V : Type) re_ok re_find sniff parse_form (code : handler A -> prog V) ops r0 opts e id x r body en px c',
  engine_of re_ok ops r0 opts e ->
  ServeHTTP re_find sniff parse_form code e id x (arrive r body) = (en, px, c') ->
  (forall n, ~ refused r n) ->
  (forall v, v ∈ routes e -> ~ fits re_ok re_find v r /\ ~ verbatim re_ok e v r) ->
  ((forall us, WithNoFoundHandlers us ∉ opts) -> en = EDone /\ c' = bare r body 404%Z) /\
  (forall o1 vs o2, opts = o1 ++ WithNoFoundHandlers vs :: o2 -> (forall us, WithNoFoundHandlers us ∉ o2) ->
     exists gs hs, Forall2 converts (befores (history ops) r0) gs /\ Forall2 converts vs hs /\ hs <> [] /\
       turns code (gs ++ hs) (cn_log c') en).
Proof. exact @serve_unmatched. Qed.
Print Assumptions C23_unmatched.
(** a Before handler, a Use handler and a not-found handler: the first and last run *)
Example C23_case :
  exists e, engine_of ex_ok [RNew; RBefore 0 [IFuncCtx 0]; RUse 0 [IFuncCtx 6]; RHandle 0 0 (L "/a") [IFuncCtx 3]] 0
      [WithNoFoundHandlers [IFuncCtx 4]] e /\
    seen3 (sx_serve e new_ctx (L "/b")) = (EDone, 200%Z, [], [0; 1]) /\
    o_nofound (en_options e) = [HFuncCtx 0; HFuncCtx 4].
Proof.
  edestruct (with_engine_split ex_ok [RNew; RBefore 0 [IFuncCtx 0]; RUse 0 [IFuncCtx 6]; RHandle 0 0 (L "/a") [IFuncCtx 3]]
      [WithNoFoundHandlers [IFuncCtx 4]]
    (fun e => (seen3 (sx_serve e new_ctx (L "/b")), o_nofound (en_options e)))) as (e & He & Hs); [vm_compute; reflexivity|].
  injection Hs as E1 E2. exists e. done.
Qed.

(** ** C24 *)
(** "/:id" and "/<id>": the handlers of the first run, FullPath names the second. *)
Theorem C24_wrong_path_refuted :
  exists (ops : list (rop nat)) e v, engine_of ex_ok ops 0 [] e /\ routes e !! 0 = Some v /\
    rt_handlers v = [HFuncCtx 4] /\ rt_uri v = L "/:id" /\
    (forall w, w ∈ routes e -> HFuncCtx 4 ∈ rt_handlers w -> w = v) /\
    seen3 (sx_serve e new_ctx (L "/x")) = (EDone, 200%Z, L "/<id>", [0]).
Proof.
  set (ops := [RNew; RHandle 0 0 (L "/:id") [IFuncCtx 4]; RHandle 0 0 (L "/<id>") [IFuncCtx 6]] : list (rop nat)).
  edestruct (with_engine_split ex_ok ops [] (fun e => (routes e, seen3 (sx_serve e new_ctx (L "/x"))))) as (e & He & Hs); [vm_compute; reflexivity|].
  injection Hs as Hr Hs. exists ops, e. eexists. split; [done|]. rewrite Hr. split; [reflexivity|]. split; [reflexivity|].
  split; [reflexivity|]. split; [|done].
  intros w Hw Hh. apply elem_of_cons in Hw as [->|Hw]; [done|]. apply elem_of_list_singleton in Hw as ->.
  by apply elem_of_list_singleton in Hh.
Qed.
Print Assumptions C24_wrong_path_refuted.
(** In general: the handlers are those of the first route with that pattern, and
    FullPath is the URI of the last; it is empty in the not-found handlers. *)
Theorem C24_full_path_partial :
  forall (A V : Type) re_ok re_find sniff parse_form (code : handler A -> prog V) ops r0 opts e id x r body en px c',
  engine_of re_ok ops r0 opts e ->
  ServeHTTP re_find sniff parse_form code e id x (arrive r body) = (en, px, c') ->
  starts (cn_log c') <> [] ->
  (exists v w, v ∈ routes e /\ w ∈ routes e /\ same_pattern re_ok v w /\ first_of re_ok e v /\ last_of re_ok e w /\
     turns code (rt_handlers v) (cn_log c') en /\ hist (path_rule (rt_uri w)) (cn_log c')) \/
  ((forall v, v ∈ routes e -> ~ fits re_ok re_find v r /\ ~ verbatim re_ok e v r) /\
   turns code (o_nofound (en_options e)) (cn_log c') en /\ hist (path_rule []) (cn_log c')).
Proof. exact @serve_path. Qed.
Print Assumptions C24_full_path_partial.
(** So the property holds when no two routes spell the same pattern. *)
Theorem C24_full_path_distinct_partial :
  forall (A V : Type) re_ok re_find sniff parse_form (code : handler A -> prog V) ops r0 opts e id x r body en px c',
  engine_of re_ok ops r0 opts e ->
  ServeHTTP re_find sniff parse_form code e id x (arrive r body) = (en, px, c') ->
  starts (cn_log c') <> [] ->
  (forall v w, v ∈ routes e -> w ∈ routes e -> same_pattern re_ok v w -> v = w) ->
  (exists v, v ∈ routes e /\ turns code (rt_handlers v) (cn_log c') en /\ hist (path_rule (rt_uri v)) (cn_log c')) \/
  ((forall v, v ∈ routes e -> ~ fits re_ok re_find v r /\ ~ verbatim re_ok e v r) /\
   turns code (o_nofound (en_options e)) (cn_log c') en /\ hist (path_rule []) (cn_log c')).
Proof. exact @serve_path_unique. Qed.
Print Assumptions C24_full_path_distinct_partial.

(** ** C25 *)
(** Set, Get, GetMaybe answer according to what is stored under the name: *)
Theorem C25_environ :
  forall (A V : Type) re_find sniff parse_form (code : handler A -> prog V) (e : engine A) id x r body en px c',
  ServeHTTP re_find sniff parse_form code e id x (arrive r body) = (en, px, c') ->
  hist env_rule (cn_log c').
Proof. exact @serve_env. Qed.
Print Assumptions C25_environ.
(** so after a Set, and unless the map is assigned to directly, Get gives that
    value and a second Set panics. *)
Theorem C25_write_once :
  forall (A V : Type) re_find sniff parse_form (code : handler A -> prog V) (e : engine A) id x r body en px c' n v l1 l2,
  ServeHTTP re_find sniff parse_form code e id x (arrive r body) = (en, px, c') ->
  cn_log c' = l1 ++ EvCall (OSet n v) (Norm tt) :: l2 ->
  forall k o a k', l2 = k ++ EvCall o a :: k' -> Forall (fun ev => ~ assigns n ev) k ->
  match o return outcome (ans o) -> Prop with
  | OGet n' => fun a => n' = n -> a = Norm v
  | OGetMaybe n' => fun a => n' = n -> a = Norm (Some v)
  | OSet n' _ => fun a => n' = n -> a = Throw (Some (L "double Environ: " ++ n))
  | _ => fun _ => True
  end a.
Proof. exact @serve_write_once. Qed.
Print Assumptions C25_write_once.
(** [engine_case] has a Set and a Get of the same name. *)

(** ** C41, replies *)
(** Two registrations that differ only in notation give the same replies to
    handlers that do not look at FullPath. *)
Theorem C41_same_replies :
  forall (A V : Type) re_ok re_find sniff parse_form (code : handler A -> prog V) ops ops' r0 opts e e' id x r body,
  engine_of re_ok ops r0 opts e -> engine_of re_ok ops' r0 opts e' ->
  Forall2 ev_gin (history ops) (history ops') ->
  (forall v h, v ∈ routes e -> h ∈ rt_handlers v -> only path_free (code h)) ->
  reply re_find sniff parse_form code e id x r body = reply re_find sniff parse_form code e' id x r body.
Proof. exact @gin_reply. Qed.
Print Assumptions C41_same_replies.

(** ** C50, invocation *)
(** Whatever its type, a handler value is called when its turn comes, and only
    then: the log is that of the chain's programs, where a net/http handler is
    called with the request. *)
Theorem C50_invoked_in_turn :
  forall (A V : Type) re_ok re_find sniff parse_form (water_code : A -> prog V) http_code ops r0 opts e id x r body en px c',
  engine_of re_ok ops r0 opts e ->
  ServeHTTP re_find sniff parse_form (invoke water_code http_code) e id x (arrive r body) = (en, px, c') ->
  starts (cn_log c') <> [] ->
  exists hs, dispatched re_ok re_find e r hs /\ turns (invoke water_code http_code) hs (cn_log c') en.
Proof. exact @serve_invoked. Qed.
Print Assumptions C50_invoked_in_turn.
