(** Properties of requests served concurrently. *)
From Verif Require Import Base GoStr Strconv Pattern Tree TreeSpec Header Router RouterSpec Ctx CtxFacts Engine EngineSpec
  ServeTop ServeMore ExampleRegexp ExampleRouter ExampleServe PropEngine Machine MachineSpec MachineThms ExampleMachine.

(** ** The example: two requests *)
Notation cx_schedule e l := (schedule ex_find ex_sniff ex_form sx_code e l).
Notation cx_reachable e w := (reachable ex_find ex_sniff ex_form sx_code e w).
(** they take turns *)
Definition cx_both (n : nat) : list choice :=
  [CArrive 0 (get (L "/u/7")) no_body; CArrive 1 (get (L "/u/8")) no_body] ++ concat (replicate n [CStep 0 0; CStep 1 1]).
(** the second one waits for the context of the first one *)
Definition cx_after : list choice :=
  [CArrive 0 (get (L "/secret")) no_body; CArrive 1 (get (L "/a")) no_body; CStep 1 0] ++ replicate 18 (CStep 0 0) ++ replicate 17 (CStep 1 0).
Definition cx_bodies (w : option (world nat gostr)) : option (list (option gostr)) :=
  (fun w => map (fun t => (fun c => rw_body (cn_rw c)) <$> w_conns w !! t) [0; 1]) <$> w.
Definition cx_holds (w : option (world nat gostr)) : option (list (option nat)) :=
  (fun w => map (fun t => k ← w_threads w !! t; holds k) [0; 1]) <$> w.
Definition cx_ended (w : option (world nat gostr)) : option (list bool) :=
  (fun w => map (fun t => match w_threads w !! t with Some (TEnd EDone) => true | _ => false end) [0; 1]) <$> w.

(** ** C42 *)
(** At every moment of every execution, no two goroutines work on the same
    context, no goroutine works on a context in the pool, and no context is in the
    pool twice. *)
Theorem C42_contexts_not_shared :
  forall (A V : Type) re_find sniff parse_form (code : handler A -> prog V) e w,
  reachable re_find sniff parse_form code e w ->
  NoDup (w_pool w) /\
  (forall t k p, w_threads w !! t = Some k -> holds k = Some p -> p ∉ w_pool w) /\
  (forall t t' k k' p, w_threads w !! t = Some k -> w_threads w !! t' = Some k' -> holds k = Some p -> holds k' = Some p -> t = t').
Proof. exact @own_context. Qed.
Print Assumptions C42_contexts_not_shared.
(** A step of a goroutine leaves the connections and the progress of the others as
    they are, and changes no context but the one it works on (or a new one). *)
Theorem C42_steps_stay_home :
  forall (A V : Type) re_find sniff parse_form (code : handler A -> prog V) e w t w',
  reachable re_find sniff parse_form code e w -> tstep re_find sniff parse_form code e t w w' ->
  (forall u, u <> t -> w_conns w' !! u = w_conns w !! u /\ w_threads w' !! u = w_threads w !! u) /\
  (forall p, w_ctx w' !! p = w_ctx w !! p \/
     (exists k, w_threads w !! t = Some k /\ holds k = Some p) \/
     (w_ctx w !! p = None /\ w_ctx w' !! p = Some newContext)).
Proof. exact @own_steps. Qed.
Print Assumptions C42_steps_stay_home.
(** two requests in their handlers at the same time *)
Example C42_case :
  exists e w k0 k1, engine_of ex_ok sx_ops 0 [] e /\ cx_reachable e w /\
    w_threads w !! 0 = Some k0 /\ w_threads w !! 1 = Some k1 /\ holds k0 = Some 0 /\ holds k1 = Some 1 /\
    exists w', tstep ex_find ex_sniff ex_form sx_code e 0 w w'.
Proof.
  edestruct (with_engine_split ex_ok sx_ops [] (fun e => (cx_holds (cx_schedule e (cx_both 12)),
    match cx_schedule e (cx_both 12) with
    | Some w => match move ex_find ex_sniff ex_form sx_code e w (CStep 0 0) with Some (Some 0, _) => true | _ => false end
    | None => false
    end))) as (e & He & Hs); [vm_compute; reflexivity|].
  apply pair_equal_spec in Hs as [Hs Hm].
  destruct (cx_schedule e (cx_both 12)) as [w|] eqn:Hw; [|discriminate Hs]. apply schedule_reachable in Hw. cbn [cx_holds fmap option_fmap option_map map] in Hs.
  injection Hs as H0 H1. destruct (w_threads w !! 0) as [k0|] eqn:E0; [|discriminate H0]. destruct (w_threads w !! 1) as [k1|] eqn:E1; [|discriminate H1].
  exists e, w, k0, k1. split_and!; [done|done|done|done|exact H0|exact H1|].
  destruct (move _ _ _ _ _ _ _) as [[[[|n]|] w']|] eqn:E; try discriminate Hm. apply move_sound in E. by exists w'.
Qed.

(** ** C43 *)
(** The response of a request can depend on another request in flight, through the
    context that it gets from the pool. *)
Theorem C43_recycled_params_refuted :
  exists (ops : list (rop nat)) e w, engine_of ex_ok ops 0 [WithStaticRouter true] e /\ cx_reachable e w /\
    ended w 1 /\ w_input w !! 1 = Some (get (L "/a"), no_body) /\
    (rw_body ∘ cn_rw) <$> w_conns w !! 1 = Some (L "secret") /\
    rw_body (cn_rw (sx_serve e new_ctx (L "/a")).2) = L "nil".
Proof.
  edestruct (with_engine_split ex_ok sx_ops [WithStaticRouter true] (fun e =>
    (cx_bodies (cx_schedule e cx_after), cx_ended (cx_schedule e cx_after),
     rw_body (cn_rw (sx_serve e new_ctx (L "/a")).2),
     (fun w => w_input w !! 1) <$> cx_schedule e cx_after))) as (e & He & Hs).
  { vm_compute. reflexivity. }
  apply pair_equal_spec in Hs as [Hs Hi]. apply pair_equal_spec in Hs as [Hs Ha]. apply pair_equal_spec in Hs as [Hb Hd].
  destruct (cx_schedule e cx_after) as [w|] eqn:Hw; [|discriminate Hb].
  apply schedule_reachable in Hw. cbn [cx_bodies cx_ended fmap option_fmap option_map map] in Hb, Hd, Hi.
  injection Hb as _ Hb. injection Hd as _ Hd.
  exists sx_ops, e, w. split_and!; [done|done| |exact (f_equal (default None) Hi)| |done].
  - destruct (w_threads w !! 1) as [[]|] eqn:E; try discriminate Hd. by eexists.
  - destruct (w_conns w !! 1) as [c|]; [|discriminate Hb]. exact Hb.
Qed.
Print Assumptions C43_recycled_params_refuted.
(** What holds: whatever runs concurrently, a request that has ended went exactly
    as if it were served alone with some context that had only served whole
    requests before. *)
Theorem C43_as_if_alone_partial :
  forall (A V : Type) re_find sniff parse_form (code : handler A -> prog V) e w t en,
  reachable re_find sniff parse_form code e w -> w_threads w !! t = Some (TEnd en) ->
  exists r body x px c, w_input w !! t = Some (r, body) /\ w_conns w !! t = Some c /\
    recycled re_find sniff parse_form code e (w_input w) x /\
    ServeHTTP re_find sniff parse_form code e t x (arrive r body) = (en, px, c).
Proof. exact @as_if_alone. Qed.
Print Assumptions C43_as_if_alone_partial.
(** So the response is the one of the request alone, unless the static router finds
    the path and a handler uses Params. *)
Theorem C43_response_partial :
  forall (A V : Type) re_find sniff parse_form (code : handler A -> prog V) re_ok ops r0 opts e,
  engine_of re_ok ops r0 opts e -> forall w t en r body c,
  reachable re_find sniff parse_form code e w -> w_threads w !! t = Some (TEnd en) -> w_input w !! t = Some (r, body) ->
  w_conns w !! t = Some c -> (forall v, v ∈ routes e -> ~ verbatim re_ok e v r) ->
  (en, c) = reply re_find sniff parse_form code e t newContext r body.
Proof. exact @conc_irrelevant. Qed.
Print Assumptions C43_response_partial.
Theorem C43_no_static_router_partial :
  forall (A V : Type) re_find sniff parse_form (code : handler A -> prog V) re_ok ops r0 opts e,
  engine_of re_ok ops r0 opts e -> forall w t en r body c,
  reachable re_find sniff parse_form code e w -> w_threads w !! t = Some (TEnd en) -> w_input w !! t = Some (r, body) ->
  w_conns w !! t = Some c -> o_static (en_options e) = false ->
  (en, c) = reply re_find sniff parse_form code e t newContext r body.
Proof. exact @conc_static_off. Qed.
Print Assumptions C43_no_static_router_partial.
Theorem C43_no_params_partial :
  forall (A V : Type) re_find sniff parse_form (code : handler A -> prog V) re_ok ops r0 opts e,
  engine_of re_ok ops r0 opts e -> forall w t en r body c,
  reachable re_find sniff parse_form code e w -> w_threads w !! t = Some (TEnd en) -> w_input w !! t = Some (r, body) ->
  w_conns w !! t = Some c -> (forall v h, v ∈ routes e -> h ∈ rt_handlers v -> only param_free (code h)) ->
  (en, c) = reply re_find sniff parse_form code e t newContext r body.
Proof. exact @conc_param_free. Qed.
Print Assumptions C43_no_params_partial.
(** two requests that took turns and have ended *)
Example C43_case :
  exists e w, engine_of ex_ok sx_ops 0 [] e /\ cx_reachable e w /\ o_static (en_options e) = false /\
    w_threads w !! 0 = Some (TEnd EDone) /\ w_threads w !! 1 = Some (TEnd EDone) /\
    (rw_body ∘ cn_rw) <$> w_conns w !! 1 = Some (L "value").
Proof.
  edestruct (with_engine_split ex_ok sx_ops [] (fun e =>
    (cx_bodies (cx_schedule e (cx_both 23)), cx_ended (cx_schedule e (cx_both 23)), o_static (en_options e)))) as (e & He & Hs).
  { vm_compute. reflexivity. }
  apply pair_equal_spec in Hs as [Hs Ho]. apply pair_equal_spec in Hs as [Hb Hd].
  destruct (cx_schedule e (cx_both 23)) as [w|] eqn:Hw; [|discriminate Hb].
  apply schedule_reachable in Hw. cbn [cx_bodies cx_ended fmap option_fmap option_map map] in Hb, Hd.
  injection Hb as _ Hb. injection Hd as Hd0 Hd1.
  exists e, w. split_and!; [done|done|done|..].
  - destruct (w_threads w !! 0) as [[| | | | | | | | | | | |[]]|] eqn:E; try discriminate Hd0. done.
  - destruct (w_threads w !! 1) as [[| | | | | | | | | | | |[]]|] eqn:E; try discriminate Hd1. done.
  - destruct (w_conns w !! 1) as [c|]; [|discriminate Hb]. exact Hb.
Qed.

(** ** C65 *)
(** A request never waits for another one: from every moment on its goroutine can
    finish by steps of its own. *)
Theorem C65_never_blocked :
  forall (A V : Type) re_find sniff parse_form (code : handler A -> prog V) e w t,
  reachable re_find sniff parse_form code e w -> is_Some (w_threads w !! t) ->
  exists n w', execution re_find sniff parse_form code e w (replicate n (Some t)) w' /\ ended w' t.
Proof. exact @alone_finishes. Qed.
Print Assumptions C65_never_blocked.
(** Once it has its context, the number of its steps is fixed: whatever the others
    do, it ends with exactly that step. *)
Theorem C65_steps_fixed :
  forall (A V : Type) re_find sniff parse_form (code : handler A -> prog V) e w t k p,
  reachable re_find sniff parse_form code e w -> w_threads w !! t = Some k -> holds k = Some p ->
  exists n, forall l w', execution re_find sniff parse_form code e w l w' ->
    turns t l <= n /\ (turns t l = n <-> ended w' t).
Proof. exact @turns_fixed. Qed.
Print Assumptions C65_steps_fixed.
(** [C42_case] is a situation with two goroutines in which both apply. *)
