(** Properties of goroutines that handlers start and that use the Context. *)
From Verif Require Import Base GoStr Strconv Pattern Tree TreeSpec Header Router RouterSpec Ctx CtxFacts Engine EngineSpec
  ServeTop ServeMore ExampleRegexp ExampleRouter ExampleServe PropEngine Machine MachineSpec MachineThms ExampleMachine Stray StrayFacts.

(** ** The example: request 0 starts a goroutine that writes to its context *)
Notation jx_moves e w l := (moves ex_find ex_sniff ex_form sx_code e w l).
Notation jx_crowded e may g := (crowded ex_find ex_sniff ex_form sx_code e may g).
Definition jx_write (w : world nat gostr) : option (world nat gostr) :=
  match w_ctx w !! 0 with
  | Some x => match x_conn x with
              | Some j => match w_conns w !! j with
                          | Some c => let '(_, (x', c')) := call ex_sniff ex_form (OWrite (L "secret")) x c in
                                      Some (mkWorld (<[0 := x']> (w_ctx w)) (w_pool w) (<[j := c']> (w_conns w)) (w_threads w) (w_input w))
                          | None => None
                          end
              | None => None
              end
  | None => None
  end.
Lemma jx_write_stray w w' : jx_write w = Some w' -> stray ex_sniff ex_form 0 w w'.
Proof.
  unfold jx_write. destruct (w_ctx w !! 0) as [x|] eqn:Hx; [|done]. destruct (x_conn x) as [j|] eqn:Hj; [|done].
  destruct (w_conns w !! j) as [c|] eqn:Hc; [|done]. destruct (call _ _ _ x c) as [r [x' c']] eqn:E. intros [= <-]. by eapply sy_call.
Qed.
(** it is started after l1, with context 0, writes after l2, and l3 follows *)
Definition jx_run (e : engine nat) (l1 l2 l3 : list choice) : option (bool * world nat gostr) :=
  match jx_moves e empty_world l1 with
  | Some w1 =>
      match w_threads w1 !! 0 with
      | Some (TProg 0 _ _) =>
          match jx_moves e w1 l2 with
          | Some w2 => match jx_write w2 with
                       | Some w3 => match jx_moves e w3 l3 with
                                    | Some w4 => Some (match w_threads w2 !! 0 with Some (TEnd _) => true | _ => false end, w4)
                                    | None => None
                                    end
                       | None => None
                       end
          | None => None
          end
      | _ => None
      end
  | None => None
  end.
Lemma jx_run_crowded e (may : world nat gostr -> nat -> Prop) l1 l2 l3 b w : jx_run e l1 l2 l3 = Some (b, w) ->
  (forall w2, (b = false -> ~ ended w2 0) -> may w2 0) -> jx_crowded e may (mkCrowd w [(0, 0)]).
Proof.
  unfold jx_run. destruct (jx_moves e empty_world l1) as [w1|] eqn:H1; [|done].
  destruct (w_threads w1 !! 0) as [[| | | | | | | |[|] q k| | | |]|] eqn:Ht; try done.
  destruct (jx_moves e w1 l2) as [w2|] eqn:H2; [|done]. destruct (jx_write w2) as [w3|] eqn:H3; [|done].
  destruct (jx_moves e w3 l3) as [w4|] eqn:H4; [|done]. intros [= <- <-] Hm.
  assert (jx_crowded e may (mkCrowd w1 [])) as G1 by (by apply (crowded_moves _ _ _ _ _ _ (mkCrowd empty_world []) l1); [constructor|]).
  assert (jx_crowded e may (mkCrowd w1 [(0, 0)])) as G1' by (by eapply (cr_go _ _ _ _ _ _ (mkCrowd w1 []) 0 0)).
  assert (jx_crowded e may (mkCrowd w2 [(0, 0)])) as G2 by (by apply (crowded_moves _ _ _ _ _ _ (mkCrowd w1 [(0, 0)]) l2)).
  assert (jx_crowded e may (mkCrowd w3 [(0, 0)])) as G3.
  { apply (cr_use _ _ _ _ _ _ (mkCrowd w2 [(0, 0)]) 0 0); [done|left| |by apply jx_write_stray]. apply Hm. cbn.
    intros Hb [en He]. by rewrite He in Hb. }
  by apply (crowded_moves _ _ _ _ _ _ (mkCrowd w3 [(0, 0)]) l3).
Qed.
Definition jx_bodies (w : world nat gostr) : list (option gostr) :=
  map (fun t => (fun c => rw_body (cn_rw c)) <$> w_conns w !! t) [0; 1].
Definition jx_ended (w : world nat gostr) : list bool :=
  map (fun t => match w_threads w !! t with Some (TEnd EDone) => true | _ => false end) [0; 1].
Definition jx_late (e : engine nat) := jx_run e (CArrive 0 (get (L "/u/7")) no_body :: replicate 7 (CStep 0 0))
  (replicate 16 (CStep 0 0) ++ CArrive 1 (get (L "/u/8")) no_body :: replicate 7 (CStep 1 0)) (replicate 10 (CStep 1 0)).
Definition jx_early (e : engine nat) := jx_run e
  (CArrive 0 (get (L "/u/7")) no_body :: CArrive 1 (get (L "/u/8")) no_body :: concat (replicate 7 [CStep 0 0; CStep 1 1]))
  [CStep 1 1] (replicate 10 (CStep 0 0) ++ replicate 15 (CStep 1 1)).

(** ** C95 *)
(** A goroutine that a handler has started and that goes on using the Context after
    its request has ended writes to the response of another request. *)
Theorem C95_kept_context_refuted :
  exists (ops : list (rop nat)) e w, engine_of ex_ok ops 0 [] e /\ jx_crowded e (fun _ _ => True) (mkCrowd w [(0, 0)]) /\
    ended w 1 /\ w_input w !! 1 = Some (get (L "/u/8"), no_body) /\
    (rw_body ∘ cn_rw) <$> w_conns w !! 1 = Some (L "secret") /\
    rw_body (cn_rw (sx_serve e new_ctx (L "/u/8")).2) = L "value".
Proof.
  edestruct (with_engine_split ex_ok sx_ops [] (fun e =>
    ((fun '(b, w) => (b, jx_bodies w, jx_ended w, w_input w !! 1)) <$> jx_late e,
     rw_body (cn_rw (sx_serve e new_ctx (L "/u/8")).2)))) as (e & He & Hs).
  { vm_compute. reflexivity. }
  apply pair_equal_spec in Hs as [Hs Ha]. destruct (jx_late e) as [[b w]|] eqn:Hw; [|discriminate Hs].
  cbn [fmap option_fmap option_map] in Hs. injection Hs as _ _ Hb _ Hd Hi.
  exists sx_ops, e, w. split_and!; [done|by eapply jx_run_crowded| |exact Hi| |done].
  - destruct (w_threads w !! 1) as [[]|] eqn:E; try discriminate Hd. by eexists.
  - destruct (w_conns w !! 1) as [c|]; [|discriminate Hb]. exact Hb.
Qed.
Print Assumptions C95_kept_context_refuted.
(** What holds: if goroutines use the Context only until their request has ended,
    then whatever they do with it, it is not the one of any other request nor in the
    pool, and no response but the one of their request changes; *)
Theorem C95_goroutines_stay_home_partial :
  forall (A V : Type) re_find sniff parse_form (code : handler A -> prog V) e g t p w',
  crowded re_find sniff parse_form code e (fun w t => ~ ended w t) g -> (t, p) ∈ cr_kept g -> ~ ended (cr_world g) t ->
  stray sniff parse_form p (cr_world g) w' ->
  (forall u, w_threads w' !! u = w_threads (cr_world g) !! u) /\
  (forall u, u <> t -> w_conns w' !! u = w_conns (cr_world g) !! u) /\
  (forall q, q <> p -> w_ctx w' !! q = w_ctx (cr_world g) !! q) /\
  p ∉ w_pool (cr_world g) /\
  (forall u k, w_threads (cr_world g) !! u = Some k -> holds k = Some p -> u = t).
Proof. exact @stray_home. Qed.
Print Assumptions C95_goroutines_stay_home_partial.
(** and a request whose handlers have started none goes as if it were alone, with
    some context (which those goroutines may have left in any state); *)
Theorem C95_as_if_alone_partial :
  forall (A V : Type) re_find sniff parse_form (code : handler A -> prog V) e g u en,
  crowded re_find sniff parse_form code e (fun w t => ~ ended w t) g -> w_threads (cr_world g) !! u = Some (TEnd en) ->
  (forall p, (u, p) ∉ cr_kept g) ->
  exists r body x px c, w_input (cr_world g) !! u = Some (r, body) /\ w_conns (cr_world g) !! u = Some c /\
    ServeHTTP re_find sniff parse_form code e u x (arrive r body) = (en, px, c).
Proof. exact @quiet_alone. Qed.
Print Assumptions C95_as_if_alone_partial.
(** so its response is the one of the request alone, unless the static router finds
    the path and a handler uses Params. *)
Theorem C95_response_partial :
  forall (A V : Type) re_find sniff parse_form (code : handler A -> prog V) re_ok ops r0 opts e,
  engine_of re_ok ops r0 opts e -> forall g u en r body c,
  crowded re_find sniff parse_form code e (fun w t => ~ ended w t) g ->
  w_threads (cr_world g) !! u = Some (TEnd en) -> w_input (cr_world g) !! u = Some (r, body) ->
  w_conns (cr_world g) !! u = Some c -> (forall p, (u, p) ∉ cr_kept g) ->
  (forall v, v ∈ routes e -> ~ verbatim re_ok e v r) ->
  (en, c) = reply re_find sniff parse_form code e u newContext r body.
Proof. exact @quiet_irrelevant. Qed.
Print Assumptions C95_response_partial.
Theorem C95_no_static_router_partial :
  forall (A V : Type) re_find sniff parse_form (code : handler A -> prog V) re_ok ops r0 opts e,
  engine_of re_ok ops r0 opts e -> forall g u en r body c,
  crowded re_find sniff parse_form code e (fun w t => ~ ended w t) g ->
  w_threads (cr_world g) !! u = Some (TEnd en) -> w_input (cr_world g) !! u = Some (r, body) ->
  w_conns (cr_world g) !! u = Some c -> (forall p, (u, p) ∉ cr_kept g) ->
  o_static (en_options e) = false ->
  (en, c) = reply re_find sniff parse_form code e u newContext r body.
Proof. exact @quiet_static_off. Qed.
Print Assumptions C95_no_static_router_partial.
Theorem C95_no_params_partial :
  forall (A V : Type) re_find sniff parse_form (code : handler A -> prog V) re_ok ops r0 opts e,
  engine_of re_ok ops r0 opts e -> forall g u en r body c,
  crowded re_find sniff parse_form code e (fun w t => ~ ended w t) g ->
  w_threads (cr_world g) !! u = Some (TEnd en) -> w_input (cr_world g) !! u = Some (r, body) ->
  w_conns (cr_world g) !! u = Some c -> (forall p, (u, p) ∉ cr_kept g) ->
  (forall v h, v ∈ routes e -> h ∈ rt_handlers v -> only param_free (code h)) ->
  (en, c) = reply re_find sniff parse_form code e u newContext r body.
Proof. exact @quiet_param_free. Qed.
Print Assumptions C95_no_params_partial.
(** a goroutine that changes the response of its own request while another one is
    served *)
Example C95_case :
  exists e w, engine_of ex_ok sx_ops 0 [] e /\ o_static (en_options e) = false /\
    jx_crowded e (fun w t => ~ ended w t) (mkCrowd w [(0, 0)]) /\
    w_threads w !! 0 = Some (TEnd EDone) /\ w_threads w !! 1 = Some (TEnd EDone) /\
    (rw_body ∘ cn_rw) <$> w_conns w !! 0 = Some (L "secret") /\ (rw_body ∘ cn_rw) <$> w_conns w !! 1 = Some (L "value").
Proof.
  edestruct (with_engine_split ex_ok sx_ops [] (fun e =>
    ((fun '(b, w) => (b, jx_bodies w, jx_ended w)) <$> jx_early e, o_static (en_options e)))) as (e & He & Hs).
  { vm_compute. reflexivity. }
  apply pair_equal_spec in Hs as [Hs Ho]. destruct (jx_early e) as [[b w]|] eqn:Hw; [|discriminate Hs].
  cbn [fmap option_fmap option_map] in Hs. injection Hs as -> Hb0 Hb1 Hd0 Hd1.
  exists e, w. split_and!; [done|done| |..].
  - eapply jx_run_crowded; [exact Hw|]. intros w2 H. by apply H.
  - destruct (w_threads w !! 0) as [[| | | | | | | | | | | |[]]|] eqn:E; try discriminate Hd0. done.
  - destruct (w_threads w !! 1) as [[| | | | | | | | | | | |[]]|] eqn:E; try discriminate Hd1. done.
  - destruct (w_conns w !! 0) as [c|]; [|discriminate Hb0]. exact Hb0.
  - destruct (w_conns w !! 1) as [c|]; [|discriminate Hb1]. exact Hb1.
Qed.
(** the moment before it writes *)
Example C95_home_case :
  exists e g w', engine_of ex_ok sx_ops 0 [] e /\ jx_crowded e (fun w t => ~ ended w t) g /\ (0, 0) ∈ cr_kept g /\ ~ ended (cr_world g) 0 /\
    stray ex_sniff ex_form 0 (cr_world g) w'.
Proof.
  edestruct (with_engine_split ex_ok sx_ops [] (fun e =>
    match jx_moves e empty_world (CArrive 0 (get (L "/u/7")) no_body :: replicate 7 (CStep 0 0)) with
    | Some w => Some (match w_threads w !! 0 with Some (TProg p _ _) => Some p | _ => None end,
                      match jx_write w with Some _ => true | None => false end)
    | None => None
    end)) as (e & He & Hs); [vm_compute; reflexivity|].
  destruct (jx_moves e empty_world _) as [w|] eqn:Hw; [|discriminate Hs]. injection Hs as Ht Hj.
  destruct (jx_write w) as [w'|] eqn:Hw'; [|discriminate Hj].
  destruct (w_threads w !! 0) as [[| | | | | | | |p q k| | | |]|] eqn:E; try discriminate Ht. injection Ht as ->.
  exists e, (mkCrowd w [(0, 0)]), w'. split_and!; [done| |left| |by apply jx_write_stray].
  - eapply (cr_go _ _ _ _ _ _ (mkCrowd w []) 0 0); [|exact E]. eapply (crowded_moves _ _ _ _ _ _ (mkCrowd empty_world [])); [constructor|exact Hw].
  - cbn. intros [en Hen]. congruence.
Qed.
