(** Evaluation helpers for the examples about serving requests. *)
From Verif Require Import Base GoStr Strconv Pattern Tree TreeSpec Header Router RouterSpec Ctx Engine TraceSpec
  EngineSpec HandlerFacts ExampleRegexp.
Local Open Scope Z_scope.

(** an observation of the engine that a registration gives *)
Definition with_engine {A B} (re_ok : gostr -> bool) (ops : list (rop A)) (opts : list (opt A)) (f : engine A -> B) : option B :=
  match run_ops ops [] with
  | Ok hp => match Handler re_ok hp 0 opts 0 with
             | (Ok e, _) => Some (f e)
             | _ => None
             end
  | _ => None
  end.
Lemma with_engine_split {A B} re_ok (ops : list (rop A)) opts (f : engine A -> B) b : with_engine re_ok ops opts f = Some b ->
  exists e, engine_of re_ok ops 0 opts e /\ f e = b.
Proof.
  unfold with_engine. destruct (run_ops ops []) as [hp| |] eqn:Hr; try discriminate.
  destruct (Handler re_ok hp 0 opts 0) as [[e| |] m'] eqn:He; try discriminate.
  intros [= <-]. exists e. split; [|done]. exists hp, 0, m'. done.
Qed.
Lemma with_engine_fun {A B} re_ok (ops : list (rop A)) opts (f : engine A -> B) b e : with_engine re_ok ops opts f = Some b ->
  engine_of re_ok ops 0 opts e -> f e = b.
Proof.
  intros Hw (hp & mem & mem' & Hr & Hh). unfold with_engine in Hw. rewrite Hr in Hw.
  rewrite Handler_collect in Hh, Hw. destruct (collect hp 0 opts) as [[o rs]| |]; [|done|done].
  injection Hh as Hh _. rewrite Hh in Hw. by injection Hw as ->.
Qed.

(** a GET request over HTTP/1.1 *)
Definition get (path : gostr) : request := mkReq (L "GET") 1 1 path path ∅ (L "192.0.2.1:9") false.
(** oracles *)
Definition ex_sniff (d : gostr) : gostr := L "text/plain; charset=utf-8".
Definition ex_form (m : bool) (r : request) (b : gostr * bool) : gmap gostr (list gostr) * bool * gostr := (∅, true, []).
(** requests without a body, and with one that is sent in full *)
Definition no_body : rbody := mkBody [] FMem.
Definition full_body (d : gostr) : rbody := mkBody d FWire.

(** what one sees of a reply: how it ended, status (0: nothing sent), body, handlers started *)
Definition seen {V} (en : ending) (c : conn V) : ending * Z * gostr * list nat :=
  (en, match rw_sent (cn_rw c) with Some (n, _) => n | None => 0 end, rw_body (cn_rw c), starts (cn_log c)).
Definition seen3 {A V} (x : ending * option (ctxobj A V) * conn V) := let '(en, _, c) := x in seen en c.

(** the chains of an engine without not-found handlers *)
Definition chains {A} (e : engine A) : list (gostr * list (handler A)) * list (handler A) :=
  (map (fun v => (rt_method v, rt_handlers v)) (routes e), o_nofound (en_options e)).
Lemma dispatched_chains {A} re_ok re_find (e : engine A) r tbl hs : chains e = (tbl, []) ->
  dispatched re_ok re_find e r hs -> (rq_method r, hs) ∈ tbl.
Proof.
  intros [= <- Hn] [v Hv Hm _|_ Hne]; [|by rewrite Hn in Hne].
  rewrite <- Hm. apply elem_of_list_fmap. by exists v.
Qed.
