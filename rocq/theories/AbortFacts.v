(** Proofs about the helpers that refuse a request. *)
From Verif Require Import Base GoStr Strconv Pattern Tree TreeSpec Header Router Ctx CtxFacts TraceSpec Engine EngineSpec
  ServeFacts ServeProps ServeTop ServeDispatch Content ContentFacts.
Local Open Scope Z_scope.

Section Facts.
Context {A V : Type}.
Variable re_ok : gostr -> bool.
Variable re_find : gostr -> gostr -> option (list gostr).
Variable sniff : gostr -> gostr.
Variable parse_form : bool -> request -> gostr * bool -> gmap gostr (list gostr) * bool * gostr.
Variable code : handler A -> prog V.

(** the program of a handler that calls one of the helpers and returns, and the
    status that the helper is for *)
Inductive aborts : prog V -> Z -> Prop :=
  | aborts_Abort n : aborts (Abort n PRet) n
  | aborts_NotModified : aborts (NotModified PRet) 304
  | aborts_BadRequest : aborts (BadRequest PRet) 400
  | aborts_Unauthorized : aborts (Unauthorized PRet) 401
  | aborts_Forbidden : aborts (Forbidden PRet) 403
  | aborts_NotFound : aborts (NotFound PRet) 404
  | aborts_InternalServerError : aborts (InternalServerError PRet) 500.
Lemma aborts_seqp p n : aborts p n -> p = seqp [OWriteHeader n] PRet.
Proof. by intros []. Qed.

Lemma abort_run g hs n id ps nd r body en c' : aborts (code g) n ->
  ran sniff parse_form code id (g :: hs) ps nd r body en c' ->
  starts (cn_log c') = [0%nat] /\
  (100 <= n <= 999 -> en = EDone /\ cn_rw c' = mkRw ∅ (Some (n, ∅)) []) /\
  (~ 100 <= n <= 999 -> (exists v, en = EThrow (Some v)) /\ cn_rw c' = rw_new).
Proof.
  intros Hg [x' H]. apply aborts_seqp in Hg. cbn [length] in H. cbn [Ctx.crun] in H.
  change (x_index (fresh id (g :: hs) ps nd) <? x_hlen (fresh id (g :: hs) ps nd))%nat with true in H. cbn iota in H.
  change (x_handlers (fresh id (g :: hs) ps nd) !! x_index (fresh id (g :: hs) ps nd)) with (Some g) in H. cbn iota in H.
  rewrite Hg, pexec_seqp in H. change (x_index (fresh id (g :: hs) ps nd)) with 0%nat in H.
  destruct (valid_code n) eqn:Hn.
  - rewrite call_WriteHeader in H by done. cbn in H. injection H as <- <- <-.
    split; [done|]. split; [done|]. intros Hx. exfalso. apply Hx. unfold valid_code in Hn. apply andb_true_iff in Hn. lia.
  - unfold Ctx.call in H. cbn [Ctx.do_op] in H. unfold ctx_WriteHeader in H.
    change (x_written (fresh id (g :: hs) ps nd)) with false in H. cbn iota in H.
    rewrite raw_WriteHeader_spec in H. rewrite Hn in H. cbn in H. injection H as <- <- <-.
    split; [done|]. split; [|by eauto]. intros Hx. exfalso. apply not_true_iff_false in Hn. apply Hn. unfold valid_code. apply andb_true_iff. lia.
Qed.

Lemma abort_serve ops r0 opts e id x r body en px c' n :
  engine_of re_ok ops r0 opts e ->
  ServeHTTP re_find sniff parse_form code e id x (arrive r body) = (en, px, c') -> starts (cn_log c') <> [] ->
  (forall hs, dispatched re_ok re_find e r hs -> exists g hs', hs = g :: hs' /\ aborts (code g) n) ->
  starts (cn_log c') = [0%nat] /\
  (100 <= n <= 999 -> en = EDone /\ finish sniff (cn_rw c') = (n, ∅, [])) /\
  (~ 100 <= n <= 999 -> exists v, en = EThrow (Some v)).
Proof.
  intros He H Hs Hd. destruct (serve_ran re_ok _ _ _ _ _ _ _ _ _ _ _ _ _ _ _ He H Hs) as (hs & ps & nd & Hdis & Hr).
  destruct (Hd _ Hdis) as (g & hs' & -> & Hg). destruct (abort_run _ _ _ _ _ _ _ _ _ _ Hg Hr) as (H1 & H2 & H3).
  split; [done|]. split.
  - intros Hn. destruct (H2 Hn) as [-> Hrw]. split; [done|]. rewrite Hrw, finish_bare. done.
  - intros Hn. by destruct (H3 Hn).
Qed.

Lemma nocache_serve ops r0 opts e id x r body en px c' h p n t s :
  engine_of re_ok ops r0 opts e ->
  ServeHTTP re_find sniff parse_form code e id x (arrive r body) = (en, px, c') -> starts (cn_log c') <> [] ->
  (forall hs, dispatched re_ok re_find e r hs -> hs = [h]) -> code h = NoCache p -> helps p n t s -> 100 <= n <= 999 ->
  en = EDone /\ exists hd, finish sniff (cn_rw c') = (n, hd, if body_allowed n then s else []) /\
    h_values hd (L "Cache-Control") = [L "no-cache, max-age=0, s-max-age=0, must-revalidate"] /\
    h_values hd (L "Expires") = [L "0"].
Proof.
  intros He H Hs Hd Hc Hh Hn. destruct (serve_ran re_ok _ _ _ _ _ _ _ _ _ _ _ _ _ _ _ He H Hs) as (hs & ps & nd & Hdis & Hr).
  rewrite (Hd _ Hdis) in Hr. apply helps_answer in Hh as (ds & -> & <-). apply run_one in Hr as (next & _ & Hr).
  rewrite Hc in Hr. unfold NoCache in Hr. rewrite !pexec_seqp, call_HeaderSet in Hr. cbn iota in Hr. rewrite pexec_seqp, call_HeaderSet in Hr. cbn iota in Hr.
  match type of Hr with context [Ctx.pexec _ _ _ (seqp [] ?p) ?x1 ?c1] => change (seqp [] p) with p in Hr; set (y := x1) in *; set (c1' := c1) in * end.
  assert (valid_code n = true) as Hv by (unfold valid_code; apply andb_true_iff; lia).
  destruct (exec_answer sniff parse_form next n t ds PRet y c1') as (x2 & c2 & E & _ & _ & _ & Hs2 & Hb2); [done|done|done|].
  rewrite E in Hr. cbn [Ctx.pexec] in Hr. destruct Hr as [-> Hrw]. split; [done|]. rewrite Hrw.
  change (rw_body (cn_rw c1')) with (@nil ascii) in Hb2. cbn [app] in Hb2.
  change (rw_hdr (cn_rw c1')) with (h_set (h_set ∅ HeaderCacheControl (L "no-cache, max-age=0, s-max-age=0, must-revalidate")) (L "Expires") (L "0")) in Hs2.
  unfold finish. rewrite Hs2, Hb2.
  eexists. split; [reflexivity|].
  match goal with |- context [if ?b then _ else _] => set (bb := b) end.
  assert (forall k v w, canon k <> canon (L "Content-Type") -> h_values w k = v ->
    h_values (if bb then h_set w (L "Content-Type") (sniff (if body_allowed n then concat ds else [])) else w) k = v) as Hk.
  { intros k v w Hk Hw. destruct bb; [|done]. unfold h_set, h_values. rewrite lookup_insert_ne by congruence. exact Hw. }
  split; (apply Hk; [discriminate|reflexivity]).
Qed.
End Facts.
