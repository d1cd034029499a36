(** Which route serves a request, with which parameters, at the level of an engine. *)
From Verif Require Import Base GoStr Strconv Pattern Tree GoStrFacts TreeSpec ListFacts TreeFacts TreeMatch TreeTop
  TreeOrder RoutingFacts LastingSpec TreeLasting Header Router RouterSpec RouterFacts RouterDump MethodFacts HandlerFacts RouterProps Ctx
  CtxFacts TraceSpec Engine ServeFacts ServeProps EngineSpec ServeTop ServeDispatch ParamSpec.

Section Params.
Context {A V : Type}.
Variable re_ok : gostr -> bool.
Variable re_find : gostr -> gostr -> option (list gostr).
Variable sniff : gostr -> gostr.
Variable parse_form : bool -> request -> gostr * bool -> gmap gostr (list gostr) * bool * gostr.
Variable code : handler A -> prog V.
Implicit Types e : engine A.

Local Notation ServeHTTP := (ServeHTTP re_find sniff parse_form code).
Local Notation ran := (ran sniff parse_form code).
Local Notation fits := (fits (A:=A) re_ok re_find).
Local Notation verbatim := (verbatim re_ok).
Local Notation method_table := (method_table (A:=A) re_ok).

Lemma mroutes_method e m i : MethodIndex m = Some i -> mroutes e i = method_routes e m.
Proof.
  intros Hi. unfold mroutes, method_routes. induction (routes e) as [|v l IH]; [done|]. cbn [List.filter].
  assert (of_method i v = seqb (rt_method v) m) as ->.
  { unfold of_method. destruct (seqb (rt_method v) m) eqn:E.
    - apply seqb_true in E. rewrite E. by apply bool_decide_eq_true_2.
    - apply bool_decide_eq_false_2. intros H. apply seqb_false in E. apply E. by eapply MethodIndex_inj. }
  by rewrite IH.
Qed.
Lemma added_routes (l : list (route A)) tbl : routes_of re_ok (added l) tbl ->
  Forall2 (fun v p => uri_route re_ok (rt_variant v) p) l tbl.
Proof.
  unfold routes_of, added. rewrite Forall2_fmap_l. intros H. exact H.
Qed.

Lemma serve_chosen ops r0 opts e id x r body en px c' :
  engine_of re_ok ops r0 opts e -> ServeHTTP e id x (arrive r body) = (en, px, c') ->
  (forall n, ~ refused r n) -> (forall u, u ∈ routes e -> ~ verbatim e u r) ->
  (forall v, v ∈ routes e -> ~ fits v r) \/
  (exists v p tbl m n, v ∈ method_routes e (rq_method r) /\ uri_route re_ok (rt_variant v) p /\ method_table e (rq_method r) tbl /\
     ran id (rt_handlers v) (Some m) n r body en c' /\
     chosen re_find tbl (path_segs (rq_path r)) p /\
     bindings re_find tbl (path_segs (rq_path r)) p m /\ first_with e (rq_method r) tbl p v /\
     exists l w, n = Some (l, Some w) /\ w ∈ routes e /\ rt_method w = rq_method r /\ uri_route re_ok (rt_variant w) p).
Proof.
  intros He H Hs Hver. apply serve_split in H as [(n & Hn & -> & ->)|(i & Hu & Hi & H)]; [by destruct (Hs n)|].
  destruct (mrouter_of re_ok _ _ _ _ _ _ He Hi) as (m & tbl & Hm & Hinv).
  assert (Hmeth : forall v, v ∈ mroutes e i <-> v ∈ routes e /\ rt_method v = rq_method r).
  { intros v. rewrite mroutes_in. split; intros [? Hv]; (split; [done|]); [by eapply MethodIndex_inj|by rewrite Hv]. }
  pose proof (find_found re_ok re_find e i m tbl Hm Hinv (rq_path r) (x_params x)) as Hf.
  destruct Hf as [n u k w v p j Hst Hs' Hu' Hpath Hp Hall Hfirst Hv Hh Hlast Hw
                 |T n ps w v p j HT HA Hno HM Hfirst Hv Hh Hacc Hlast Hw|ps Hno HM Hnone].
  - assert (u ∈ mroutes e i) as U1 by (by eapply elem_of_list_lookup_2). apply Hmeth in U1 as [U1 U2].
    destruct (Hver u U1). split_and!; try done. exists p. split; [by eapply (tbl_route re_ok e i m tbl Hinv)|done].
  - right. rewrite Hh in H.
    pose proof (mi_routes _ _ _ _ _ Hinv) as Hro.
    destruct (params_left _ re_ok re_find _ T (rq_path r) HA tbl n ps Hro HM) as (p1 & q & Hp1 & -> & Hb).
    destruct (dispatch_priority _ re_ok re_find _ T (rq_path r) HA tbl n _ Hro HM) as (p2 & Hp2 & _ & Hbest).
    assert (p1 = p) as -> by (destruct Hfirst; congruence). assert (p2 = p) as -> by (destruct Hfirst; congruence).
    exists v, p, tbl, q. rewrite <- (mroutes_method e _ i Hi). eexists. split; [by eapply elem_of_list_lookup_2|].
    split; [by eapply (tbl_route re_ok e i m tbl Hinv)|].
    split; [unfold ParamSpec.method_table; rewrite <- (mroutes_method e _ i Hi); by apply added_routes|].
    split; [exact H|]. split.
    + split; [by eapply elem_of_list_lookup_2|]. split; [done|]. intros q' Hq' Ha Hne. by apply Hbest.
    + split; [|split; [exists (e_id n); rewrite <- (mroutes_method e _ i Hi); destruct Hfirst as [Hf1 Hf2]; split_and!; [done|done|exact Hf2]|]].
      2:{ exists n, w. split; [done|]. assert (w ∈ mroutes e i) as W by (by eapply elem_of_list_lookup_2). apply Hmeth in W as [W1 W2]. split_and!; [done..|].
          eapply (tbl_route re_ok e i m tbl Hinv); [exact Hw|by destruct Hlast]. }
      split; [exact Hb| | |].
      * destruct (params_lasting re_ok re_find _ T (rq_path r) tbl n _ HA Hro HM) as (p3 & q3 & Hp3 & [= <-] & Hd).
        assert (p3 = p) as -> by (destruct Hfirst; congruence). done.
      * intros Hnr. destruct (params_exact _ re_ok re_find _ T (rq_path r) HA tbl n _ Hro Hnr HM) as (p3 & q3 & Hp3 & [= <-] & Hd & Hv3).
        assert (p3 = p) as -> by (destruct Hfirst; congruence). done.
      * intros Hnr. destruct (params_exact _ re_ok re_find _ T (rq_path r) HA tbl n _ Hro Hnr HM) as (p3 & q3 & Hp3 & [= <-] & Hd & Hv3).
        assert (p3 = p) as -> by (destruct Hfirst; congruence). done.
  - left. intros v Hv [Hmv (p & Hp & Ha)]. by eapply (Hnone v p); [apply Hmeth|..].
Qed.

Lemma serve_params ops r0 opts e id x r body en px c' :
  engine_of re_ok ops r0 opts e -> ServeHTTP e id x (arrive r body) = (en, px, c') ->
  (forall n, ~ refused r n) -> (forall u, u ∈ routes e -> ~ verbatim e u r) ->
  (forall v, v ∈ routes e -> ~ fits v r) \/
  exists v p tbl m, method_table e (rq_method r) tbl /\ chosen re_find tbl (path_segs (rq_path r)) p /\
    first_with e (rq_method r) tbl p v /\
    turns code (rt_handlers v) (cn_log c') en /\ hist (param_rule (Some m)) (cn_log c') /\
    bindings re_find tbl (path_segs (rq_path r)) p m.
Proof.
  intros He H Hn Hv. destruct (serve_chosen _ _ _ _ _ _ _ _ _ _ _ He H Hn Hv) as [?|(v & p & tbl & m & n & ? & ? & ? & Hr & ? & ? & ? & _)]; [by left|].
  right. exists v, p, tbl, m. split_and!; [done..|by eapply ran_turns|by eapply ran_param|done].
Qed.
Lemma serve_best ops r0 opts e id x r body en px c' :
  engine_of re_ok ops r0 opts e -> ServeHTTP e id x (arrive r body) = (en, px, c') ->
  (forall n, ~ refused r n) -> (forall u, u ∈ routes e -> ~ verbatim e u r) ->
  (forall v, v ∈ routes e -> ~ fits v r) \/
  exists v p tbl, method_table e (rq_method r) tbl /\ chosen re_find tbl (path_segs (rq_path r)) p /\
    first_with e (rq_method r) tbl p v /\ turns code (rt_handlers v) (cn_log c') en.
Proof.
  intros He H Hn Hv. destruct (serve_params _ _ _ _ _ _ _ _ _ _ _ He H Hn Hv) as [?|(v & p & tbl & m & ? & ? & ? & ? & _)]; [by left|].
  right. by exists v, p, tbl.
Qed.
End Params.
