(** Every request is for one chain at most, and it is the one found. *)
From Verif Require Import Base GoStr Strconv Pattern Tree GoStrFacts TreeSpec ListFacts TreeFacts TreeMatch TreeTop
  TreeOrder RoutingFacts LastingSpec TreeLasting Header Router RouterSpec RouterFacts RouterDump MethodFacts HandlerFacts RouterProps Ctx
  CtxFacts TraceSpec Engine ServeFacts ServeProps EngineSpec ServeTop ServeDispatch ParamSpec ServeParams PickSpec.

Section Pick.
Context {A : Type}.
Variable re_ok : gostr -> bool.
Variable re_find : gostr -> gostr -> option (list gostr).
Implicit Types e : engine A.
Local Notation picked := (picked (A:=A) re_ok re_find).
Local Notation uri_route := (uri_route re_ok).

Lemma table_unique e m t1 t2 : method_table re_ok e m t1 -> method_table re_ok e m t2 -> t1 = t2.
Proof.
  unfold method_table. generalize (method_routes e m). intros l. revert t1 t2.
  induction l as [|v l IH]; intros t1 t2 H1 H2; inversion H1; inversion H2; subst; [done|].
  f_equal; [by eapply uri_route_fun|by apply IH].
Qed.
Lemma chosen_unique tbl ss p q : chosen re_find tbl ss p -> chosen re_find tbl ss q -> p = q.
Proof.
  intros (Hp & Ap & Bp) (Hq & Aq & Bq). destruct (decide (p = q)) as [|Hne]; [done|]. exfalso.
  destruct (Bp q Hq Aq) as [_ H1]; [congruence|]. destruct (Bq p Hp Ap) as [H2 _]; [done|]. done.
Qed.
Lemma first_with_unique e m tbl p v w : first_with e m tbl p v -> first_with e m tbl p w -> v = w.
Proof.
  intros (j & Hv & Hp & Hj) (k & Hw & Hq & Hk). assert (j = k) as ->; [|congruence].
  destruct (Nat.lt_trichotomy j k) as [H|[H|H]]; [by destruct (Hk j H)|done|by destruct (Hj k H)].
Qed.
Lemma same_sym (v w : route A) : same_pattern re_ok v w -> same_pattern re_ok w v.
Proof. intros (H & r & H1 & H2). split; [done|]. by exists r. Qed.
Lemma same_trans (u v w : route A) : same_pattern re_ok u v -> same_pattern re_ok v w -> same_pattern re_ok u w.
Proof.
  intros (H & r & H1 & H2) (G & s & G1 & G2). split; [congruence|]. exists r. split; [done|].
  by rewrite (uri_route_fun _ _ _ _ H2 G1).
Qed.
Lemma first_of_unique e v w : v ∈ routes e -> w ∈ routes e -> same_pattern re_ok v w ->
  first_of re_ok e v -> first_of re_ok e w -> v = w.
Proof.
  intros Hv Hw Hs Fv Fw.
  assert (forall n j, j < n -> routes e !! j = Some v -> v = w) as H.
  { induction n as [|n IH]; intros j Hj Hjv; [lia|].
    destruct (Fw j v Hjv (same_sym _ _ Hs)) as (k & Hk & Hkw).
    destruct (Fv k w Hkw Hs) as (i & Hi & Hiv).
    destruct (decide (i < j)) as [Hlt|Hge]; [eapply (IH i); [lia|done]|].
    assert (i = k) as -> by lia. congruence. }
  apply elem_of_list_lookup_1 in Hv as [j Hj]. eapply (H (S j) j); [lia|done].
Qed.
Lemma verbatim_same e u u' req : verbatim re_ok e u req -> verbatim re_ok e u' req -> same_pattern re_ok u u'.
Proof.
  intros (_ & H1 & H2 & p & H3 & _) (_ & G1 & G2 & q & G3 & _). split; [congruence|]. exists p. split; [done|].
  by rewrite G2, <- H2.
Qed.
Lemma chosen_fits e req tbl p v : method_table re_ok e (rq_method req) tbl -> chosen re_find tbl (path_segs (rq_path req)) p ->
  first_with e (rq_method req) tbl p v -> v ∈ routes e /\ fits re_ok re_find v req.
Proof.
  intros Ht (_ & Ha & _) (j & Hv & Hp & _).
  pose proof (Forall2_lookup_lr _ _ _ _ _ _ Ht Hv Hp) as Hr. cbn in Hr.
  apply elem_of_list_lookup_2 in Hv. unfold method_routes in Hv.
  rewrite elem_of_list_In, List.filter_In, <- elem_of_list_In in Hv. destruct Hv as [Hv Hm]. apply seqb_true in Hm.
  split; [done|]. split; [done|]. by exists p.
Qed.
Lemma picked_unique e req hs hs' : picked e req hs -> picked e req hs' -> hs = hs'.
Proof.
  intros H G. destruct H as [v p tbl Hn Ht Hc Hf|u v Hu Hver Hv Hs Hf|Hn Hne], G as [v' p' tbl' Hn' Ht' Hc' Hf'|u' v' Hu' Hver' Hv' Hs' Hf'|Hn' Hne'].
  - rewrite <- (table_unique _ _ _ _ Ht Ht') in *. rewrite <- (chosen_unique _ _ _ _ Hc Hc') in *. by rewrite (first_with_unique _ _ _ _ _ _ Hf Hf').
  - by destruct (Hn u').
  - destruct (chosen_fits _ _ _ _ _ Ht Hc Hf) as [Hv Hfit]. by destruct (Hn' v Hv).
  - by destruct (Hn' u).
  - f_equal. eapply (first_of_unique e); [done|done| |done|done].
    eapply same_trans; [by apply same_sym|]. eapply same_trans; [by eapply verbatim_same|done].
  - by destruct (Hn' u Hu).
  - destruct (chosen_fits _ _ _ _ _ Ht' Hc' Hf') as [Hv Hfit]. by destruct (Hn v' Hv).
  - by destruct (Hn u' Hu').
  - done.
Qed.

(** the handlers that the engine takes *)
Definition taken e (n : option (enode (handler A) * option (route A))) : list (handler A) :=
  match n with Some (n, _) => e_handlers n | None => o_nofound (en_options e) end.
Lemma find_none ops r0 opts e i req old : engine_of re_ok ops r0 opts e -> MethodIndex (rq_method req) = Some i ->
  (find_node re_find e i (rq_path req) old).1 = None ->
  forall v, v ∈ routes e -> ~ fits re_ok re_find v req /\ ~ verbatim re_ok e v req.
Proof.
  intros He Hi. destruct (mrouter_of re_ok _ _ _ _ _ _ He Hi) as (m & tbl & Hm & Hinv).
  assert (Hmeth : forall v, v ∈ mroutes e i <-> v ∈ routes e /\ rt_method v = rq_method req).
  { intros v. rewrite mroutes_in. split; intros [? Hv]; (split; [done|]); [by eapply MethodIndex_inj|by rewrite Hv]. }
  pose proof (find_found re_ok re_find e i m tbl Hm Hinv (rq_path req) old) as Hf.
  destruct Hf as [n u k w v p j _ _ _ _ _ _ _ _ _ _ _|T n ps w v p j _ _ _ _ _ _ _ _ _ _|ps Hno HM Hnone]; [discriminate..|].
  intros _ v Hv. split.
  - intros [Hmv (p & Hp & Ha)]. by eapply (Hnone v p); [apply Hmeth|..].
  - intros (Hst & Hmv & Hpath & (p & Hp & Hall)).
    assert (v ∈ mroutes e i) as [k Hk]%elem_of_list_lookup_1 by (by apply Hmeth).
    destruct (route_tbl re_ok e i m tbl Hinv _ _ Hk) as (p' & Hp' & Hr). rewrite (uri_route_fun _ _ _ _ Hp Hr) in Hall.
    destruct (mi_static_all _ _ _ _ _ Hinv Hst _ _ _ Hk Hp' Hall) as [n Hn].
    rewrite Hpath, (Hno Hst) in Hn. done.
Qed.
Lemma find_picked ops r0 opts e i req old : engine_of re_ok ops r0 opts e -> MethodIndex (rq_method req) = Some i ->
  ((find_node re_find e i (rq_path req) old).1 = None -> o_nofound (en_options e) <> []) ->
  picked e req (taken e (find_node re_find e i (rq_path req) old).1).
Proof.
  intros He Hi Hne. pose proof (find_none _ _ _ _ _ _ old He Hi) as Hnf.
  destruct (mrouter_of re_ok _ _ _ _ _ _ He Hi) as (m & tbl & Hm & Hinv).
  assert (Hmeth : forall v, v ∈ mroutes e i <-> v ∈ routes e /\ rt_method v = rq_method req).
  { intros v. rewrite mroutes_in. split; intros [? Hv]; (split; [done|]); [by eapply MethodIndex_inj|by rewrite Hv]. }
  pose proof (find_found re_ok re_find e i m tbl Hm Hinv (rq_path req) old) as Hf.
  destruct Hf as [n u k w v p j Hst Hs Hu' Hpath Hp Hall Hfirst Hv Hh Hlast Hw
                 |T n ps w v p j HT HA Hno HM Hfirst Hv Hh Hacc Hlast Hw|ps Hno HM Hnone]; cbn [fst taken] in *; try specialize (Hnf eq_refl).
  - assert (v ∈ mroutes e i /\ u ∈ mroutes e i) as (V1 & U1) by (split_and!; by eapply elem_of_list_lookup_2).
    apply Hmeth in V1 as [V1 V2], U1 as [U1 U2]. rewrite Hh.
    apply (pk_verbatim _ _ _ _ u); [done| |done| |by eapply (first_at_of re_ok e i m tbl Hinv)].
    + split_and!; try done. exists p. split; [by eapply (tbl_route re_ok e i m tbl Hinv)|done].
    + eapply (mroutes_same re_ok e i m tbl Hinv); [exact Hu'|exact Hv|done|apply Hfirst].
  - rewrite Hh. pose proof (mi_routes _ _ _ _ _ Hinv) as Hro.
    destruct (dispatch_priority _ re_ok re_find _ T (rq_path req) HA tbl n _ Hro HM) as (p2 & Hp2 & _ & Hbest).
    assert (p2 = p) as -> by (destruct Hfirst; congruence).
    apply (pk_route _ _ _ _ v p tbl).
    + intros u Hu (Hst & Hmu & Hpath & (q & Hq & Hall)).
      assert (u ∈ mroutes e i) as [k Hk]%elem_of_list_lookup_1 by (by apply Hmeth).
      destruct (route_tbl re_ok e i m tbl Hinv _ _ Hk) as (q' & Hq' & Hr). rewrite (uri_route_fun _ _ _ _ Hq Hr) in Hall.
      destruct (mi_static_all _ _ _ _ _ Hinv Hst _ _ _ Hk Hq' Hall) as [n' Hn'].
      rewrite Hpath, (Hno Hst) in Hn'. done.
    + unfold ParamSpec.method_table. rewrite <- (mroutes_method e _ i Hi). by apply added_routes.
    + split; [by eapply elem_of_list_lookup_2|]. split; [done|]. intros q' Hq' Ha Hne'. by apply Hbest.
    + exists (e_id n). rewrite <- (mroutes_method e _ i Hi). destruct Hfirst as [Hf1 Hf2]. split_and!; [done|done|exact Hf2].
  - apply pk_nofound; [|by apply Hne]. exact Hnf.
Qed.

(** ** Requests that are served *)
Section Serve.
Context {V : Type}.
Variable sniff : gostr -> gostr.
Variable parse_form : bool -> request -> gostr * bool -> gmap gostr (list gostr) * bool * gostr.
Variable code : handler A -> prog V.
Lemma serve_picked ops r0 opts e id x r body en px c' : engine_of re_ok ops r0 opts e ->
  ServeHTTP re_find sniff parse_form code e id x (arrive r body) = (en, px, c') -> (forall n, ~ refused r n) ->
  (exists hs, picked e r hs /\ turns code hs (cn_log c') en) \/
  ((forall v, v ∈ routes e -> ~ fits re_ok re_find v r /\ ~ verbatim re_ok e v r) /\ o_nofound (en_options e) = [] /\
   en = EDone /\ c' = bare r body 404).
Proof.
  intros He H Hn.
  apply serve_split in H as [(n & Hr & _)|(i & Hu & Hi & H)]; [by destruct (Hn n)|].
  pose proof (find_picked _ _ _ _ _ _ (x_params x) He Hi) as Hp. pose proof (find_none _ _ _ _ _ _ (x_params x) He Hi) as Hno.
  destruct (find_node re_find e i (rq_path r) (x_params x)) as [[[n rt]|] ps]; cbn [fst taken] in Hp, Hno.
  - left. exists (e_handlers n). split; [by apply Hp|by eapply ran_turns].
  - destruct (o_nofound (en_options e)) as [|h hs] eqn:Hnf.
    + right. destruct H as [-> ->]. split_and!; [by apply Hno|done|done|done].
    + left. exists (h :: hs). split; [by apply Hp|by eapply ran_turns].
Qed.
End Serve.
End Pick.
