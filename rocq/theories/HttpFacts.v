(** Which code runs after the start of a handler, and with which request. *)
From Verif Require Import Base GoStr GoStrFacts Header Router Ctx CtxFacts TraceSpec Engine ServeFacts ServeProps EngineSpec ServeTop ServeDispatch ServeThms CallSpec BodySpec.

Scheme did_ind2 := Induction for did Sort Prop with turns_ind2 := Induction for turns Sort Prop.
Combined Scheme did_turns_ind from did_ind2, turns_ind2.

Lemma app_cons_split {X} (a b l1 l2 : list X) e : a ++ b = l1 ++ e :: l2 ->
  (exists k, a = l1 ++ e :: k /\ l2 = k ++ b) \/ (exists k, l1 = a ++ k /\ b = k ++ e :: l2).
Proof.
  revert l1. induction a as [|z a IH]; intros l1 H; [right; by exists l1|].
  destruct l1 as [|z' l1]; simpl in H; injection H as -> H.
  - left. exists a. by rewrite H.
  - apply IH in H as [(k & -> & ->)|(k & -> & ->)]; [left; by exists k|right; by exists k].
Qed.

Section Called.
Context {A V : Type}.
Variable code : handler A -> prog V.
Variable hs : list (handler A).

(** after its start, the code of handler i runs; if it returns, its end follows *)
Definition runs_code (i : nat) (l : list (event V)) : Prop :=
  exists h l3 en l4, hs !! i = Some h /\ l = l3 ++ l4 /\ did code hs (code h) l3 en /\ (en = EDone -> exists l5, l4 = EvEnd i :: l5).
Lemma runs_app i l m : runs_code i l -> runs_code i (l ++ m).
Proof.
  intros (h & l3 & en & l4 & H1 & -> & H2 & H3). exists h, l3, en, (l4 ++ m). split_and!; try done; [by rewrite app_assoc|].
  intros He. destruct (H3 He) as [l5 ->]. by exists (l5 ++ m).
Qed.
Lemma wire_start (w : list (event V)) l1 i l2 : Forall on_wire w -> w = l1 ++ EvStart i :: l2 -> False.
Proof. intros Hw ->. apply Forall_app in Hw as [_ Hw]. by apply Forall_cons in Hw as [[] _]. Qed.
Lemma called_code :
  (forall p l en, did code hs p l en -> forall l1 i l2, l = l1 ++ EvStart i :: l2 -> runs_code i l2) /\
  (forall l en, turns code hs l en -> forall l1 i l2, l = l1 ++ EvStart i :: l2 -> runs_code i l2).
Proof.
  assert (forall l m : list (event V), (forall l1 i l2, l = l1 ++ EvStart i :: l2 -> runs_code i l2) ->
    (forall l1 i l2, m = l1 ++ EvStart i :: l2 -> runs_code i l2) -> forall l1 i l2, l ++ m = l1 ++ EvStart i :: l2 -> runs_code i l2) as Happ.
  { intros l m H1 H2 l1 i l2 H. apply app_cons_split in H as [(k & H & ->)|(k & _ & H)]; [apply runs_app; by eapply H1|by eapply H2]. }
  assert (forall (ev : event V) m, match ev with EvStart _ => False | _ => True end ->
    (forall l1 i l2, m = l1 ++ EvStart i :: l2 -> runs_code i l2) -> forall l1 i l2, ev :: m = l1 ++ EvStart i :: l2 -> runs_code i l2) as Hcons.
  { intros ev m He H l1 i l2 E. destruct l1 as [|e l1]; simpl in E; injection E as ? ?; [by subst|by eapply H]. }
  apply (did_turns_ind A V code hs
    (fun p l en _ => forall l1 i l2, l = l1 ++ EvStart i :: l2 -> runs_code i l2)
    (fun l en _ => forall l1 i l2, l = l1 ++ EvStart i :: l2 -> runs_code i l2)).
  - intros l1 i l2 H. by destruct l1.
  - intros v l1 i l2 H. by destruct l1.
  - intros o k w a l en Hw _ IH. apply Happ; [intros; exfalso; by eapply wire_start|]. by apply Hcons.
  - intros o k w v Hw. apply Happ; [intros; exfalso; by eapply wire_start|]. apply Hcons; [done|]. intros l1 i l2 H. by destruct l1.
  - intros k l1 l2 en _ IH1 _ IH2. apply Hcons; [done|]. by apply Happ.
  - intros k l v _ IH. by apply Hcons.
  - intros b k l1 l2 en _ IH1 _ IH2. by apply Happ.
  - intros b k l1 v l2 en _ IH1 _ IH2. by apply Happ.
  - intros l1 i l2 H. by destruct l1.
  - intros i h l1 l2 en Hh Hd IH1 Ht IH2 m1 j m2 H. destruct m1 as [|e m1]; simpl in H; injection H as ? H.
    + subst. exists h, l1, EDone, (EvEnd j :: l2). split_and!; try done. intros _. by exists l2.
    + subst. revert m1 j m2 H. apply Happ; [done|]. by apply Hcons.
  - intros i h l v Hh Hd IH m1 j m2 H. destruct m1 as [|e m1]; simpl in H; injection H as ? H.
    + subst. exists h, m2, (EThrow v), []. split_and!; try done. by rewrite app_nil_r.
    + subst. by eapply IH.
Qed.
End Called.

(** ** Request() answers with the request of the connection *)
Section Request.
Context {A V : Type}.
Variable sniff : gostr -> gostr.
Variable parse_form : bool -> request -> gostr * bool -> gmap gostr (list gostr) * bool * gostr.

Definition request_rule (r : request) (_ : list (event V)) (ev : event V) : Prop :=
  match ev with
  | EvCall o a => match o return outcome (ans o) -> Prop with ORequest => fun a => a = Norm r | _ => fun _ => True end a
  | _ => True
  end.
Lemma request_invariant r : invariant (A:=A) sniff parse_form (fun _ : op V => True)
  (fun x c => cn_req c = r /\ hist (request_rule r) (cn_log c))
  (fun x c => cn_req c = r /\ hist (request_rule r) (cn_log c)).
Proof.
  apply (rule_invariant _ _ _ _ (fun _ c => cn_req c = r)).
  - by intros l [].
  - done.
  - done.
  - intros o x c rr x' c' w _ HJ H Hw Hl. pose proof (call_run _ _ _ _ _ _ _ _ H) as Hrun. split; [by rewrite (sr_req _ _ _ _ Hrun)|].
    apply call_eq in H as (c1 & Hd & _). unfold request_rule. destruct o; try done. simpl in Hd. by inversion Hd; subst.
Qed.
End Request.

Lemma did_do {A V} (code : handler A -> prog V) hs o k l en : did code hs (PDo o k) l en ->
  (exists w a l', Forall on_wire w /\ l = w ++ EvCall o (Norm a) :: l' /\ did code hs (k a) l' en) \/
  (exists w v, Forall on_wire w /\ l = w ++ [EvCall o (Throw v)] /\ en = EThrow v).
Proof.
  assert (forall p, did code hs p l en -> match p with
    | PDo o k => (exists w a l', Forall on_wire w /\ l = w ++ EvCall o (Norm a) :: l' /\ did code hs (k a) l' en) \/
        (exists w v, Forall on_wire w /\ l = w ++ [EvCall o (Throw v)] /\ en = EThrow v)
    | _ => True end) as H; [|by apply H].
  destruct 1; eauto 10.
Qed.
Lemma serve_called {A V : Type} re_ok re_find sniff parse_form (water_code : A -> prog V) http_code ops r0 opts e id x r body en px c' :
  engine_of re_ok ops r0 opts e ->
  ServeHTTP re_find sniff parse_form (invoke water_code http_code) e id x (arrive r body) = (en, px, c') ->
  starts (cn_log c') <> [] ->
  exists hs, dispatched re_ok re_find e r hs /\
    forall l1 i l2, cn_log c' = l1 ++ EvStart i :: l2 -> invoked water_code http_code r hs i l2.
Proof.
  intros He H Hs.
  destruct (dispatched_ran re_ok re_find sniff parse_form _ _ _ _ _ _ _ _ _ _ _ _ He H)
    as [(n & -> & -> & _)|(_ & hs & ps & n & Hd & Hran)]; [by destruct Hs|].
  exists hs. split; [done|]. intros l1 i l2 Hl.
  assert (hist (request_rule r) (cn_log c')) as Hreq.
  { destruct (ran_inv _ _ _ _ _ _ _ _ _ _ _ Hran _ _ _ (request_invariant sniff parse_form r)) as (x' & (_ & Hh) & _);
      [intros h _; apply only_any|split; [done|apply hist_nil]|done]. }
  pose proof (ran_turns _ _ _ _ _ _ _ _ _ _ _ Hran) as Ht.
  destruct (proj2 (called_code _ hs) _ _ Ht _ _ _ Hl) as (h & l3 & en' & l4 & Hh & -> & Hdid & Hend).
  assert (forall (o : outcome request) m w, l3 = w ++ EvCall ORequest o :: m -> o = Norm r) as Hk.
  { intros o m w ->. specialize (Hreq (l1 ++ EvStart i :: w) (EvCall ORequest o) (m ++ l4)). apply Hreq. rewrite Hl. simplify_list_eq. done. }
  destruct h as [a|a|a|a]; cbn [invoke] in Hdid.
  - exists (HHandler a), l3, en', l4. done.
  - exists (HFuncCtx a), l3, en', l4. done.
  - destruct (did_do _ _ _ _ _ _ Hdid) as [(w & b & l & Hw & -> & Hb)|(w & v & Hw & -> & ->)].
    + assert (b = r) as -> by (specialize (Hk _ _ _ eq_refl); congruence).
      exists (HHttp a), l, en', l4. split_and!; try done. exists w. split_and!; try done. by simplify_list_eq.
    + by specialize (Hk _ _ _ eq_refl).
  - destruct (did_do _ _ _ _ _ _ Hdid) as [(w & b & l & Hw & -> & Hb)|(w & v & Hw & -> & ->)].
    + assert (b = r) as -> by (specialize (Hk _ _ _ eq_refl); congruence).
      exists (HHttpFunc a), l, en', l4. split_and!; try done. exists w. split_and!; try done. by simplify_list_eq.
    + by specialize (Hk _ _ _ eq_refl).
Qed.

(** ** The parser of a form *)
Lemma index_str_some p s : (exists i, index_str p s = Some i) <-> exists a b, s = a ++ p ++ b.
Proof.
  split.
  - intros [i H]. revert i H. induction s as [|z s IH]; intros i; cbn [index_str]; destruct (has_prefix p _) eqn:Hp.
    + intros _. apply has_prefix_spec in Hp as [b ->]. by exists [], b.
    + done.
    + intros _. apply has_prefix_spec in Hp as [b E]. exists [], b. done.
    + destruct (index_str p s) as [k|]; [|done]. intros _. destruct (IH k eq_refl) as (a & b & ->). by exists (z :: a), b.
  - intros (a & b & ->). induction a as [|z a [i IH]].
    + exists 0. simpl. assert (has_prefix p (p ++ b) = true) as Hp by (apply has_prefix_spec; by exists b).
      destruct (p ++ b); cbn [index_str]; by rewrite Hp.
    + cbn [app index_str]. destruct (has_prefix p _); [by exists 0|]. rewrite IH. by exists (S i).
Qed.
Lemma contains_true p s : contains p s = true <-> exists a b, s = a ++ p ++ b.
Proof.
  rewrite <- index_str_some. unfold contains. destruct (index_str p s) as [i|]; split; try done; [by exists i|by intros [? ?]].
Qed.
Lemma is_multipart_true r : is_multipart r = true <-> multipart_request r.
Proof.
  unfold is_multipart, multipart_request. rewrite andb_true_iff, !orb_true_iff, !seqb_true, contains_true.
  rewrite !elem_of_cons, elem_of_nil. tauto.
Qed.
Lemma parse_choice {A V} sniff parse_form next (k : unit -> prog V) (x : ctxobj A V) (c : conn V) :
  x_parsed x = false ->
  exists b, (b = true <-> multipart_request (cn_req c)) /\
  forall f ok rest, parse_form b (cn_req c) (unread (cn_body c)) = (f, ok, rest) ->
  exists x' c', x_parsed x' = true /\ cn_form c' = Some f /\ cn_body c' = mkBody rest (bd_feed (cn_body c)) /\ cn_rw c' = cn_rw c /\
    (ok = true -> pexec sniff parse_form next (PDo OParseForm k) x c = pexec sniff parse_form next (k tt) x' c') /\
    (ok = false -> exists v, pexec sniff parse_form next (PDo OParseForm k) x c = (EThrow (Some v), (x', c'))).
Proof.
  intros Hx. exists (is_multipart (cn_req c)). split; [apply is_multipart_true|]. intros f ok rest Hf.
  change (unread (cn_body c)) with (bd_all (cn_body c)) in Hf.
  cbn [pexec]. unfold call. cbn [do_op]. rewrite Hx, Hf. destruct ok.
  - eexists _, _. split; [|split; [|split; [|split; [|split]]]]; cycle 4; [reflexivity|done|done|done|done|done].
  - eexists _, _. split; [|split; [|split; [|split; [|split]]]]; cycle 4; [done|intros _; eexists; reflexivity|done|done|done|done].
Qed.
Lemma parse_again {A V} sniff parse_form next (k : unit -> prog V) (x : ctxobj A V) (c : conn V) :
  x_parsed x = true ->
  exists c', pexec sniff parse_form next (PDo OParseForm k) x c = pexec sniff parse_form next (k tt) x c' /\
    cn_form c' = cn_form c /\ cn_body c' = cn_body c /\ cn_rw c' = cn_rw c.
Proof.
  intros Hx. cbn [pexec]. unfold call. cbn [do_op]. rewrite Hx. eexists. split; [reflexivity|done].
Qed.
