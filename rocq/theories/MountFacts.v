(** Proofs about an engine mounted in another. *)
From Verif Require Import Base GoStr Strconv Pattern Tree GoStrFacts TreeSpec ListFacts TreeFacts TreeMatch TreeTop
  TreeOrder RoutingFacts Header Router RouterSpec RouterFacts RouterDump MethodFacts HandlerFacts RouterProps Ctx
  CtxFacts TraceSpec Engine ServeFacts ServeProps EngineSpec ServeTop ServeDispatch ServeThms Mount MountSpec.
Local Open Scope Z_scope.

Section Facts.
Context {A V : Type}.
Variable re_ok : gostr -> bool.
Variable re_find : gostr -> gostr -> option (list gostr).
Variable sniff : gostr -> gostr.
Variable parse_form : bool -> request -> gostr * bool -> gmap gostr (list gostr) * bool * gostr.
Variable code : handler A -> prog V.
Implicit Types x y : ctxobj A V.
Implicit Types c : conn V.
Implicit Types e : engine A.

Local Notation call := (call sniff parse_form).
Local Notation pexec := (pexec sniff parse_form).
Local Notation crun := (crun sniff parse_form code).
Local Notation sub_op := (sub_op (A:=A) sniff parse_form).
Local Notation sub_call := (sub_call (A:=A) sniff parse_form).
Local Notation sub_exec := (sub_exec (A:=A) sniff parse_form).
Local Notation sub_run := (sub_run (A:=A) sniff parse_form code).

(** ** Logs grow *)
Definition grows (f : ctxobj A V -> conn V -> ending * (ctxobj A V * conn V)) : Prop :=
  forall x c r x' c', f x c = (r, (x', c')) -> exists l, cn_log c' = cn_log c ++ l.
Lemma call_grows o x c r x' c' : call o x c = (r, (x', c')) -> exists l, cn_log c' = cn_log c ++ l.
Proof. intros H. apply call_wire in H as (w & -> & _). exists (w ++ [EvCall o r]). by rewrite app_assoc. Qed.
Lemma pexec_grows next p : grows next -> grows (pexec next p).
Proof.
  intros Hn x c r x' c' H.
  apply (pexec_inv sniff parse_form (fun _ => True) (fun _ c1 => exists l, cn_log c1 = cn_log c ++ l) next p) in H; [done|..].
  - intros o y cy r1 y' cy' _ [l Hl] Hc. apply call_grows in Hc as [l1 ->]. rewrite Hl, <- app_assoc. eauto.
  - apply only_any.
  - intros y cy r1 y' cy' [l Hl] Hc. apply Hn in Hc as [l1 ->]. rewrite Hl, <- app_assoc. eauto.
  - exists []. by rewrite app_nil_r.
Qed.
Lemma crun_grows fuel : grows (crun fuel).
Proof.
  induction fuel as [|fuel IH]; intros x c r x' c' H; cbn [Ctx.crun] in H;
    (destruct (x_index x <? x_hlen x)%nat; [|inversion H; subst; exists []; by rewrite app_nil_r]).
  - inversion H; subst. exists []. by rewrite app_nil_r.
  - destruct (x_handlers x !! x_index x) as [h|]; [|inversion H; subst; exists []; by rewrite app_nil_r].
    match type of H with context [pexec ?n _ _ _] => set (next := n) in H end.
    assert (grows next) as Hn.
    { intros y cy r1 y' cy' H1. apply IH in H1 as [l H1]. exists (EvNext :: l). rewrite H1. cbn. by rewrite <- app_assoc. }
    destruct (pexec next (code h) x (log c (EvStart (x_index x)))) as [r1 [x1 c1]] eqn:Hp.
    apply (pexec_grows next (code h) Hn) in Hp as [l Hp]. cbn [log cn_log] in Hp. rewrite <- app_assoc in Hp.
    destruct r1.
    + destruct (x_written (set_index x1 (S (x_index x1)))).
      * inversion H; subst. cbn [log cn_log]. rewrite Hp, <- app_assoc. eauto.
      * apply IH in H as [l1 H]. rewrite H. cbn [log cn_log]. rewrite Hp, <- !app_assoc. eauto.
    + inversion H; subst. rewrite Hp. eauto.
    + inversion H; subst. rewrite Hp. eauto.
Qed.
Lemma hist_app Q (l k : list (event V)) : hist Q (l ++ k) -> hist Q l.
Proof. intros H l1 ev l2 ->. apply (H l1 ev (l2 ++ k)). by rewrite <- app_assoc. Qed.
Lemma sends_app (l k : list (event V)) : sends (l ++ k) = sends l ++ sends k.
Proof. unfold sends. by rewrite omap_app. Qed.
Lemma proper_valid n : proper_code n = valid_code n.
Proof. done. Qed.

(** ** The inner engine on the outer Context (y, c), and on a connection c' *)
Section Sim.
(** the outer Context when the inner engine is called *)
Variable y0 : ctxobj A V.
Hypothesis Hy0 : x_written y0 = false.
Definition sim y c c' : Prop :=
  alike c c' /\
  match sends (cn_log c') with
  | [] => y = y0
  | n :: _ => y = set_written y0 n /\ (rw_sent (cn_rw c') = None -> valid_code n = false)
  end.
Local Notation ordered c' := (hist in_order (cn_log c')).

Lemma alike_log c c' ev ev' : alike c c' -> alike (log c ev) (log c' ev').
Proof. done. Qed.
Lemma sim_log y c c' ev ev' : (forall n, ev' <> EvSend n) -> sim y c c' -> sim y (log c ev) (log c' ev').
Proof.
  intros Hev [H1 H2]. split; [done|]. cbn [log cn_log cn_rw]. rewrite sends_app.
  assert (sends [ev'] = []) as E by (destruct ev'; try done; by destruct (Hev code0)).
  by rewrite E, app_nil_r.
Qed.

Lemma sim_send n y c c' o c1' : sim y c c' -> raw_WriteHeader n c' = (o, c1') -> ordered c1' ->
  exists y1 c1, ctx_WriteHeader n y c = (o, (y1, c1)) /\ sim y1 c1 c1'.
Proof.
  intros [(Q1 & Q2 & Q3 & Q4) Hs] Hw Ho. pose proof (raw_WriteHeader_log _ _ _ _ Hw) as Hl.
  rewrite Hl in Ho. apply hist_snoc in Ho as [_ Ho]. unfold in_order in Ho.
  unfold raw_WriteHeader in Hw. cbn zeta in Hw. unfold ctx_WriteHeader, raw_WriteHeader. cbn zeta.
  change (cn_rw (log c' (EvSend n))) with (cn_rw c') in Hw. change (cn_rw (log c (EvSend n))) with (cn_rw c). rewrite Q2.
  destruct (sends (cn_log c')) as [|k ks] eqn:Hk.
  - subst y. rewrite Hy0. destruct (rw_sent (cn_rw c')) as [s|] eqn:Es; [|destruct (valid_code n) eqn:Hv];
      inversion Hw; subst; do 2 eexists; (split; [reflexivity|]); split; try done;
      cbn [log cn_log set_rw]; rewrite sends_app, Hk; cbn; split_and!; try done.
    by rewrite Es.
  - destruct Hs as (-> & Hn). change (x_written (set_written y0 k)) with true. cbn iota. rewrite proper_valid in Ho.
    destruct (rw_sent (cn_rw c')) as [s|] eqn:Es; [|rewrite (Hn eq_refl) in Ho; done].
    inversion Hw; subst. do 2 eexists. split; [reflexivity|]. split; [done|].
    cbn [log cn_log cn_rw]. rewrite sends_app, Hk. cbn. rewrite Es. done.
Qed.
Lemma raw_Write_sent d c : rw_sent (cn_rw (raw_Write d c)) <> None.
Proof.
  unfold raw_Write. cbn zeta. change (cn_rw (log c (EvData d))) with (cn_rw c).
  destruct (rw_sent (cn_rw c)) as [[n h]|] eqn:E; cbn [rw_sent]; [rewrite E|].
  - destruct (body_allowed n); cbn; [done|]. by rewrite E.
  - done.
Qed.
Lemma raw_Write_alike d c c' : alike c c' -> alike (raw_Write d c) (raw_Write d c').
Proof.
  intros (Q1 & Q2 & Q3 & Q4). unfold raw_Write. cbn zeta.
  change (cn_rw (log c (EvData d))) with (cn_rw c). change (cn_rw (log c' (EvData d))) with (cn_rw c'). rewrite Q2.
  destruct (match rw_sent (cn_rw c') with Some _ => cn_rw c' | None => _ end) as [h [[n hh]|] b]; cbn [rw_sent];
    [destruct (body_allowed n)|]; done.
Qed.
Lemma sim_data d y c c' : sim y c c' -> ordered (raw_Write d c') ->
  exists c1, ctx_Write sniff d y c = (Norm tt, (y, c1)) /\ sim y c1 (raw_Write d c').
Proof.
  intros [Ha Hs] Ho. rewrite raw_Write_log in Ho. apply hist_snoc in Ho as [_ Ho]. cbn in Ho.
  destruct (sends (cn_log c')) as [|k ks] eqn:Hk; [done|]. destruct Hs as (-> & Hn).
  unfold ctx_Write. change (x_written (set_written y0 k)) with true. cbn [negb]. eexists. split; [reflexivity|]. split; [by apply raw_Write_alike|].
  rewrite raw_Write_log, sends_app, Hk. cbn. split_and!; [done|]. intros H. by apply raw_Write_sent in H.
Qed.

Lemma sub_send_spec n x y c c' o x1 c1' : sim y c c' -> ctx_WriteHeader n x c' = (o, (x1, c1')) -> ordered c1' ->
  exists y1 c1, sub_WriteHeader n x y c = (o, (x1, (y1, c1))) /\ sim y1 c1 c1'.
Proof.
  intros Hs H Ho. unfold ctx_WriteHeader in H. unfold sub_WriteHeader. destruct (x_written x).
  - inversion H; subst. eauto.
  - destruct (raw_WriteHeader n c') as [o1 c2'] eqn:Hr. inversion H; subst.
    destruct (sim_send _ _ _ _ _ _ Hs Hr Ho) as (y1 & c1 & -> & Hs1). eauto.
Qed.

Lemma quiet_same o x y c c' r x1 c1' : quiet_op o -> sim y c c' -> do_op sniff parse_form o x c' = (r, (x1, c1')) ->
  exists c1, sub_op o x y c = (r, (x1, (y, c1))) /\ sim y c1 c1'.
Proof.
  intros Hq [Ha Hs] H.
  assert (exists c1, sub_op o x y c = (r, (x1, (y, c1))) /\ alike c1 c1' /\ cn_log c1' = cn_log c' /\ rw_sent (cn_rw c1') = rw_sent (cn_rw c'))
    as (c1 & H1 & H2 & H3 & H4).
  2: { exists c1. split; [done|]. split; [done|]. by rewrite H3, H4. }
  destruct c as [q w b f l], c' as [q' w' b' f' l']. destruct Ha as (Q1 & Q2 & Q3 & Q4). cbn in Q1, Q2, Q3, Q4. subst q' w' b' f'. clear Hs.
  destruct o; try (by destruct Hq); cbn [do_op] in H; cbn [sub_op do_op];
    cbn [cn_req cn_rw cn_body cn_form cn_log set_hdr set_rw set_body] in *;
    repeat match goal with
    | H : context [match ?z with _ => _ end] |- _ => match type of z with
       | option _ => destruct z | bool => destruct z | prod _ _ => destruct z end
    end; inversion H; subst; eexists; (split; [reflexivity|]); done.
Qed.
Lemma sim_op o x y c c' r x1 c1' : sim y c c' -> do_op sniff parse_form o x c' = (r, (x1, c1')) -> ordered c1' ->
  exists y1 c1, sub_op o x y c = (r, (x1, (y1, c1))) /\ sim y1 c1 c1'.
Proof.
  intros Hs H Ho. assert (Hq : quiet_op o \/ ~ quiet_op o) by (destruct o; simpl; auto).
  destruct Hq as [Hq|Hq]; [destruct (quiet_same _ _ _ _ _ _ _ _ Hq Hs H) as (c1 & ? & ?); eauto|].
  destruct o; try (by destruct Hq); cbn [do_op] in H; cbn [Mount.sub_op].
  - by eapply sub_send_spec.
  - unfold ctx_Write in H. unfold sub_Write.
    match type of H with (let '(_, _) := ?z in _) = _ => destruct z as [o1 [x2 c2']] eqn:H1 end.
    assert (ordered c2') as Ho2.
    { destruct o1; inversion H; subst; [|done]. rewrite raw_Write_log in Ho. by apply hist_app in Ho. }
    destruct (x_written x); cbn [negb] in H1 |- *.
    + inversion H1; subst. inversion H; subst. destruct (sim_data _ _ _ _ Hs Ho) as (c1 & -> & Hs1). eauto.
    + set (pre := fun c : conn V => if negb (length data =? 0)%nat && seqb (h_get (rw_hdr (cn_rw c)) (L "Content-Type")) []
         then set_hdr c (h_set (rw_hdr (cn_rw c)) (L "Content-Type") (sniff data)) else c).
      change (ctx_WriteHeader 200 x (pre c') = (o1, (x2, c2'))) in H1.
      assert (sim y (pre c) (pre c')) as Hp.
      { destruct Hs as [(Q1 & Q2 & Q3 & Q4) Hs]. unfold pre. rewrite Q2. destruct (_ && _); [|done].
        split; [|done]. unfold alike, set_hdr, set_rw. cbn. rewrite Q1, Q2, Q3, Q4. done. }
      destruct (sub_send_spec _ _ _ _ _ _ _ _ Hp H1 Ho2) as (y1 & c1 & E & Hs1).
      change (sub_WriteHeader 200 x y _) with (sub_WriteHeader 200 x y (pre c)). rewrite E.
      destruct o1; inversion H; subst; [|eauto]. destruct (sim_data _ _ _ _ Hs1 Ho) as (c3 & -> & Hs3). eauto.
  - destruct (raw_WriteHeader code0 c') as [o1 c2'] eqn:Hr. inversion H; subst.
    destruct (sim_send _ _ _ _ _ _ Hs Hr Ho) as (y1 & c1 & -> & Hs1). eauto.
  - inversion H; subst. destruct (sim_data _ _ _ _ Hs Ho) as (c1 & -> & Hs1). eauto.
Qed.
Lemma sim_call o x y c c' r x1 c1' : sim y c c' -> call o x c' = (r, (x1, c1')) -> ordered c1' ->
  exists y1 c1, sub_call o x y c = (r, (x1, (y1, c1))) /\ sim y1 c1 c1'.
Proof.
  intros Hs H Ho. apply call_eq in H as (c2 & Hd & ->). cbn [log cn_log] in Ho. apply hist_app in Ho.
  destruct (sim_op _ _ _ _ _ _ _ _ Hs Hd Ho) as (y1 & c1 & E & Hs1). unfold Mount.sub_call. rewrite E.
  do 2 eexists. split; [reflexivity|]. by apply sim_log.
Qed.

Definition follows (f : ctxobj A V -> conn V -> ending * (ctxobj A V * conn V))
    (g : ctxobj A V -> ctxobj A V -> conn V -> ending * (ctxobj A V * (ctxobj A V * conn V))) : Prop :=
  forall x y c c' r x1 c1', sim y c c' -> f x c' = (r, (x1, c1')) -> ordered c1' ->
  exists y1 c1, g x y c = (r, (x1, (y1, c1))) /\ sim y1 c1 c1'.
Lemma ordered_before c c1 : (exists l, cn_log c1 = cn_log c ++ l) -> ordered c1 -> ordered c.
Proof. intros [l ->]. apply hist_app. Qed.

Lemma sim_exec next snext p : grows next -> follows next snext -> follows (pexec next p) (sub_exec snext p).
Proof.
  intros Hg Hn. induction p as [|v|o k IH|k IH|b IHb k IH]; intros x y c c' r x1 c1' Hs H Ho; cbn [Ctx.pexec] in H; cbn [Mount.sub_exec].
  - inversion H; subst. eauto.
  - inversion H; subst. eauto.
  - destruct (call o x c') as [[a|v] [x2 c2']] eqn:Hc.
    + pose proof (ordered_before _ _ (pexec_grows next (k a) Hg _ _ _ _ _ H) Ho) as Ho2.
      destruct (sim_call _ _ _ _ _ _ _ _ Hs Hc Ho2) as (y2 & c2 & -> & Hs2). by eapply IH.
    + inversion H; subst. destruct (sim_call _ _ _ _ _ _ _ _ Hs Hc Ho) as (y2 & c2 & -> & Hs2). eauto.
  - destruct (next x c') as [r2 [x2 c2']] eqn:Hc. destruct r2.
    + pose proof (ordered_before _ _ (pexec_grows next k Hg _ _ _ _ _ H) Ho) as Ho2.
      destruct (Hn _ _ _ _ _ _ _ Hs Hc Ho2) as (y2 & c2 & -> & Hs2). by eapply IH.
    + inversion H; subst. destruct (Hn _ _ _ _ _ _ _ Hs Hc Ho) as (y2 & c2 & -> & Hs2). eauto.
    + inversion H; subst. destruct (Hn _ _ _ _ _ _ _ Hs Hc Ho) as (y2 & c2 & -> & Hs2). eauto.
  - destruct (pexec next b x c') as [r2 [x2 c2']] eqn:Hc. destruct r2 as [|v|].
    + pose proof (ordered_before _ _ (pexec_grows next (k None) Hg _ _ _ _ _ H) Ho) as Ho2.
      destruct (IHb _ _ _ _ _ _ _ Hs Hc Ho2) as (y2 & c2 & -> & Hs2). by eapply IH.
    + pose proof (ordered_before _ _ (pexec_grows next (k (Some v)) Hg _ _ _ _ _ H) Ho) as Ho2.
      destruct (IHb _ _ _ _ _ _ _ Hs Hc Ho2) as (y2 & c2 & -> & Hs2). by eapply IH.
    + inversion H; subst. destruct (IHb _ _ _ _ _ _ _ Hs Hc Ho) as (y2 & c2 & -> & Hs2). eauto.
Qed.
Lemma sim_run fuel : follows (crun fuel) (sub_run fuel).
Proof.
  induction fuel as [|fuel IH]; intros x y c c' r x1 c1' Hs H Ho; cbn [Ctx.crun] in H; cbn [Mount.sub_run];
    (destruct (x_index x <? x_hlen x)%nat; [|inversion H; subst; eauto]).
  - inversion H; subst. eauto.
  - destruct (x_handlers x !! x_index x) as [h|]; [|inversion H; subst; eauto].
    match type of H with context [pexec ?n _ _ _] => set (next := n) in H end.
    match goal with |- context [sub_exec ?n _ _ _ _] => set (snext := n) end.
    assert (grows next) as Hg.
    { intros z cz r1 z' cz' H1. apply crun_grows in H1 as [l H1]. exists (EvNext :: l). rewrite H1. cbn. by rewrite <- app_assoc. }
    assert (follows next snext) as Hf.
    { intros z yz cz cz' r1 z1 cz1 Hz H1 Hoz. unfold next in H1. unfold snext. eapply IH; [|exact H1|exact Hoz]. by apply sim_log. }
    destruct (pexec next (code h) x (log c' (EvStart (x_index x)))) as [r1 [x2 c2']] eqn:Hp.
    assert (sim y (log c (EvStart (x_index x))) (log c' (EvStart (x_index x)))) as Hs1 by (by apply sim_log).
    pose proof (sim_exec next snext (code h) Hg Hf _ _ _ _ _ _ _ Hs1 Hp) as He.
    destruct r1.
    + cbv zeta in H |- *. destruct (x_written (set_index x2 (S (x_index x2)))) eqn:Hw.
      * inversion H; subst. destruct He as (y2 & c2 & -> & Hs2).
        { cbn [log cn_log] in Ho. by apply hist_app in Ho. }
        rewrite Hw. do 2 eexists. split; [reflexivity|]. by apply sim_log.
      * destruct He as (y2 & c2 & -> & Hs2).
        { apply crun_grows in H as [l H]. rewrite H in Ho. cbn [log cn_log] in Ho. rewrite <- app_assoc in Ho. by apply hist_app in Ho. }
        rewrite Hw. eapply IH; [|exact H|exact Ho]. by apply sim_log.
    + inversion H; subst. destruct (He Ho) as (y2 & c2 & -> & Hs2). eauto.
    + inversion H; subst. destruct (He Ho) as (y2 & c2 & -> & Hs2). eauto.
Qed.

End Sim.

(** ** Whole requests *)
Local Notation ordered c' := (hist in_order (cn_log c')).
Local Notation ServeHTTP := (ServeHTTP re_find sniff parse_form code).
Local Notation sub_ServeHTTP := (sub_ServeHTTP re_find sniff parse_form code).

Lemma sub_served e id x y c c0 en px c' : alike c c0 -> cn_log c0 = [] -> x_written y = false ->
  ServeHTTP e id x c0 = (en, px, c') -> hist in_order (cn_log c') ->
  exists y1 c1, sub_ServeHTTP e id x y c = (en, px, (y1, c1)) /\ sim y y1 c1 c'.
Proof.
  intros Ha Hl Hy H Ho. assert (sim y y c c0) as Hs by (split; [done|]; by rewrite Hl).
  unfold Engine.ServeHTTP in H. unfold Mount.sub_ServeHTTP. rewrite (proj1 Ha).
  destruct (refusal (cn_req c0)) as [n|i].
  - destruct (raw_WriteHeader n c0) as [o c1'] eqn:Hr. inversion H; subst.
    destruct (sim_send y Hy _ _ _ _ _ _ Hs Hr Ho) as (y1 & c1 & -> & Hs1). eauto.
  - assert (setup re_find e i id c x = setup re_find e i id c0 x) as -> by (unfold setup; by rewrite (proj1 Ha)).
    destruct (setup re_find e i id c0 x) as [x1 []].
    + destruct (crun (x_hlen x1) x1 c0) as [r [x2 c2]] eqn:Hc.
      apply pair_equal_spec in H as [H <-]. apply pair_equal_spec in H as [<- <-].
      destruct (sim_run y Hy _ _ _ _ _ _ _ _ Hs Hc Ho) as (y1 & c1 & -> & Hs1). eauto.
    + destruct (ctx_WriteHeader 404 x1 c0) as [o [x2 c2]] eqn:Hc.
      assert (ordered c2) as Ho2 by (destruct o; inversion H; by subst).
      destruct (sub_send_spec y Hy _ _ _ _ _ _ _ _ Hs Hc Ho2) as (y1 & c1 & -> & Hs1).
      destruct o; inversion H; subst; eauto.
Qed.

(** handlers that write through their Context only *)
Lemma order_invariant : invariant (A:=A) sniff parse_form (fun o => ~ raw o)
  (fun x c => (if x_written x then sends (cn_log c) <> [] else sends (cn_log c) = []) /\ hist in_order (cn_log c))
  (fun x c => (if x_written x then sends (cn_log c) <> [] else sends (cn_log c) = []) /\ hist in_order (cn_log c)).
Proof.
  set (J := fun x c => (if x_written x then sends (cn_log c) <> [] else sends (cn_log c) = []) /\ hist in_order (cn_log c)).
  assert (Hq : forall x c ev, match ev with EvSend _ | EvData _ => False | _ => True end -> J x c -> J x (log c ev)).
  { intros x c ev Hev [H1 H2]. unfold J. cbn [log cn_log]. rewrite sends_app. split.
    - assert (sends [ev] = []) as -> by (by destruct ev). by rewrite app_nil_r.
    - apply hist_snoc. split; [done|]. by destruct ev. }
  assert (Hw : forall n x c o x' c', J x c -> ctx_WriteHeader n x c = (o, (x', c')) -> x_written x' = true /\ J x' c').
  { intros n x c o x' c' [H1 H2] H. unfold ctx_WriteHeader in H. unfold J. destruct (x_written x) eqn:E.
    - inversion H; subst. by rewrite E.
    - destruct (raw_WriteHeader n c) as [o1 c1] eqn:Hr. apply raw_WriteHeader_log in Hr. inversion H; subst. cbn.
      rewrite Hr, sends_app, H1. split; [done|]. split; [done|]. apply hist_snoc. split; [done|]. cbn. by rewrite H1. }
  split.
  - done.
  - intros x c H _. by apply Hq.
  - intros o x c r x' c' Ho H Hc. apply call_eq in Hc as (c1 & Hd & ->). apply Hq; [done|].
    assert (Hqo : quiet_op o \/ ~ quiet_op o) by (destruct o; simpl; auto). destruct Hqo as [Hqo|Hqo].
    { assert (call o x c = (r, (x', log c1 (EvCall o r)))) as Hc by (unfold Ctx.call; by rewrite Hd).
      apply quiet_log in Hc as (E1 & E2 & _); [|done]. cbn [log cn_log] in E1. apply app_inj_tail in E1 as [E1 _].
      unfold J in *. by rewrite E1, E2. }
    destruct o; try (by destruct Hqo); try (by destruct Ho); cbn [do_op] in Hd.
    + by apply Hw in Hd as [_ Hd].
    + unfold ctx_Write in Hd.
      match type of Hd with (let '(_, _) := ?z in _) = _ => destruct z as [o1 [x2 c2]] eqn:H1 end.
      assert (x_written x2 = true /\ J x2 c2) as [Hx2 HJ].
      { destruct (x_written x) eqn:E; cbn [negb] in H1; [inversion H1; by subst|].
        eapply Hw; [|exact H1]. unfold J in *. by destruct (_ && _). }
      destruct o1; inversion Hd; subst; [|done]. unfold J in *. rewrite Hx2 in *. destruct HJ as [HJ1 HJ2].
      rewrite raw_Write_log, sends_app. split; [by destruct (sends (cn_log c2))|]. apply hist_snoc. by split.
  - intros x c H. by apply (Hq (bump x)).
  - intros x c i H. destruct (x_written x) eqn:E; apply (Hq (bump x)); done.
Qed.
Lemma ctx_ordered ops r0 opts e id x r body en px c' : engine_of re_ok ops r0 opts e ->
  ServeHTTP e id x (arrive r body) = (en, px, c') -> uses_ctx code e -> hist in_order (cn_log c').
Proof.
  intros He H [U1 U2]. destruct (dispatched_ran re_ok re_find sniff parse_form code _ _ _ _ _ _ _ _ _ _ _ He H)
    as [(n & _ & -> & _)|(_ & hs & ps & n & Hd & Hran)].
  - cbn. apply (hist_snoc _ []). split; [apply hist_nil|done].
  - destruct (ran_inv sniff parse_form code _ _ _ _ _ _ _ _ Hran _ _ _ order_invariant) as (x' & [_ Hh] & _); [| |exact Hh].
    + intros h Hh. destruct Hd as [v Hv _ _|_ _]; [by eapply U1|by apply U2].
    + split; [done|apply hist_nil].
Qed.

(** ** The outer engine *)
Variable outer : handler A -> hcode A V.
Local Notation outer_ServeHTTP := (outer_ServeHTTP re_find sniff parse_form code outer).
Local Notation outer_run := (outer_run re_find sniff parse_form code outer).


(** the Context that an engine runs a chain in *)
Lemma setup_dispatched ops r0 opts e i id r body x : engine_of re_ok ops r0 opts e -> refusal r = inr i ->
  match setup re_find e i id (arrive (V:=V) r body) x with
  | (y, true) => exists hs ps n, dispatched re_ok re_find e r hs /\ y = fresh id hs ps n
  | (y, false) => forall v, v ∈ routes e -> ~ fits re_ok re_find v r /\ ~ verbatim re_ok e v r
  end.
Proof.
  intros He Hr. pose proof Hr as Hr'. apply refusal_none in Hr' as [Hu Hi].
  destruct (mrouter_of re_ok _ _ _ _ _ _ He Hi) as (m & tbl & Hm & Hinv).
  assert (Hmeth : forall v, v ∈ mroutes e i <-> v ∈ routes e /\ rt_method v = rq_method r).
  { intros v. rewrite mroutes_in. split; intros [? Hv]; (split; [done|]); [by eapply MethodIndex_inj|by rewrite Hv]. }
  pose proof (find_found re_ok re_find e i m tbl Hm Hinv (rq_path r) (x_params x)) as Hf.
  unfold setup. change (x_params (set_conn (reset x) id)) with (x_params x).
  change (rq_path (cn_req (arrive (V:=V) r body))) with (rq_path r).
  destruct Hf as [n u k w v p j Hst Hs Hu' Hpath Hp Hall Hfirst Hv Hh Hlast Hw
                 |T n ps w v p j HT HA Hno HM Hfirst Hv Hh Hacc Hlast Hw|ps Hno HM Hnone].
  - assert (v ∈ mroutes e i /\ u ∈ mroutes e i) as (V1 & U1) by (split_and!; by eapply elem_of_list_lookup_2).
    apply Hmeth in V1 as [V1 V2], U1 as [U1 U2].
    do 3 eexists. split; [|reflexivity]. rewrite Hh. apply dis_route; [done|done|].
    right. exists u. split; [done|]. split.
    + split_and!; try done. exists p. split; [by eapply (tbl_route re_ok e i m tbl Hinv)|done].
    + eapply (mroutes_same re_ok e i m tbl Hinv); [exact Hu'|exact Hv|done|apply Hfirst].
  - assert (v ∈ mroutes e i) as V1 by (by eapply elem_of_list_lookup_2). apply Hmeth in V1 as [V1 V2].
    do 3 eexists. split; [|reflexivity]. rewrite Hh. apply dis_route; [done|done|].
    left. split; [done|]. exists p. split; [|done]. eapply (tbl_route re_ok e i m tbl Hinv); [done|apply Hfirst].
  - assert (Hnf : forall v, v ∈ routes e -> ~ fits re_ok re_find v r /\ ~ verbatim re_ok e v r).
    { intros v Hv. split.
      - intros [Hmv (p & Hp & Ha)]. by eapply (Hnone v p); [apply Hmeth|..].
      - intros (Hst & Hmv & Hpath & (p & Hp & Hall)).
        assert (v ∈ mroutes e i) as [k Hk]%elem_of_list_lookup_1 by (by apply Hmeth).
        destruct (route_tbl re_ok e i m tbl Hinv _ _ Hk) as (p' & Hp' & Hr'). rewrite (uri_route_fun _ _ _ _ Hp Hr') in Hall.
        destruct (mi_static_all _ _ _ _ _ Hinv Hst _ _ _ Hk Hp' Hall) as [n Hn].
        rewrite Hpath, (Hno Hst) in Hn. done. }
    destruct (o_nofound (en_options e)) as [|h hs] eqn:Hn; [done|].
    do 3 eexists. split; [|reflexivity]. rewrite <- Hn. apply dis_nofound; [done|]. by rewrite Hn.
Qed.

(** without mounted engines it is the engine of Engine.v *)
Lemma outer_run_plain (pc : handler A -> prog V) fuel : (forall h, outer h = HCode (pc h)) ->
  forall y c, outer_run fuel y c = Ctx.crun sniff parse_form pc fuel y c.
Proof.
  intros Hp. induction fuel as [|fuel IH]; intros y c; cbn [Mount.outer_run Ctx.crun]; [done|].
  destruct (x_index y <? x_hlen y)%nat; [|done]. destruct (x_handlers y !! x_index y) as [h|]; [|done].
  rewrite Hp. cbn [run_handler].
  assert (E : forall f g p, (forall y c, f y c = g y c) -> forall y c, pexec f p y c = pexec g p y c).
  { clear. intros f g p Hfg. induction p as [|v|o k IH|k IH|b IHb k IH]; intros y c; cbn [Ctx.pexec]; try done.
    - destruct (call o y c) as [[a|v] [y1 c1]]; [apply IH|done].
    - rewrite Hfg. destruct (g y c) as [[] [y1 c1]]; [apply IH|done|done].
    - rewrite IHb. destruct (pexec g b y c) as [[] [y1 c1]]; [apply IH|apply IH|done]. }
  rewrite (E _ (fun x c => Ctx.crun sniff parse_form pc fuel (set_index x (S (x_index x))) (log c EvNext)) (pc h)) by (intros; apply IH).
  destruct (pexec _ (pc h) y _) as [[] [y1 c1]]; [|done|done]. cbv zeta. destruct (x_written _); [done|apply IH].
Qed.
Lemma outer_plain (pc : handler A -> prog V) e id y c : (forall h, outer h = HCode (pc h)) ->
  outer_ServeHTTP e id y c = Engine.ServeHTTP re_find sniff parse_form pc e id y c.
Proof.
  intros Hp. unfold Mount.outer_ServeHTTP, Engine.ServeHTTP. destruct (refusal _); [done|].
  destruct (setup _ _ _ _ _ _) as [y1 []]; [|done]. by rewrite (outer_run_plain pc _ Hp).
Qed.

(** a request for a mounted engine *)
Lemma mounted ops1 r1 opts1 e1 id1 y r body en1 px1 c1 h e id x en px c' :
  engine_of re_ok ops1 r1 opts1 e1 -> outer_ServeHTTP e1 id1 y (arrive r body) = (en1, px1, c1) ->
  (forall n, ~ refused r n) -> (exists u, u ∈ routes e1 /\ fits re_ok re_find u r) ->
  (forall hs, dispatched re_ok re_find e1 r hs -> hs = [h]) -> outer h = HEngine e id x ->
  ServeHTTP e id x (arrive r body) = (en, px, c') -> hist in_order (cn_log c') ->
  en1 = en /\ alike c1 c'.
Proof.
  intros He H Href (u & Hu & Hfit) Hd Ho Hi Hord. unfold Mount.outer_ServeHTTP in H.
  change (cn_req (arrive r body)) with r in H.
  destruct (refusal r) as [n|i] eqn:Er; [by apply refusal_refused, Href in Er|].
  pose proof (setup_dispatched _ _ _ _ _ id1 _ body y He Er) as Hs.
  destruct (setup re_find e1 i id1 (arrive r body) y) as [y1 []]; [|by destruct (Hs u Hu)].
  destruct Hs as (hs & ps & n & Hdis & ->). apply Hd in Hdis as ->.
  set (y0 := fresh id1 [h] ps n) in H. change (x_hlen y0) with 1%nat in H. cbn [Mount.outer_run] in H.
  change (x_index y0 <? x_hlen y0)%nat with true in H. cbn iota in H.
  change (x_handlers y0 !! x_index y0) with (Some h) in H. cbn iota in H. cbv zeta in H. rewrite Ho in H. cbn [run_handler] in H.
  destruct (sub_served e id x y0 (log (arrive r body) (EvStart (x_index y0))) (arrive r body) en px c') as (y2 & c2 & E & Hs2); try done.
  rewrite E in H. cbn zeta in H. destruct Hs2 as [Ha Hy2].
  assert (x_hlen y2 = 1%nat /\ x_index y2 = 0%nat) as [Hl2 Hi2] by (destruct (sends (cn_log c')); [by subst y2|by destruct Hy2 as [-> _]]).
  destruct en; [|inversion H; subst; done|inversion H; subst; done].
  destruct (x_written _); [inversion H; subst; done|]. cbn [set_index x_index x_hlen] in H. rewrite Hl2, Hi2 in H.
  inversion H; subst; done.
Qed.
End Facts.
