(** Runs on a body that is in memory instead of on the wire. *)
From Verif Require Import Base GoStr Strconv Pattern Tree TreeSpec Header Router Ctx CtxFacts TraceSpec Engine EngineSpec
  ServeFacts ServeProps ServeTop BodySpec RequestSpec RequestFacts.
Local Open Scope Z_scope.

Section Facts.
Context {A V : Type}.
Variable sniff : gostr -> gostr.
Variable parse_form : bool -> request -> gostr * bool -> gmap gostr (list gostr) * bool * gostr.
Variable code : handler A -> prog V.
Implicit Types x y : ctxobj A V.
Implicit Types c : conn V.
Implicit Types l w : list (event V).

Local Notation do_op := (do_op sniff parse_form).
Local Notation call := (call sniff parse_form).
Local Notation pexec := (pexec sniff parse_form).
Local Notation crun := (crun sniff parse_form code).

(** ** Calls that do not use the body *)
Lemma raw_WriteHeader_body n c b : raw_WriteHeader n (set_body c b) = (fst (raw_WriteHeader n c), set_body (snd (raw_WriteHeader n c)) b).
Proof. rewrite !raw_WriteHeader_spec. cbn [set_body cn_rw]. destruct (rw_sent (cn_rw c)); [done|]. by destruct (valid_code n). Qed.
Lemma raw_Write_body d c b : raw_Write d (set_body c b) = set_body (raw_Write d c) b.
Proof.
  unfold raw_Write. cbn zeta. cbn [log set_body cn_rw].
  match goal with |- context [rw_sent (match ?y with _ => _ end)] => destruct y as [[n h]|] eqn:E end; cbn [rw_sent].
  - rewrite E. by destruct (body_allowed n).
  - by destruct (body_allowed 200).
Qed.
Lemma do_op_body o x c b r x' c' : in_op o = false -> do_op o x c = (r, (x', c')) -> do_op o x (set_body c b) = (r, (x', set_body c' b)).
Proof.
  destruct o; try discriminate; intros _; cbn [Ctx.do_op]; try (intros H; inversion H; subst; done).
  - unfold ctx_WriteHeader. destruct (x_written x); [intros H; inversion H; by subst|]. rewrite raw_WriteHeader_body.
    destruct (raw_WriteHeader _ c) as [o1 c1]. intros H; inversion H; by subst.
  - unfold ctx_Write, ctx_WriteHeader. destruct (x_written x); cbn [negb].
    + intros H; inversion H; subst. by rewrite raw_Write_body.
    + cbn [set_body cn_rw].
      set (g := negb (length data =? 0)%nat && seqb (h_get (rw_hdr (cn_rw c)) (L "Content-Type")) []).
      set (c1 := if g then set_hdr c (h_set (rw_hdr (cn_rw c)) (L "Content-Type") (sniff data)) else c).
      replace (if g then set_hdr (set_body c b) (h_set (rw_hdr (cn_rw c)) (L "Content-Type") (sniff data)) else set_body c b)
        with (set_body c1 b) by (unfold c1; by destruct g).
      rewrite raw_WriteHeader_body. destruct (raw_WriteHeader 200 c1) as [o1 c2]. cbn [fst snd].
      destruct o1; intros H; inversion H; subst; [by rewrite raw_Write_body|done].
  - rewrite raw_WriteHeader_body. destruct (raw_WriteHeader _ c) as [o1 c1]. intros H; inversion H; by subst.
  - intros H; inversion H; subst. by rewrite raw_Write_body.
  - destruct (x_end x) as [[? [rt|]]|]; intros H; inversion H; by subst.
  - destruct (x_params x); intros H; inversion H; by subst.
  - destruct (x_env x) as [m|]; [destruct (m !! name)|]; intros H; inversion H; by subst.
  - destruct (x_env x ≫= _); intros H; inversion H; by subst.
  - destruct (x_env x) as [m|]; intros H; inversion H; by subst.
Qed.

(** ** The same run, with the body in memory *)
Variable r : request.
Variable forms : bool.
Hypothesis Hforms : forms = true \/ exists f ok, forall i, parse_form (is_multipart r) r i = (f, ok, fst i).

(** the flag: the body may be closed *)
Definition link (closed : bool) (b b2 : rbody) : Prop :=
  bd_feed b2 = FMem /\ (closed = true /\ (bd_feed b = FClosed \/ ends_well (bd_feed b) = true /\ bd_data b2 = bd_data b) \/
    ends_well (bd_feed b) = true /\ bd_data b2 = bd_data b).
Definition flag (closed : bool) (e : event V) : bool :=
  match e with EvCall OBodyClose _ => true | EvCall (OBodySet _) _ => false | _ => closed end.
Fixpoint quiet (closed : bool) l : Prop :=
  match l with
  | [] => True
  | e :: l => (closed = true -> ~ touches forms e) /\ quiet (flag closed e) l
  end.
Definition after (closed : bool) l : bool := fold_left flag l closed.
Lemma quiet_app k l1 : forall l2, quiet k (l1 ++ l2) <-> quiet k l1 /\ quiet (after k l1) l2.
Proof. revert k. induction l1 as [|e l1 IH]; intros k l2; cbn; [tauto|]. rewrite IH. unfold after. tauto. Qed.
Lemma after_app k l1 l2 : after k (l1 ++ l2) = after (after k l1) l2.
Proof. apply fold_left_app. Qed.
Lemma after_wire k w : Forall wire w -> after k w = k /\ quiet k w.
Proof. induction 1 as [|e w He _ IH]; [done|]. destruct e; try done; cbn; (split; [apply IH|]); (split; [by intros _ []|apply IH]). Qed.

Lemma op_memory o x c a x' c' k b2 : cn_req c = r -> link k (cn_body c) b2 -> (k = true -> ~ touches forms (EvCall o a)) ->
  do_op o x c = (a, (x', c')) ->
  exists b2', do_op o x (set_body c b2) = (a, (x', set_body c' b2')) /\ link (flag k (EvCall o a)) (cn_body c') b2'.
Proof.
  intros Hr Hl Ht Hd. destruct (in_op o) eqn:Ho.
  2: { exists b2. split; [by apply do_op_body|]. destruct (do_op_in _ _ _ _ _ _ _ _ Hd Ho) as (-> & _). by destruct o. }
  destruct c as [req rw b form lg]. cbn [cn_req cn_body] in *. subst req.
  destruct b as [d how], b2 as [d2 how2]. destruct Hl as [Hm Hl]. cbn [bd_feed bd_data] in *. subst how2.
  assert (Hopen : touches forms (EvCall o a) -> ends_well how = true /\ d2 = d).
  { destruct k; [intros H; by destruct (Ht eq_refl H)|]. intros _. by destruct Hl as [[? _]|]. }
  destruct o; try discriminate Ho; cbn [Ctx.do_op cn_body set_body cn_req cn_rw cn_form cn_log] in Hd |- *.
  - inversion Hd; subst. eexists. split; [reflexivity|]. by split.
  - destruct (Hopen I) as [He ->]. inversion Hd; subst. eexists. split; [reflexivity|]. split; [done|]. by right.
  - destruct (Hopen I) as [He ->]. unfold bd_all in *. cbn [bd_data bd_feed] in *.
    replace (feed_ok how) with true in Hd by (by destruct how). inversion Hd; subst. eexists. split; [reflexivity|]. split; [done|]. by right.
  - inversion Hd; subst. eexists. split; [reflexivity|]. split; [done|]. left. split; [done|]. cbn.
    destruct how; cbn; [|by left..]. right. split; [done|]. destruct Hl as [(_ & [|[]])|[]]; done.
  - inversion Hd; subst. eexists. split; [reflexivity|]. split; [done|]. by right.
  - destruct (x_parsed x) eqn:Hp.
    + inversion Hd; subst. eexists. split; [reflexivity|]. by split.
    + unfold bd_all in *. cbn [bd_data bd_feed] in *. destruct Hforms as [Hf|(f & ok & Hf)].
      * destruct (Hopen Hf) as [He ->]. replace (feed_ok how) with true in Hd by (by destruct how). cbn [feed_ok].
        destruct (parse_form (is_multipart r) r (d, true)) as [[f ok] rest].
        destruct ok; inversion Hd; subst; (eexists; split; [reflexivity|]); (split; [done|]); by right.
      * rewrite Hf in Hd |- *. destruct ok; inversion Hd; subst; (eexists; split; [reflexivity|]); by split.
  - inversion Hd; subst. eexists. split; [reflexivity|]. by split.
Qed.
Lemma call_memory o x c : cn_req c = r -> exists a x' c' w, call o x c = (a, (x', c')) /\ cn_req c' = r /\ cn_log c' = cn_log c ++ w /\
  forall k b2, link k (cn_body c) b2 -> quiet k w ->
  exists b2', call o x (set_body c b2) = (a, (x', set_body c' b2')) /\ link (after k w) (cn_body c') b2'.
Proof.
  intros Hr. destruct (call o x c) as [a [x' c']] eqn:Hc.
  destruct (call_wire sniff parse_form _ _ _ _ _ _ Hc) as (w & Hl & Hw). pose proof (call_run _ _ _ _ _ _ _ _ Hc) as Hrun.
  exists a, x', c', (w ++ [EvCall o a]). split; [done|]. split; [by destruct Hrun; congruence|]. split; [by rewrite Hl, app_assoc|].
  intros k b2 Hb Hq. apply quiet_app in Hq as [_ Hq]. rewrite after_app. destruct (after_wire k w Hw) as [E _]. rewrite E in Hq |- *.
  destruct Hq as [Hq _]. apply call_eq in Hc as (c1 & Hd & ->).
  destruct (op_memory _ _ _ _ _ _ _ _ Hr Hb Hq Hd) as (b2' & Hd' & Hb'). exists b2'. unfold Ctx.call. rewrite Hd'. done.
Qed.

Definition remembers (f : ctxobj A V -> conn V -> ending * (ctxobj A V * conn V)) : Prop :=
  forall x c, cn_req c = r -> exists a x' c' w, f x c = (a, (x', c')) /\ cn_req c' = r /\ cn_log c' = cn_log c ++ w /\
  forall k b2, link k (cn_body c) b2 -> quiet k w ->
  exists b2', f x (set_body c b2) = (a, (x', set_body c' b2')) /\ link (after k w) (cn_body c') b2'.
Lemma remembers_then f g : remembers f -> (forall a, remembers (g a)) ->
  remembers (fun x c => let '(a, (x, c)) := f x c in g a x c).
Proof.
  intros Hf Hg x c Hr. destruct (Hf x c Hr) as (a1 & x1 & c1 & w1 & E1 & R1 & L1 & M1).
  destruct (Hg a1 x1 c1 R1) as (a2 & x2 & c2 & w2 & E2 & R2 & L2 & M2).
  exists a2, x2, c2, (w1 ++ w2). rewrite E1. split; [done|]. split; [done|]. split; [by rewrite L2, L1, app_assoc|].
  intros k b2 Hb Hq. apply quiet_app in Hq as [Hq1 Hq2]. destruct (M1 k b2 Hb Hq1) as (b3 & E3 & Hb3).
  destruct (M2 _ b3 Hb3 Hq2) as (b4 & E4 & Hb4). exists b4. rewrite E3, after_app. done.
Qed.
Lemma remembers_end a : remembers (fun x c => (a, (x, c))).
Proof. intros x c Hr. exists a, x, c, []. rewrite app_nil_r. split_and!; try done. intros k b2 Hb _. by exists b2. Qed.
(** events other than calls *)
Lemma remembers_log e f (g : ctxobj A V -> ctxobj A V) : match e with EvCall _ _ => False | _ => True end -> remembers f ->
  remembers (fun x c => f (g x) (log c e)).
Proof.
  intros He Hf x c Hr. destruct (Hf (g x) (log c e) Hr) as (a & x' & c' & w & E & R & L & M).
  exists a, x', c', (e :: w). split; [done|]. split; [done|]. split; [rewrite L; cbn [log cn_log]; by rewrite <- app_assoc|].
  intros k b2 Hb [_ Hq]. assert (flag k e = k) as Ek by (by destruct e). rewrite Ek in Hq.
  destruct (M k b2 Hb Hq) as (b2' & E' & Hb'). exists b2'. split; [exact E'|]. cbn. by rewrite Ek.
Qed.
Lemma remembers_ext f g : (forall x c, f x c = g x c) -> remembers f -> remembers g.
Proof.
  intros H Hf x c Hr. destruct (Hf x c Hr) as (a & x' & c' & w & E & R & L & M). exists a, x', c', w. rewrite <- H. split_and!; try done.
  intros k b2. rewrite <- H. apply M.
Qed.

Lemma pexec_memory next p : remembers next -> remembers (pexec next p).
Proof.
  intros Hn. induction p as [|v|o q IH|q IH|b IHb q IH].
  - apply remembers_end.
  - apply remembers_end.
  - intros x c Hr. cbn [Ctx.pexec]. destruct (call_memory o x c Hr) as (a1 & x1 & c1 & w1 & E1 & R1 & L1 & M1).
    rewrite E1. destruct a1 as [a1|v].
    + destruct (IH a1 x1 c1 R1) as (a2 & x2 & c2 & w2 & E2 & R2 & L2 & M2).
      exists a2, x2, c2, (w1 ++ w2). split; [done|]. split; [done|]. split; [by rewrite L2, L1, app_assoc|].
      intros k b2 Hb Hq. apply quiet_app in Hq as [Hq1 Hq2]. destruct (M1 k b2 Hb Hq1) as (b3 & E3 & Hb3).
      destruct (M2 _ b3 Hb3 Hq2) as (b4 & E4 & Hb4). exists b4. rewrite E3, after_app. done.
    + exists (EThrow v), x1, c1, w1. split_and!; try done. intros k b2 Hb Hq. destruct (M1 k b2 Hb Hq) as (b3 & E3 & Hb3).
      exists b3. by rewrite E3.
  - eapply remembers_ext; [|apply (remembers_then next (fun a x c => match a with EDone => pexec next q x c | a => (a, (x, c)) end) Hn)].
    + intros x c. cbn [Ctx.pexec]. destruct (next x c) as [[|v|] [x1 c1]]; done.
    + intros [|v|]; [exact IH|apply remembers_end..].
  - eapply remembers_ext; [|apply (remembers_then (pexec next b)
      (fun a x c => match a with EDone => pexec next (q None) x c | EThrow v => pexec next (q (Some v)) x c | EStuck => (EStuck, (x, c)) end) IHb)].
    + intros x c. cbn [Ctx.pexec]. destruct (pexec next b x c) as [[|v|] [x1 c1]]; done.
    + intros [|v|]; [apply IH|apply IH|apply remembers_end].
Qed.
Lemma crun_memory fuel : remembers (crun fuel).
Proof.
  induction fuel as [|fuel IH].
  - intros x c Hr. cbn [Ctx.crun]. destruct (x_index x <? x_hlen x)%nat; by apply (remembers_end _ x c).
  - intros x c Hr. cbn [Ctx.crun]. destruct (x_index x <? x_hlen x)%nat; [|by apply (remembers_end _ x c)].
    destruct (x_handlers x !! x_index x) as [h|]; [|by apply (remembers_end _ x c)].
    match goal with |- context [pexec ?f (code h) x _] => set (next := f) end.
    assert (Hn : remembers next) by (apply (remembers_log EvNext (crun fuel) (fun x => set_index x (S (x_index x)))); done).
    pose proof (remembers_log (EvStart (x_index x)) _ id I (pexec_memory next (code h) Hn)) as Hs.
    assert (Hf : remembers (fun y c => if x_written y then (EDone, (y, c)) else crun fuel y c)).
    { intros y cy Hy. destruct (x_written y); [by apply (remembers_end EDone y cy)|by apply IH]. }
    pose proof (remembers_log (EvEnd (x_index x)) _ (fun x => set_index x (S (x_index x))) I Hf) as He.
    match type of He with remembers ?g =>
      pose proof (remembers_then _ (fun a => match a with EDone => g | a => fun x c => (a, (x, c)) end) Hs) as H end.
    match type of H with (?P -> _) => assert P as HP by (intros [|v|]; [exact He|apply remembers_end..]) end.
    specialize (H HP x c Hr). destruct H as (a & x' & c' & w & E & R & L & M).
    exists a, x', c', w. split; [|split; [done|split; [done|]]].
    + rewrite <- E. unfold id. destruct (pexec next (code h) x (log c (EvStart (x_index x)))) as [[|v|] [x1 c1]]; done.
    + intros k b2 Hb Hq. destruct (M k b2 Hb Hq) as (b2' & E' & Hb'). exists b2'. split; [|done]. rewrite <- E'. unfold id.
      change (log (set_body c b2) (EvStart (x_index x))) with (set_body (log c (EvStart (x_index x))) b2).
      destruct (pexec next (code h) x (set_body (log c (EvStart (x_index x))) b2)) as [[|v|] [x1 c1]]; done.
Qed.

Lemma quiet_left l : left_closed forms l -> quiet false l.
Proof.
  assert (forall l k, (k = true -> forall l2 e l3, l = l2 ++ e :: l3 -> Forall (fun e => ~ replaces e) l2 -> ~ touches forms e) ->
    left_closed forms l -> quiet k l) as H.
  2: { intros Hl. apply H; done. }
  clear l. induction l as [|e l IH]; intros k Hk Hl; [done|]. split; [intros E; by apply (Hk E [] e l)|].
  apply IH.
  - intros E l2 e' l3 -> Hf. destruct e as [| | |o a| |]; try (by eapply (Hk E (_ :: l2) e' l3); [reflexivity|]; constructor; [intros []|]).
    destruct o; try (by eapply (Hk E (_ :: l2) e' l3); [reflexivity|]; constructor; [intros []|]).
    + by eapply (Hl [] a l2 e' l3).
    + done.
  - intros l1 a l2 e' l3 -> Hf. by eapply (Hl (e :: l1) a l2 e' l3).
Qed.
Lemma left_closed_none (fm : bool) l : Forall (fun e => ~ match e with EvCall OBodyClose _ => True | _ => False end) l -> left_closed fm l.
Proof.
  intros H l1 a l2 e l3 -> _. rewrite Forall_forall in H. exfalso. apply (H (EvCall OBodyClose a)); [|done].
  apply elem_of_app. right. left.
Qed.
Lemma ran_memory id hs ps n body en c : ends_well (bd_feed body) = true ->
  ran sniff parse_form code id hs ps n r body en c -> left_closed forms (cn_log c) ->
  exists b, ran sniff parse_form code id hs ps n r (mkBody (bd_data body) FMem) en (set_body c b).
Proof.
  intros Hb [x Hrun] Hl. destruct (crun_memory (length hs) (fresh id hs ps n) (arrive r body) eq_refl) as (a & x' & c' & w & E & _ & L & M).
  rewrite Hrun in E. injection E as <- <- <-. cbn [arrive cn_log app] in L. subst w.
  destruct (M false (mkBody (bd_data body) FMem)) as (b & E & _).
  - split; [done|]. by right.
  - by apply quiet_left.
  - exists b, x. exact E.
Qed.
End Facts.
