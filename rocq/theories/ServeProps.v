(** Proofs of the rules of TraceSpec. *)
From Coq Require Import Sorted.
From Verif Require Import Base GoStr Strconv Pattern Tree Header Router Ctx CtxFacts TraceSpec Engine ServeFacts.
Local Open Scope Z_scope.

Section Hist.
Context {V : Type}.
Implicit Types l : list (event V).
Implicit Types Q : list (event V) -> event V -> Prop.

Lemma hist_nil Q : hist Q [].
Proof. intros l1 e l2 H. by destruct l1. Qed.
Lemma snoc_split {B} (l l1 l2 : list B) a e : l ++ [a] = l1 ++ e :: l2 ->
  (l1 = l /\ e = a /\ l2 = []) \/ exists k, l = l1 ++ e :: k.
Proof.
  destruct l2 as [|b l2 _] using rev_ind; intros H.
  - apply app_inj_tail in H as [-> ->]. auto.
  - right. exists l2. change (e :: l2 ++ [b]) with ((e :: l2) ++ [b]) in H. rewrite app_assoc in H.
    by apply app_inj_tail in H as [-> _].
Qed.
Lemma hist_snoc Q l e : hist Q (l ++ [e]) <-> hist Q l /\ Q l e.
Proof.
  split.
  - intros H. split; [|by apply (H l e [])]. intros l1 e1 l2 ->. apply (H l1 e1 (l2 ++ [e])).
    by rewrite <- app_assoc.
  - intros [H He] l1 e1 l2 Heq. apply snoc_split in Heq as [(-> & -> & ->)|[k ->]]; [done|]. by apply (H _ _ k).
Qed.
Definition wire (e : event V) : Prop := match e with EvSend _ | EvData _ => True | _ => False end.
Lemma hist_wire Q l w : (forall l e, wire e -> Q l e) -> Forall wire w -> hist Q l -> hist Q (l ++ w).
Proof.
  intros HQ. revert l. induction w as [|e w IH]; intros l Hw Hl; [by rewrite app_nil_r|].
  inversion Hw; subst. rewrite cons_middle, app_assoc. apply IH; [done|]. apply hist_snoc. split; [done|]. by apply HQ.
Qed.
Lemma first_code_wire l w : Forall wire w -> first_code (l ++ w) = first_code l.
Proof.
  induction w as [|e w IH] using rev_ind; intros Hw; [by rewrite app_nil_r|].
  apply Forall_app in Hw as [Hw He]. inversion He; subst. rewrite app_assoc, first_code_app, (IH Hw), first_code_one.
  destruct e; try done; simpl; by destruct (first_code l).
Qed.
Lemma stored_snoc l e n : stored (l ++ [e]) n = match stores n e with Some v => Some v | None => stored l n end.
Proof.
  unfold stored. rewrite omap_app. simpl. destruct (stores n e); [|by rewrite app_nil_r].
  by rewrite last_snoc.
Qed.
Lemma stored_wire l w n : Forall wire w -> stored (l ++ w) n = stored l n.
Proof.
  induction w as [|e w IH] using rev_ind; intros Hw; [by rewrite app_nil_r|].
  apply Forall_app in Hw as [Hw He]. inversion He; subst. rewrite app_assoc, stored_snoc, (IH Hw). by destruct e.
Qed.
Lemma put_wire p l w : Forall wire w -> fold_left put_step (l ++ w) p = fold_left put_step l p.
Proof.
  induction w as [|e w IH] using rev_ind; intros Hw; [by rewrite app_nil_r|].
  apply Forall_app in Hw as [Hw He]. inversion He; subst. rewrite app_assoc, fold_left_app, (IH Hw). by destruct e.
Qed.
Lemma responded_iff l : responded l <-> is_Some (first_code l).
Proof. unfold responded. by rewrite <- not_eq_None_Some. Qed.
End Hist.

Section Props.
Context {A V : Type}.
Variable re_find : gostr -> gostr -> option (list gostr).
Variable sniff : gostr -> gostr.
Variable parse_form : bool -> request -> gostr * bool -> gmap gostr (list gostr) * bool * gostr.
Variable code : handler A -> prog V.
Implicit Types x : ctxobj A V.
Implicit Types c : conn V.
Implicit Types e : engine A.

Local Notation call := (call sniff parse_form).
Local Notation invariant := (invariant (A:=A) sniff parse_form).

Lemma raw_WriteHeader_log n c o c' : raw_WriteHeader n c = (o, c') -> cn_log c' = cn_log c ++ [EvSend n].
Proof.
  rewrite raw_WriteHeader_spec. destruct (rw_sent _); [by intros [= <- <-]|].
  by destruct (valid_code n); intros [= <- <-].
Qed.
Lemma raw_Write_log d c : cn_log (raw_Write d c) = cn_log c ++ [EvData d].
Proof.
  unfold raw_Write. cbn zeta. destruct (rw_sent (cn_rw (log c (EvData d)))) as [[n h]|]; simpl.
  - destruct (rw_sent _) as [[n' h']|]; [|done]. by destruct (body_allowed n').
  - done.
Qed.
Lemma ctx_WriteHeader_log n x c o x' c' : ctx_WriteHeader n x c = (o, (x', c')) ->
  exists w, cn_log c' = cn_log c ++ w /\ Forall wire w.
Proof.
  unfold ctx_WriteHeader. destruct (x_written x).
  - intros H; inversion H; subst. exists []. by rewrite app_nil_r.
  - destruct (raw_WriteHeader n c) as [o1 c1] eqn:Hr. intros H; inversion H; subst.
    apply raw_WriteHeader_log in Hr. exists [EvSend n]. split; [done|]. by repeat constructor.
Qed.

Lemma call_wire o x c r x' c' : call o x c = (r, (x', c')) ->
  exists w, cn_log c' = (cn_log c ++ w) ++ [EvCall o r] /\ Forall wire w.
Proof.
  intros H. assert (Hq : quiet_op o \/ ~ quiet_op o) by (destruct o; simpl; auto).
  destruct Hq as [Hq|Hq].
  { exists []. apply quiet_log in H as (-> & _); [|done]. by rewrite app_nil_r. }
  apply call_eq in H as (c1 & Hd & ->).
  destruct o; try (by destruct Hq); cbn [do_op] in Hd; simpl cn_log.
  - apply ctx_WriteHeader_log in Hd as (w & -> & Hw). by exists w.
  - unfold ctx_Write in Hd.
    match type of Hd with (let '(_, _) := ?y in _) = _ => destruct y as [o1 [x1 c2]] eqn:H1 end.
    assert (exists w, cn_log c2 = cn_log c ++ w /\ Forall wire w) as (w & Hl & Hw).
    { destruct (x_written x); simpl in H1; [inversion H1; subst; exists []; by rewrite app_nil_r|].
      apply ctx_WriteHeader_log in H1 as (w & -> & Hw). exists w. split; [|done]. by destruct (_ && _). }
    destruct o1; inversion Hd; subst.
    + exists (w ++ [EvData data]). rewrite raw_Write_log, Hl, <- !app_assoc. split; [done|].
      apply Forall_app. split; [done|]. by repeat constructor.
    + exists w. by rewrite Hl.
  - destruct (raw_WriteHeader code0 c) as [o1 c2] eqn:Hr. apply raw_WriteHeader_log in Hr.
    inversion Hd; subst. exists [EvSend code0]. rewrite Hr. split; [done|]. by repeat constructor.
  - inversion Hd; subst. exists [EvData data]. rewrite raw_Write_log. split; [done|]. by repeat constructor.
Qed.

(** A rule that says nothing about starts, ends, Next and the wire is kept if
    every call keeps it, under an invariant J of the state. *)
Definition calls_only (Q : list (event V) -> event V -> Prop) : Prop :=
  forall l (ev : event V), match ev with EvCall _ _ => True | _ => Q l ev end.

Lemma rule_invariant (P : op V -> Prop) Q (J : ctxobj A V -> conn V -> Prop) :
  calls_only Q ->
  (forall x c ev, match ev with EvCall _ _ => False | _ => True end -> J x c -> J x (log c ev)) ->
  (forall x c, J x c -> J (bump x) c) ->
  (forall o x c r x' c' w, P o -> J x c -> call o x c = (r, (x', c')) -> Forall wire w ->
     cn_log c' = (cn_log c ++ w) ++ [EvCall o r] -> J x' c' /\ Q (cn_log c ++ w) (EvCall o r)) ->
  invariant P (fun x c => J x c /\ hist Q (cn_log c)) (fun x c => J x c /\ hist Q (cn_log c)).
Proof.
  intros HQ HJ Hb Hc.
  assert (Hs : forall x c ev, match ev with EvCall _ _ => False | _ => True end ->
            J x c /\ hist Q (cn_log c) -> J x (log c ev) /\ hist Q (cn_log (log c ev))).
  { intros x c ev Hev [H1 H2]. split; [by apply HJ|]. simpl. apply hist_snoc. split; [done|].
    pose proof (HQ (cn_log c) ev). by destruct ev. }
  split; auto.
  - intros o x c r x' c' Ho [H1 H2] H. pose proof (call_wire _ _ _ _ _ _ H) as (w & Hl & Hw).
    destruct (Hc _ _ _ _ _ _ _ Ho H1 H Hw Hl) as [HJ' HQ']. split; [done|].
    rewrite Hl. apply hist_snoc. split; [|done]. apply hist_wire; [|done|done].
    intros l ev Hev. pose proof (HQ l ev). by destruct ev.
  - intros x c H. apply (Hs (bump x)); [done|]. destruct H. auto.
  - intros x c i H. destruct (x_written x); apply (Hs (bump x)); try done; destruct H; auto.
Qed.

(** Written and Status *)
Lemma flag_invariant : invariant (fun _ => True)
  (fun x c => flags x c /\ hist flag_rule (cn_log c)) (fun x c => flags x c /\ hist flag_rule (cn_log c)).
Proof.
  apply rule_invariant.
  - by intros l [].
  - intros x c ev Hev H. apply flags_silent; [done|]. by destruct ev.
  - done.
  - intros o x c r x' c' w _ HJ H Hw Hl. split; [by eapply flags_call|]. unfold flag_rule.
    destruct HJ as [H1 H2]. apply call_eq in H as (c1 & Hd & _). destruct o; try done; simpl in Hd; inversion Hd; subst.
    + exists (x_written x'). split; [done|]. rewrite H1, responded_iff, first_code_wire by done.
      by rewrite bool_decide_eq_true.
    + by rewrite H2, first_code_wire.
Qed.

(** which operations touch Environ and Params *)
Lemma do_op_frame o x c r x' c' : do_op sniff parse_form o x c = (r, (x', c')) ->
  match o with OSet _ _ | OEnvPut _ _ => True | _ => x_env x' = x_env x end /\
  match o with OParamPut _ _ => True | _ => x_params x' = x_params x end.
Proof.
  destruct o; simpl; try (intros H; inversion H; subst; by auto).
  - unfold ctx_WriteHeader. destruct (x_written x); [intros H; inversion H; by subst|].
    destruct (raw_WriteHeader _ _). intros H; inversion H; by subst.
  - unfold ctx_Write, ctx_WriteHeader. destruct (x_written x); simpl; [intros H; inversion H; by subst|].
    destruct (raw_WriteHeader _ _) as [[] ?]; intros H; inversion H; by subst.
  - destruct (raw_WriteHeader _ _). intros H; inversion H; by subst.
  - destruct (x_end x) as [[? [rt|]]|]; intros H; inversion H; by subst.
  - destruct (x_params x); intros H; inversion H; by subst.
  - destruct (x_env x) as [m|]; [destruct (m !! name)|]; intros H; inversion H; by subst.
  - destruct (x_env x ≫= _); intros H; inversion H; by subst.
  - destruct (x_env x) as [m|]; intros H; inversion H; by subst.
  - destruct (x_parsed x); [intros H; inversion H; by subst|].
    destruct (parse_form _ _ _) as [[f ok] rest]. destruct ok; intros H; inversion H; by subst.
Qed.

(** the environment *)
Definition env_ok x c : Prop := exists m, x_env x = Some m /\ forall n, m !! n = stored (cn_log c) n.
Definition env_op (o : op V) : bool := match o with OSet _ _ | OEnvPut _ _ | OGet _ | OGetMaybe _ => true | _ => false end.
Lemma env_invariant : invariant (fun _ => True)
  (fun x c => env_ok x c /\ hist env_rule (cn_log c)) (fun x c => env_ok x c /\ hist env_rule (cn_log c)).
Proof.
  apply rule_invariant.
  - by intros l [].
  - intros x c ev Hev (m & H1 & H2). exists m. split; [done|]. intros n. simpl. rewrite stored_snoc, H2. by destruct ev.
  - done.
  - intros o x c r x' c' w _ (m & H1 & H2) H Hw Hl.
    assert (Hsame : x_env x' = x_env x -> (forall n, stores n (EvCall o r) = None) -> env_ok x' c').
    { intros He Hn. exists m. split; [congruence|]. intros n. by rewrite Hl, stored_snoc, Hn, stored_wire. }
    assert (Hput : forall n v, x_env x' = Some (<[n := v]> m) ->
              (forall n', stores n' (EvCall o r) = if decide (n = n') then Some v else None) -> env_ok x' c').
    { intros n v He Hn. exists (<[n := v]> m). split; [done|]. intros n'. rewrite Hl, stored_snoc, Hn, stored_wire by done.
      destruct (decide (n = n')) as [->|Hne]; [by rewrite lookup_insert|by rewrite lookup_insert_ne]. }
    apply call_eq in H as (c1 & Hd & Hc'). clear Hl Hc'.
    destruct (env_op o) eqn:Ho.
    + unfold env_rule. destruct o; try discriminate Ho; simpl in Hd; rewrite H1 in Hd; rewrite ?stored_wire, <- ?H2 by done.
      * destruct (m !! name) as [v0|] eqn:Hm; inversion Hd; subst.
        -- split; [|done]. by apply Hsame.
        -- split; [|done]. by apply (Hput name v).
      * simpl in Hd. destruct (m !! name) as [v0|] eqn:Hm; inversion Hd; subst.
        -- split; [|done]. by apply Hsame.
        -- split; [|done]. by apply Hsame.
      * inversion Hd; subst. split; [|done]. by apply Hsame.
      * inversion Hd; subst. split; [|done]. by apply (Hput name v).
    + apply do_op_frame in Hd as [He _]. split.
      * apply Hsame; destruct o; try discriminate Ho; done.
      * unfold env_rule. by destruct o.
Qed.

(** FullPath *)
Definition path_of (n : option (enode (handler A) * option (route A))) (u : gostr) : Prop :=
  match n with None => u = [] | Some (_, Some rt) => rt_uri rt = u | Some (_, None) => False end.
Lemma path_invariant u : invariant (fun _ => True)
  (fun x c => path_of (x_end x) u /\ hist (path_rule u) (cn_log c))
  (fun x c => path_of (x_end x) u /\ hist (path_rule u) (cn_log c)).
Proof.
  apply (rule_invariant _ _ (fun x _ => path_of (x_end x) u)).
  - by intros l [].
  - done.
  - done.
  - intros o x c r x' c' w _ HJ H Hw Hl. pose proof (call_run _ _ _ _ _ _ _ _ H) as []. rewrite sr_end.
    split; [done|]. apply call_eq in H as (c1 & Hd & _). unfold path_rule. destruct o; try done. simpl in Hd.
    unfold path_of in HJ. destruct (x_end x) as [[? [rt|]]|]; inversion Hd; subst; done.
Qed.

(** Params *)
Lemma param_invariant p : invariant (fun _ => True)
  (fun x c => x_params x = fold_left put_step (cn_log c) p /\ hist (param_rule p) (cn_log c))
  (fun x c => x_params x = fold_left put_step (cn_log c) p /\ hist (param_rule p) (cn_log c)).
Proof.
  apply (rule_invariant _ _ (fun x c => x_params x = fold_left put_step (cn_log c) p)).
  - by intros l [].
  - intros x c ev Hev ->. simpl. rewrite fold_left_app. by destruct ev.
  - done.
  - intros o x c r x' c' w _ HJ H Hw Hl. rewrite Hl, fold_left_app, put_wire, <- HJ by done.
    apply call_eq in H as (c1 & Hd & _). pose proof (do_op_frame _ _ _ _ _ _ Hd) as [_ Hp].
    assert (Hp0 : p = None <-> x_params x = None).
    { rewrite HJ. clear. generalize (cn_log c). intros l. revert p.
      induction l as [|ev l IH]; intros p; [done|]. simpl. rewrite <- IH.
      destruct ev as [| | |[]| |]; try done. simpl. by destruct p. }
    destruct o; try (split; [exact Hp|]; simpl in Hd |- *; try done).
    + inversion Hd; subst. rewrite put_wire by done. by rewrite <- HJ.
    + simpl in Hd |- *. destruct (x_params x) as [m|] eqn:Hx; inversion Hd; subst; simpl.
      * split; [done|]. destruct p; [done|]. by destruct Hp0 as [Hp0 _]; specialize (Hp0 eq_refl).
      * split; [congruence|]. destruct p; [|done]. by destruct Hp0 as [_ Hp0]; specialize (Hp0 eq_refl).
Qed.

(** ** Starting handlers *)
Lemma start_invariant : invariant (fun _ => True)
  (fun x c => flags x c /\ hist start_rule (cn_log c) /\ may_start (cn_log c))
  (fun x c => flags x c /\ hist start_rule (cn_log c)).
Proof.
  split.
  - intros x c (H1 & H2 & H3) _. done.
  - intros x c (H1 & H2 & H3) _. split; [by apply flags_silent|]. simpl. apply hist_snoc. done.
  - intros o x c r x' c' _ (H1 & H2) H. split; [by eapply flags_call|].
    apply call_wire in H as (w & -> & Hw). apply hist_snoc. split; [|done]. apply hist_wire; [|done|done]. by intros l [].
  - intros x c (H1 & H2). split_and!; [by apply (flags_silent (bump x))|simpl; by apply hist_snoc|].
    right. left. by exists (cn_log c).
  - intros x c i (H1 & H2).
    assert (flags (bump x) (log c (EvEnd i)) /\ hist start_rule (cn_log (log c (EvEnd i)))) as [??].
    { split; [by apply (flags_silent (bump x))|]. simpl. by apply hist_snoc. }
    destruct (x_written x) eqn:Hw; [done|]. split_and!; [done|done|]. right. right. exists (cn_log c), i.
    split; [done|]. rewrite responded_iff. destruct H1 as [H1 _]. rewrite Hw in H1. symmetry in H1.
    by apply bool_decide_eq_false in H1.
Qed.

(** ** The response *)
Lemma guess_eq d h : guess sniff d h =
  if negb (length d =? 0)%nat && seqb (h_get h (L "Content-Type")) [] then h_set h (L "Content-Type") (sniff d) else h.
Proof.
  unfold guess. destruct d as [|a d]; simpl length.
  - rewrite decide_False by (by intros [??]). done.
  - cbn [Nat.eqb negb andb]. destruct (seqb _ _) eqn:Hs.
    + apply seqb_true in Hs. by rewrite decide_True.
    + apply seqb_false in Hs. by rewrite decide_False by (intros [??]; done).
Qed.


Lemma quiet_rw o x c r x' c' : quiet_op o -> call o x c = (r, (x', c')) ->
  cn_rw c' = mkRw (hdr_step (rw_hdr (cn_rw c)) (EvCall o r)) (rw_sent (cn_rw c)) (rw_body (cn_rw c)).
Proof.
  intros Hq H. apply call_eq in H as (c1 & Hd & ->). revert Hd.
  assert (He : forall w, w = mkRw (rw_hdr w) (rw_sent w) (rw_body w)) by (by intros []).
  destruct o; try (by destruct Hq); simpl; try (intros H; inversion H; subst; by auto).
  - destruct (x_end x) as [[? [rt|]]|]; intros H; inversion H; subst; by auto.
  - destruct (x_params x); intros H; inversion H; subst; by auto.
  - destruct (x_env x) as [m|]; [destruct (m !! name)|]; intros H; inversion H; subst; by auto.
  - destruct (x_env x ≫= _); intros H; inversion H; subst; by auto.
  - destruct (x_env x) as [m|]; intros H; inversion H; subst; by auto.
  - destruct (x_parsed x); [intros H; inversion H; subst; by auto|].
    destruct (parse_form _ _ _) as [[f ok] rest].
    destruct ok; intros H; inversion H; subst; by auto.
Qed.

(** appending to the log of a response already decided *)
Lemma response_more (l : list (event V)) w ev w' (d : gostr) : responded l -> response sniff l w ->
  sends [ev] = [] -> rw_sent w' = rw_sent w ->
  (data_of [ev] = d) ->
  (forall n h, rw_sent w = Some (n, h) -> rw_body w' = rw_body w ++ if body_allowed n then d else []) ->
  response sniff (l ++ [ev]) w'.
Proof.
  intros Hr [(H1 & _)|(l1 & o & r & l2 & -> & H1 & H2)] Hsd Hs Hd Hb; [done|].
  right. exists l1, o, r, (l2 ++ [ev]). split; [by rewrite <- app_assoc|]. split; [done|].
  rewrite sends_app, Hsd, app_nil_r.
  destruct o; try done.
  - destruct H2 as [H2 H3]. split; [done|]. intros Hv. destruct (H3 Hv) as (Ha & Hb1 & Hc).
    split; [done|]. rewrite Hs. split; [done|]. rewrite (Hb _ _ Hb1), Hc, data_of_app, Hd.
    change (bears_body code0) with (body_allowed code0). destruct (body_allowed code0); [done|by rewrite app_nil_r].
  - destruct H2 as (H2 & Ha & Hb1 & Hc). split; [done|]. split; [done|]. rewrite Hs. split; [done|].
    rewrite (Hb _ _ Hb1), Hc, data_of_app, Hd. simpl. by rewrite <- app_assoc.
Qed.

Lemma response_silent (l : list (event V)) w ev : response sniff l w ->
  match ev with EvStart _ | EvEnd _ | EvNext => True | _ => False end -> response sniff (l ++ [ev]) w.
Proof.
  intros H Hev. destruct (first_code l) eqn:Hf.
  - apply (response_more _ w _ _ []); try done; [unfold responded; congruence| | |].
    + by destruct ev.
    + by destruct ev.
    + intros n h _. destruct (body_allowed n); by rewrite app_nil_r.
  - destruct H as [(H1 & H2 & ->)|(l1 & o & r & l2 & -> & H1 & H2)].
    + left. rewrite first_code_app, H1, first_code_one, sends_app, H2, headers_of_snoc. by destruct ev.
    + exfalso. rewrite first_code_app, H1 in Hf. destruct o; try done; by unfold first_code in Hf; simpl in Hf.
Qed.


Lemma raw_Write_rw d c n h : rw_sent (cn_rw c) = Some (n, h) ->
  cn_rw (raw_Write d c) = mkRw (rw_hdr (cn_rw c)) (Some (n, h)) (rw_body (cn_rw c) ++ if body_allowed n then d else []).
Proof.
  intros Hs. unfold raw_Write. cbn zeta. simpl. rewrite Hs, Hs. destruct (body_allowed n); simpl; [done|].
  rewrite app_nil_r. destruct (cn_rw c) as [a b e]. simpl in *. by subst.
Qed.

Lemma response_invariant : invariant (fun o => ~ raw o)
  (fun x c => flags x c /\ response sniff (cn_log c) (cn_rw c))
  (fun x c => flags x c /\ response sniff (cn_log c) (cn_rw c)).
Proof.
  split.
  - done.
  - intros x c [H1 H2] _. split; [by apply flags_silent|]. by apply response_silent.
  - intros o x c r x' c' Ho [H1 H2] H. split; [by eapply flags_call|].
    assert (Hq : quiet_op o \/ ~ quiet_op o) by (destruct o; simpl; auto).
    destruct Hq as [Hq|Hq].
    { pose proof (quiet_rw _ _ _ _ _ _ Hq H) as Hrw. apply quiet_log in H as (Hl & _); [|done]. rewrite Hl, Hrw.
      destruct (first_code (cn_log c)) eqn:Hf.
      - apply (response_more _ (cn_rw c) _ _ []); [unfold responded; congruence|done|by destruct o|done|by destruct o|].
        intros n h _. simpl. destruct (body_allowed n); by rewrite app_nil_r.
      - destruct H2 as [(_ & Hs & Hw)|(l1 & o' & r' & l2 & Heq & H2 & H3)].
        + left. rewrite first_code_app, Hf, first_code_one, sends_app, Hs, headers_of_snoc, Hw.
          split; [by destruct o|]. split; [by destruct o|]. done.
        + exfalso. rewrite Heq, first_code_app, H2 in Hf. destruct o'; try done; by unfold first_code in Hf; simpl in Hf. }
    destruct H1 as [Hw _].
    pose proof H as Hcall. apply call_eq in H as (c1 & Hd & ->). simpl cn_log. simpl cn_rw.
    destruct o; try (by destruct Hq); try (by destruct Ho); cbn [do_op] in Hd.
    + (* WriteHeader *)
      unfold ctx_WriteHeader in Hd. destruct (first_code (cn_log c)) eqn:Hf; rewrite Hw in Hd; simpl in Hd.
      * inversion Hd; subst. apply (response_more _ (cn_rw c1) _ _ []); [unfold responded; congruence|done..|].
        intros m h _. destruct (body_allowed m); by rewrite app_nil_r.
      * destruct H2 as [(_ & Hs & Hrw)|(l1 & o' & r' & l2 & Heq & H2 & H3)].
        2: { exfalso. rewrite Heq, first_code_app, H2 in Hf. destruct o'; try done; by unfold first_code in Hf; simpl in Hf. }
        rewrite raw_WriteHeader_spec, Hrw in Hd. simpl in Hd.
        right. exists (cn_log c ++ [EvSend code0]), (OWriteHeader code0), r, [].
        destruct (valid_code code0) eqn:Hv; inversion Hd; subst; simpl.
        -- split; [done|]. split; [by rewrite first_code_app, Hf|].
           rewrite !sends_app, Hs. split; [done|]. intros _. split; [done|].
           rewrite headers_of_snoc. split; [done|]. change (bears_body code0) with (body_allowed code0). by destruct (body_allowed code0).
        -- split; [done|]. split; [by rewrite first_code_app, Hf|]. rewrite !sends_app, Hs. split; [done|]. change (proper_code code0) with (valid_code code0). by rewrite Hv.
    + (* Write *)
      unfold ctx_Write in Hd. destruct (first_code (cn_log c)) eqn:Hf; rewrite Hw in Hd; cbn in Hd.
      * inversion Hd; subst. rewrite raw_Write_log, <- app_assoc.
        change ([EvData data] ++ [EvCall (OWrite data) (Norm tt)]) with ([EvData data; EvCall (OWrite data) (Norm tt)] : list (event V)).
        assert (Hx : response sniff (cn_log c ++ [EvData data]) (cn_rw c)).
        { apply (response_more _ (cn_rw c) _ _ []); [unfold responded; congruence|done..|].
          intros m h _. destruct (body_allowed m); by rewrite app_nil_r. }
        rewrite (cons_middle (EvData data) (cn_log c)), app_assoc.
        destruct (rw_sent (cn_rw c)) as [[n h]|] eqn:Hsent.
        -- rewrite (raw_Write_rw _ _ n h Hsent).
           apply (response_more _ (cn_rw c) _ _ data); [unfold responded; by rewrite first_code_app, Hf|done|done|done|by unfold data_of; simpl; rewrite app_nil_r|].
           simpl. intros m h' Hm. rewrite Hsent in Hm. by injection Hm as <- <-.
        -- (* an invalid code was asked for: nothing is claimed *)
           destruct Hx as [(Hx & _)|(l1 & o & r & l2 & Heq & Hl1 & Hx)].
           { by rewrite first_code_app, Hf in Hx. }
           right. exists l1, o, r, (l2 ++ [EvCall (OWrite data) (Norm tt)]).
           split; [by rewrite Heq, <- app_assoc|]. split; [done|].
           rewrite sends_app. simpl. rewrite app_nil_r. destruct o; try done.
           ++ destruct Hx as [Hx Hy]. split; [done|]. intros Hv. destruct (Hy Hv) as (_ & Hy' & _). congruence.
           ++ destruct Hx as (_ & _ & Hx & _). congruence.
      * destruct H2 as [(_ & Hs & Hrw)|(l1 & o' & r' & l2 & Heq & H2 & H3)].
        2: { exfalso. rewrite Heq, first_code_app, H2 in Hf. destruct o'; try done; by unfold first_code in Hf; simpl in Hf. }
        match type of Hd with context [ctx_WriteHeader 200 x ?y] => set (c0 := y) in Hd end.
        assert (Hc0 : cn_rw c0 = mkRw (guess sniff data (headers_of (cn_log c))) None [] /\ cn_log c0 = cn_log c).
        { unfold c0. rewrite Hrw, guess_eq. simpl.
          match goal with |- context [if ?b then _ else _] => destruct b end; simpl; rewrite ?Hrw; split; done. }
        destruct Hc0 as [Hc0 Hc0l]. unfold ctx_WriteHeader in Hd. rewrite Hw, raw_WriteHeader_spec, Hc0 in Hd. simpl in Hd.
        inversion Hd; subst. rewrite raw_Write_log. simpl cn_log. rewrite Hc0l.
        erewrite raw_Write_rw by reflexivity. simpl.
        right. exists ((cn_log c ++ [EvSend 200]) ++ [EvData data]), (OWrite data), (Norm tt), [].
        split; [done|]. split; [by rewrite !first_code_app, Hf|].
        rewrite !sends_app, Hs. split; [done|]. split; [done|].
        rewrite !headers_of_snoc. simpl. split; [done|]. by rewrite app_nil_r.
  - intros x c [H1 H2]. split; [by apply (flags_silent (bump x))|]. by apply response_silent.
  - intros x c i [H1 H2]. destruct (x_written x); (split; [by apply (flags_silent (bump x))|]; by apply response_silent).
Qed.

End Props.
