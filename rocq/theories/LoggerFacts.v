(** Logger: the chain behind it runs as it would alone. *)
From Verif Require Import Base GoStr Strconv Pattern Tree TreeSpec Header Router Ctx CtxFacts TraceSpec Engine EngineSpec
  ServeFacts ServeProps ServeTop ServeDispatch Content ContentFacts Middleware MiddlewareSpec RecoveryFacts.
Local Open Scope Z_scope.

Section Facts.
Context {A V : Type}.
Variable sniff : gostr -> gostr.
Variable parse_form : bool -> request -> gostr * bool -> gmap gostr (list gostr) * bool * gostr.
Variable code : handler A -> prog V.
Implicit Types x y : ctxobj A V.
Implicit Types c : conn V.
Implicit Types next : ctxobj A V -> conn V -> ending * (ctxobj A V * conn V).

Local Notation do_op := (do_op sniff parse_form).
Local Notation call := (call sniff parse_form).
Local Notation pexec := (pexec sniff parse_form).
Local Notation crun := (crun sniff parse_form code).
Local Notation ran := (ran sniff parse_form code).

(** ** The same run, further down a longer chain and with another log *)
Variable pre : list (handler A).
Let d := length pre.

Definition up x : ctxobj A V :=
  mkCtx (x_env x) (x_params x) (x_conn x) (pre ++ x_handlers x) (d + x_hlen x) (d + x_index x)
    (x_written x) (x_status x) (x_end x) (x_parsed x).
Definition relog c (l : list (event V)) : conn V := mkConn (cn_req c) (cn_rw c) (cn_body c) (cn_form c) l.
(** events, seen from the longer chain *)
Definition shift_event (e : event V) : event V :=
  match e with EvStart i => EvStart (d + i) | EvEnd i => EvEnd (d + i) | e => e end.

Lemma raw_WriteHeader_relog n c l : exists c', raw_WriteHeader n c = (fst (raw_WriteHeader n c), c') /\
  raw_WriteHeader n (relog c l) = (fst (raw_WriteHeader n c), relog c' (l ++ [EvSend n])) /\ cn_log c' = cn_log c ++ [EvSend n].
Proof.
  rewrite !raw_WriteHeader_spec. cbn [relog cn_rw]. destruct (rw_sent (cn_rw c)); [by eexists|].
  destruct (valid_code n); by eexists.
Qed.
Lemma raw_Write_relog b c l : raw_Write b (relog c l) = relog (raw_Write b c) (l ++ [EvData b]).
Proof.
  unfold raw_Write. cbn [relog log cn_rw]. destruct (rw_sent (cn_rw c)) as [[n h]|].
  - cbn iota. destruct (rw_sent (cn_rw c)) as [[n' h']|]; [|done]. by destruct (body_allowed n').
  - cbn. done.
Qed.

Lemma ctx_WriteHeader_up n x c l : exists o x' c' w, ctx_WriteHeader n x c = (o, (x', c')) /\
  ctx_WriteHeader n (up x) (relog c l) = (o, (up x', relog c' (l ++ w))) /\ cn_log c' = cn_log c ++ w /\ map shift_event w = w.
Proof.
  unfold ctx_WriteHeader. change (x_written (up x)) with (x_written x). destruct (x_written x) eqn:Hw.
  - eexists _, _, _, []. rewrite !app_nil_r. done.
  - destruct (raw_WriteHeader_relog n c l) as (c' & H1 & H2 & H3). rewrite H1, H2. by eexists _, _, _, [EvSend n].
Qed.

Lemma do_op_up o x c l : exists r x' c' w, do_op o x c = (r, (x', c')) /\
  do_op o (up x) (relog c l) = (r, (up x', relog c' (l ++ w))) /\ cn_log c' = cn_log c ++ w /\ map shift_event w = w.
Proof.
  destruct o; cbn [Ctx.do_op up x_end x_params x_env x_parsed x_written x_status relog cn_rw cn_req cn_body cn_form];
    try (eexists _, _, _, []; rewrite !app_nil_r; split_and!; (reflexivity || done)).
  - apply ctx_WriteHeader_up.
  - unfold ctx_Write. change (x_written (up x)) with (x_written x). destruct (x_written x) eqn:Hw; cbn [negb].
    + eexists _, _, _, [EvData data]. split; [reflexivity|]. rewrite raw_Write_relog. split; [reflexivity|]. split; [|done].
      apply raw_Write_log.
    + cbn [relog cn_rw].
      set (g := negb (length data =? 0)%nat && seqb (h_get (rw_hdr (cn_rw c)) (L "Content-Type")) []).
      set (c1 := if g then set_hdr c (h_set (rw_hdr (cn_rw c)) (L "Content-Type") (sniff data)) else c).
      replace (if g then set_hdr (relog c l) (h_set (rw_hdr (cn_rw c)) (L "Content-Type") (sniff data)) else relog c l)
        with (relog c1 l) by (unfold c1; by destruct g).
      assert (cn_log c1 = cn_log c) as Hc1 by (unfold c1; by destruct g).
      destruct (ctx_WriteHeader_up 200 x c1 l) as (o & x' & c' & w & H1 & H2 & H3 & H4). rewrite H1, H2.
      destruct o as [[]|v].
      * eexists _, _, _, (w ++ [EvData data]). split; [reflexivity|]. rewrite raw_Write_relog, <- app_assoc. split; [reflexivity|].
        rewrite raw_Write_log, H3, Hc1, <- app_assoc. split; [done|]. by rewrite map_app, H4.
      * eexists _, _, _, w. split; [reflexivity|]. split; [reflexivity|]. by rewrite H3, Hc1.
  - destruct (raw_WriteHeader_relog code0 c l) as (c' & H1 & H2 & H3). rewrite H1, H2. by eexists _, _, _, [EvSend code0].
  - eexists _, _, _, [EvData data]. split; [reflexivity|]. rewrite raw_Write_relog. split; [reflexivity|]. split; [|done].
    apply raw_Write_log.
  - destruct (x_end x) as [[? [rt|]]|]; eexists _, _, _, []; rewrite !app_nil_r; split_and!; (reflexivity || done).
  - destruct (x_params x); eexists _, _, _, []; rewrite !app_nil_r; split_and!; (reflexivity || done).
  - destruct (x_env x) as [m|]; [destruct (m !! name)|]; eexists _, _, _, []; rewrite !app_nil_r; split_and!; (reflexivity || done).
  - destruct (x_env x ≫= _); eexists _, _, _, []; rewrite !app_nil_r; split_and!; (reflexivity || done).
  - destruct (x_env x) as [m|]; eexists _, _, _, []; rewrite !app_nil_r; split_and!; (reflexivity || done).
  - destruct (x_parsed x); [eexists _, _, _, []; rewrite !app_nil_r; split_and!; (reflexivity || done)|].
    destruct (parse_form _ _ _) as [[f ok] rest]. destruct ok; eexists _, _, _, []; rewrite !app_nil_r; split_and!; (reflexivity || done).
Qed.
Lemma call_up o x c l : exists r x' c' w, call o x c = (r, (x', c')) /\
  call o (up x) (relog c l) = (r, (up x', relog c' (l ++ w))) /\ cn_log c' = cn_log c ++ w /\ map shift_event w = w.
Proof.
  destruct (do_op_up o x c l) as (r & x' & c' & w & H1 & H2 & H3 & H4). unfold Ctx.call. rewrite H1, H2.
  eexists _, _, _, (w ++ [EvCall o r]). split; [reflexivity|]. split; [by rewrite app_assoc|].
  split; [cbn [log cn_log]; by rewrite H3, <- app_assoc|]. by rewrite map_app, H4.
Qed.

Definition shifts (f g : ctxobj A V -> conn V -> ending * (ctxobj A V * conn V)) : Prop :=
  forall x c l, exists r x' c' w, f x c = (r, (x', c')) /\ g (up x) (relog c l) = (r, (up x', relog c' (l ++ map shift_event w))) /\
    cn_log c' = cn_log c ++ w.
Lemma pexec_up f g p : shifts f g -> shifts (pexec f p) (pexec g p).
Proof.
  intros Hfg. induction p as [|v|o k IH|k IH|b IHb k IH]; intros x c l; cbn [Ctx.pexec].
  - eexists _, _, _, []. cbn [map]. by rewrite !app_nil_r.
  - eexists _, _, _, []. cbn [map]. by rewrite !app_nil_r.
  - destruct (call_up o x c l) as (r & x1 & c1 & w & H1 & H2 & H3 & H4). rewrite H1, H2. destruct r as [a|v].
    + destruct (IH a x1 c1 (l ++ w)) as (r & x2 & c2 & w2 & J1 & J2 & J3). eexists _, _, _, (w ++ w2).
      split; [exact J1|]. rewrite map_app, H4, app_assoc. split; [exact J2|]. by rewrite J3, H3, app_assoc.
    + eexists _, _, _, w. by rewrite H4.
  - destruct (Hfg x c l) as (r & x1 & c1 & w & H1 & H2 & H3). rewrite H1, H2. destruct r as [|v|].
    + destruct (IH x1 c1 (l ++ map shift_event w)) as (r & x2 & c2 & w2 & J1 & J2 & J3). eexists _, _, _, (w ++ w2).
      split; [exact J1|]. rewrite map_app, app_assoc. split; [exact J2|]. by rewrite J3, H3, app_assoc.
    + by eexists _, _, _, w.
    + by eexists _, _, _, w.
  - destruct (IHb x c l) as (r & x1 & c1 & w & H1 & H2 & H3). rewrite H1, H2. destruct r as [|v|].
    + destruct (IH None x1 c1 (l ++ map shift_event w)) as (r & x2 & c2 & w2 & J1 & J2 & J3). eexists _, _, _, (w ++ w2).
      split; [exact J1|]. rewrite map_app, app_assoc. split; [exact J2|]. by rewrite J3, H3, app_assoc.
    + destruct (IH (Some v) x1 c1 (l ++ map shift_event w)) as (r & x2 & c2 & w2 & J1 & J2 & J3). eexists _, _, _, (w ++ w2).
      split; [exact J1|]. rewrite map_app, app_assoc. split; [exact J2|]. by rewrite J3, H3, app_assoc.
    + by eexists _, _, _, w.
Qed.

Lemma crun_up fuel : shifts (crun fuel) (crun fuel).
Proof.
  induction fuel as [|fuel IH]; intros x c l; cbn [Ctx.crun];
    change (x_index (up x) <? x_hlen (up x))%nat with (d + x_index x <? d + x_hlen x)%nat;
    assert ((d + x_index x <? d + x_hlen x)%nat = (x_index x <? x_hlen x)%nat) as ->
      by (apply eq_true_iff_eq; rewrite !Nat.ltb_lt; lia);
    destruct (x_index x <? x_hlen x)%nat; try (eexists _, _, _, []; cbn [map]; rewrite !app_nil_r; done).
  change (x_handlers (up x)) with (pre ++ x_handlers x). change (x_index (up x)) with (d + x_index x)%nat.
  assert ((pre ++ x_handlers x) !! (d + x_index x)%nat = x_handlers x !! x_index x) as ->.
  { rewrite lookup_app_r by (unfold d; lia). f_equal. unfold d. lia. }
  destruct (x_handlers x !! x_index x) as [h|] eqn:Hh; [|eexists _, _, _, []; cbn [map]; rewrite !app_nil_r; done].
  match goal with |- context [pexec ?f (code h) x _] => set (next := f) end.
  assert (Hn : shifts next next).
  { intros y cy ly. unfold next. destruct (IH (set_index y (S (x_index y))) (log cy EvNext) (ly ++ [EvNext])) as (r & x1 & c1 & w & H1 & H2 & H3).
    eexists _, _, _, (EvNext :: w). split; [exact H1|]. split; [|by rewrite H3; cbn [log cn_log]; rewrite <- app_assoc].
    replace (set_index (up y) (S (x_index (up y)))) with (up (set_index y (S (x_index y)))).
    - replace (log (relog cy ly) EvNext) with (relog (log cy EvNext) (ly ++ [EvNext])) by done. rewrite H2. cbn [map].
      rewrite <- app_assoc. done.
    - unfold up, set_index. cbn. f_equal. lia. }
  destruct (pexec_up _ _ (code h) Hn x (log c (EvStart (x_index x))) (l ++ [EvStart (d + x_index x)])) as (r & x1 & c1 & w & H1 & H2 & H3).
  replace (log (relog c l) (EvStart (d + x_index x))) with (relog (log c (EvStart (x_index x))) (l ++ [EvStart (d + x_index x)])) by done.
  rewrite H1, H2. cbn [log cn_log] in H3. destruct r as [|v|].
  - replace (set_index (up x1) (S (x_index (up x1)))) with (up (set_index x1 (S (x_index x1)))).
    2: { unfold up, set_index. cbn. f_equal. lia. }
    change (x_written (up (set_index x1 (S (x_index x1))))) with (x_written (set_index x1 (S (x_index x1)))).
    match goal with |- context [log (relog c1 ?ll) (EvEnd ?i)] =>
      replace (log (relog c1 ll) (EvEnd i)) with (relog (log c1 (EvEnd (x_index x))) (ll ++ [EvEnd i])) by done end.
    destruct (x_written (set_index x1 (S (x_index x1)))).
    + eexists _, _, _, (EvStart (x_index x) :: w ++ [EvEnd (x_index x)]). split; [reflexivity|].
      split; [|cbn [log cn_log]; by rewrite H3, <- !app_assoc]. cbn [map]. rewrite map_app, <- !app_assoc. done.
    + destruct (IH (set_index x1 (S (x_index x1))) (log c1 (EvEnd (x_index x)))
        (((l ++ [EvStart (d + x_index x)]) ++ map shift_event w) ++ [EvEnd (d + x_index x)])) as (r & x2 & c2 & w2 & J1 & J2 & J3).
      rewrite J1, J2. eexists _, _, _, (EvStart (x_index x) :: w ++ EvEnd (x_index x) :: w2). split; [reflexivity|].
      split; [cbn [map]; rewrite map_app, <- !app_assoc; cbn; rewrite <- ?app_assoc; done|].
      rewrite J3. cbn [log cn_log]. rewrite H3, <- !app_assoc. done.
  - eexists _, _, _, (EvStart (x_index x) :: w). split; [reflexivity|]. rewrite H3, <- !app_assoc. done.
  - eexists _, _, _, (EvStart (x_index x) :: w). split; [reflexivity|]. rewrite H3, <- !app_assoc. done.
Qed.
End Facts.

Section Logger.
Context {A V : Type}.
Variable sniff : gostr -> gostr.
Variable parse_form : bool -> request -> gostr * bool -> gmap gostr (list gostr) * bool * gostr.
Variable code : handler A -> prog V.
Implicit Types c : conn V.

Local Notation pexec := (pexec sniff parse_form).
Local Notation crun := (crun sniff parse_form code).
Local Notation ran := (ran sniff parse_form code).

(** what Logger itself leaves in the log *)
Definition log_own (e : event V) : Prop :=
  match e with
  | EvStart 0 | EvEnd 0 | EvNext => True
  | EvCall ORequest _ | EvCall (OBodyRead _) _ | EvCall OBodyClose _ | EvCall (OBodySet _) _ | EvCall OStatus _ | EvCall (OLog _) _ => True
  | _ => False
  end.
(** Logger reads the body of a request: switched on, and the type is JSON *)
Definition logs_body (close lb : bool) (r : request) : Prop :=
  close = false /\ lb = true /\ contains (L "application/json") (h_get (rq_header r) (L "Content-Type")) = true.

Global Instance logs_body_dec close lb r : Decision (logs_body close lb r).
Proof. unfold logs_body. apply _. Defined.
(** the body that the handlers behind Logger have *)
Definition body_seen (close lb : bool) (limit : nat) (r : request) (body : rbody) : rbody :=
  if decide (logs_body close lb r) then mkBody (take limit (bd_data body)) FMem else body.
(** the line that Logger writes: not before the chain behind it has come back, and
    not at all if that ends with a panic *)
Definition log_lines (lf : logfmt) (close lb : bool) (r : request) (body : gostr) (en : ending) (l : list (event V)) : list gostr :=
  if close then [] else
  match en with
  | EDone => [log_line lf (match first_code l with Some n => n | None => 0 end) r
                (if decide (logs_body close lb r) then ascii_of_nat 10 :: body else [])]
  | _ => []
  end.
Lemma request_kept r : invariant (A:=A) sniff parse_form (fun _ : op V => True) (fun _ c => cn_req c = r) (fun _ c => cn_req c = r).
Proof.
  split; try done.
  - intros o x c a x' c' _ H Hc. apply call_run in Hc as []. congruence.
  - intros x c i H. by destruct (x_written x).
Qed.

Lemma logger_run g lf limit close lb hs id ps n r body en c en' c' :
  code g = Logger lf limit close lb ->
  ran id hs ps n r (body_seen close lb limit r body) en c -> ran id (g :: hs) ps n r body en' c' ->
  en' = en /\ cn_rw c' = cn_rw c /\ cn_body c' = cn_body c /\ cn_form c' = cn_form c /\
  exists w1 w2, cn_log c' = w1 ++ map (shift_event [g]) (cn_log c) ++ w2 /\ Forall log_own w1 /\ Forall log_own w2 /\
    starts w2 = [] /\ logged w1 = [] /\ logged w2 = log_lines lf close lb r (take limit (bd_data body)) en (cn_log c).
Proof.
  intros Hg [x Hrun] [x' Hrun'].
  cbn [length Ctx.crun] in Hrun'.
  change (x_index (fresh id (g :: hs) ps n) <? x_hlen (fresh id (g :: hs) ps n))%nat with true in Hrun'. cbn iota in Hrun'.
  change (x_handlers (fresh id (g :: hs) ps n) !! x_index (fresh id (g :: hs) ps n)) with (Some g) in Hrun'. cbn iota in Hrun'.
  change (x_index (fresh id (g :: hs) ps n)) with 0%nat in Hrun'.
  rewrite Hg in Hrun'. unfold Logger in Hrun'.
  (* the chain behind, wherever it is called from *)
  set (seen := body_seen close lb limit r body) in *.
  assert (Hup : forall l, crun (length hs) (set_index (fresh id (g :: hs) ps n) 1) (relog (arrive r seen) l) =
    (en, (up [g] x, relog c (l ++ map (shift_event [g]) (cn_log c))))).
  { intros l. destruct (crun_up sniff parse_form code [g] (length hs) (fresh id hs ps n) (arrive r seen) l)
      as (r1 & x1 & c1 & w & H1 & H2 & H3). rewrite Hrun in H1. injection H1 as <- <- <-. cbn [arrive cn_log app] in H3. subst w.
    exact H2. }
  destruct close.
  - cbn [Ctx.pexec] in Hrun'. cbn iota in Hrun'. change (x_written (set_index (fresh id (g :: hs) ps n) 1)) with false in Hrun'.
    assert (seen = body) as Hseen by (unfold seen, body_seen; rewrite decide_False; [done|by intros []]).
    change (log (log (arrive r body) (EvStart 0)) (EvEnd 0)) with (relog (arrive (V:=V) r body) [EvStart 0; EvEnd 0]) in Hrun'.
    rewrite <- Hseen in Hrun'.
    rewrite Hup in Hrun'. injection Hrun' as <- <- <-. split_and!; try done.
    exists [EvStart 0; EvEnd 0], []. rewrite app_nil_r. split_and!; try done. by repeat constructor.
  - cbn [Ctx.pexec] in Hrun'.
    match type of Hrun' with context [call sniff parse_form ORequest ?x1 ?c1] => change (call sniff parse_form ORequest x1 c1) with
      (Norm (X:=request) r, (x1, relog (arrive (V:=V) r body) [EvStart 0; EvCall ORequest (Norm r)])) in Hrun' end.
    cbn iota in Hrun'.
    match type of Hrun' with context [pexec ?f (if _ then _ else _) _ _] => set (next := f) in Hrun' end.
    assert (Hreq : cn_req c = r).
    { eapply (crun_inv _ _ _ _ _ _ (request_kept r)) in Hrun; [done| | | |done]; [intros h _; apply only_any|done|simpl; lia]. }
    assert (Hfl : flags x c).
    { eapply (crun_inv _ _ _ _ _ _ (flags_invariant sniff parse_form)) in Hrun; [done| | | |apply flags_fresh]; [intros h _; apply only_any|done|simpl; lia]. }
    (* Next, and what is read afterwards *)
    assert (Hrest : forall l text, Forall log_own l -> starts l = [0%nat] -> logged l = [] ->
      text = (if decide (logs_body false lb r) then ascii_of_nat 10 :: take limit (bd_data body) else []) ->
      match pexec next (log_after lf text) (fresh id (g :: hs) ps n) (relog (arrive r seen) l) with
      | (EDone, (x1, c1)) => if x_written (set_index x1 (S (x_index x1))) then (EDone, (set_index x1 (S (x_index x1)), log c1 (EvEnd 0)))
                            else crun (length hs) (set_index x1 (S (x_index x1))) (log c1 (EvEnd 0))
      | r => r
      end = (en', (x', c')) ->
      en' = en /\ cn_rw c' = cn_rw c /\ cn_body c' = cn_body c /\ cn_form c' = cn_form c /\
      exists w1 w2, cn_log c' = w1 ++ map (shift_event [g]) (cn_log c) ++ w2 /\ Forall log_own w1 /\ Forall log_own w2 /\ starts w2 = [] /\
        logged w1 = [] /\ logged w2 = log_lines lf false lb r (take limit (bd_data body)) en (cn_log c)).
    { intros l text Hl Hs Hg1 ->. unfold log_after. cbn [Ctx.pexec]. unfold next.
      change (log (relog (arrive r seen) l) EvNext) with (relog (arrive (V:=V) r seen) (l ++ [EvNext])).
      change (x_index (fresh id (g :: hs) ps n)) with 0%nat. rewrite Hup.
      assert (Hl' : Forall log_own (l ++ [EvNext])) by (apply Forall_app; split; [done|by repeat constructor]).
      destruct en as [|v|].
      - cbn iota.
        match goal with |- context [call _ _ OStatus ?x1 ?c1] => change (call sniff parse_form OStatus x1 c1) with
          (Norm (X:=Z) (x_status x1), (x1, log c1 (EvCall OStatus (Norm (x_status x1))))) end. cbn iota.
        match goal with |- context [call _ _ ORequest ?x1 ?c1] => change (call sniff parse_form ORequest x1 c1) with
          (Norm (X:=request) (cn_req c1), (x1, log c1 (EvCall ORequest (Norm (cn_req c1))))) end. cbn iota.
        rewrite call_Log. cbn iota.
        match goal with |- context [if x_written ?xx then _ else _] => set (x1 := xx) end.
        match goal with |- context [crun _ x1 ?cc] => set (c1 := cc) end.
        assert (Hend : (if x_written x1 then (EDone, (x1, c1)) else crun (length hs) x1 c1) = (EDone, (x1, c1))).
        { destruct (x_written x1) eqn:Hw; [done|].
          pose proof Hrun as Hdone. apply crun_done in Hdone as [Hd|Hd]; [| |done|simpl; lia].
          - unfold x1 in Hw. cbn [set_index up x_written] in Hw. congruence.
          - assert ((x_index x1 <? x_hlen x1)%nat = false) as Hlt.
            { apply Nat.ltb_ge. unfold x1. cbn. lia. }
            destruct (length hs); cbn [Ctx.crun]; by rewrite Hlt. }
        rewrite Hend. intros [= <- <- <-]. split_and!; try done.
        eexists (l ++ [EvNext]), [_; _; _; EvEnd 0].
        split; [unfold c1; cbn [log relog cn_log]; rewrite <- !app_assoc; reflexivity|]. split; [done|]. split; [by repeat constructor|].
        split; [done|]. split; [by rewrite logged_app, Hg1|].
        cbn [logged omap list_omap log_lines]. cbn [log relog cn_req]. rewrite Hreq. destruct Hfl as [_ Hst].
        change (x_status (up [g] x)) with (x_status x). by rewrite Hst.
      - intros [= <- <- <-]. split_and!; try done. exists (l ++ [EvNext]), []. rewrite app_nil_r. split_and!; try done. by rewrite logged_app, Hg1.
      - intros [= <- <- <-]. split_and!; try done. exists (l ++ [EvNext]), []. rewrite app_nil_r. split_and!; try done. by rewrite logged_app, Hg1. }
    destruct (lb && contains (L "application/json") (h_get (rq_header r) (L "Content-Type"))) eqn:Hj.
    + cbn [Ctx.pexec] in Hrun'. apply andb_true_iff in Hj as [Hj1 Hj2].
      assert (Hlb : logs_body false lb r) by (by split_and!).
      assert (seen = mkBody (take limit (bd_data body)) FMem) as Hseen by (unfold seen, body_seen; by rewrite decide_True).
      match type of Hrun' with context [call _ _ (OBodyRead limit) ?x1 ?c1] => change (call sniff parse_form (OBodyRead limit) x1 c1) with
        (Norm (X:=gostr) (take limit (bd_data body)),
         (x1, log (set_body c1 (bd_left body (drop limit (bd_data body)))) (EvCall (OBodyRead limit) (Norm (take limit (bd_data body)))))) in Hrun' end.
      cbn iota in Hrun'.
      match type of Hrun' with context [call _ _ OBodyClose ?x1 ?c1] => change (call sniff parse_form OBodyClose x1 c1) with
        (Norm (X:=unit) tt, (x1, log (set_body c1 (bd_close (cn_body c1))) (EvCall OBodyClose (Norm tt)))) in Hrun' end.
      cbn iota in Hrun'.
      match type of Hrun' with context [call _ _ (OBodySet ?dd) ?x1 ?c1] => change (call sniff parse_form (OBodySet dd) x1 c1) with
        (Norm (X:=unit) tt, (x1, log (set_body c1 (mkBody dd FMem)) (EvCall (OBodySet dd) (Norm tt)))) in Hrun' end.
      cbn iota in Hrun'. rewrite <- Hseen in Hrun'.
      match type of Hrun' with context [pexec next (log_after _ _) _ ?c1] =>
        change c1 with (relog (arrive (V:=V) r seen) [EvStart 0; EvCall ORequest (Norm r);
          EvCall (OBodyRead limit) (Norm (take limit (bd_data body))); EvCall OBodyClose (Norm tt);
          EvCall (OBodySet (take limit (bd_data body))) (Norm tt)]) in Hrun' end.
      apply Hrest in Hrun'; [done|by repeat constructor|done|done|by rewrite decide_True].
    + assert (~ logs_body false lb r) as Hlb by (intros (_ & -> & H2); by rewrite H2 in Hj).
      assert (seen = body) as Hseen by (unfold seen, body_seen; by rewrite decide_False). rewrite <- Hseen in Hrun'.
      apply Hrest in Hrun'; [done|by repeat constructor|done|done|]. by rewrite decide_False.
Qed.
End Logger.

Section Engine.
Context {A V : Type}.
Variable re_ok : gostr -> bool.
Variable re_find : gostr -> gostr -> option (list gostr).
Variable sniff : gostr -> gostr.
Variable parse_form : bool -> request -> gostr * bool -> gmap gostr (list gostr) * bool * gostr.
Variable code : handler A -> prog V.

Lemma ran_exists id hs ps n r body : exists en c, ran sniff parse_form code id hs ps n r body en c.
Proof.
  destruct (crun sniff parse_form code (length hs) (fresh id hs ps n) (arrive r body)) as [en [x c]] eqn:H.
  exists en, c, x. exact H.
Qed.

Lemma logger_serves ops r0 opts e id x r body en px c' lf limit close lb :
  engine_of re_ok ops r0 opts e ->
  ServeHTTP re_find sniff parse_form code e id x (arrive r body) = (en, px, c') -> starts (cn_log c') <> [] ->
  (forall hs, dispatched re_ok re_find e r hs -> exists g hs', hs = g :: hs' /\ code g = Logger lf limit close lb) ->
  exists g hs ps n c, dispatched re_ok re_find e r (g :: hs) /\ code g = Logger lf limit close lb /\
    ran sniff parse_form code id hs ps n r (body_seen close lb limit r body) en c /\
    cn_rw c' = cn_rw c /\ cn_body c' = cn_body c /\ cn_form c' = cn_form c /\
    exists w1 w2, cn_log c' = w1 ++ map (shift_event [g]) (cn_log c) ++ w2 /\ Forall log_own w1 /\ Forall log_own w2 /\
      starts w2 = [] /\ logged w1 = [] /\ logged w2 = log_lines lf close lb r (take limit (bd_data body)) en (cn_log c).
Proof.
  intros He Hs Hne Hd.
  destruct (serve_ran re_ok re_find sniff parse_form code _ _ _ _ _ _ _ _ _ _ _ He Hs Hne) as (hs0 & ps & n & Hdis & Hran).
  destruct (Hd _ Hdis) as (g & hs & -> & Hg).
  destruct (ran_exists id hs ps n r (body_seen close lb limit r body)) as (en1 & c & Hr).
  destruct (logger_run sniff parse_form code g lf limit close lb hs id ps n r body en1 c en c' Hg Hr Hran)
    as (-> & H1 & H2 & H3 & H4).
  exists g, hs, ps, n, c. split_and!; done.
Qed.
End Engine.
