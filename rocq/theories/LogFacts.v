(** The lines written to the log of the application. *)
From Verif Require Import Base GoStr Strconv Pattern Tree TreeSpec Header Router RouterSpec Ctx CtxFacts TraceSpec Engine EngineSpec
  ServeFacts ServeProps ServeTop ServeDispatch ServeThms Util Content ContentFacts Middleware MiddlewareSpec RecoveryFacts LoggerFacts
  RouterFacts HandlerFacts RouterProps ServeMore ServePairs RouterDump DefaultFacts.
Local Open Scope Z_scope.

Section Facts.
Context {A V : Type}.
Variable sniff : gostr -> gostr.
Variable parse_form : bool -> request -> gostr * bool -> gmap gostr (list gostr) * bool * gostr.
Variable code : handler A -> prog V.
Implicit Types c : conn V.

Local Notation crun := (crun sniff parse_form code).
Local Notation ran := (ran sniff parse_form code).

Lemma logged_shift pre (l : list (event V)) : logged (map (shift_event (A:=A) pre) l) = logged l.
Proof. induction l as [|ev l IH]; [done|]. destruct ev as [| | |o a| |]; try exact IH.
  destruct o; try exact IH. cbn. f_equal. exact IH.
Qed.
Lemma first_code_shift pre (l : list (event V)) : first_code (map (shift_event (A:=A) pre) l) = first_code l.
Proof.
  unfold first_code. f_equal. induction l as [|ev l IH]; [done|]. destruct ev as [| | |o a| |]; try exact IH.
  destruct o; try exact IH; cbn; f_equal; exact IH.
Qed.
Lemma first_code_own (l : list (event V)) : Forall log_own l -> first_code l = None.
Proof.
  intros H. unfold first_code. assert (omap asks l = []) as ->; [|done].
  induction H as [|ev l Hev _ IH]; [done|]. destruct ev as [| | |o a| |]; cbn; try (exact IH).
  destruct o; try (by destruct Hev); exact IH.
Qed.

Lemma logger_any g lf limit close lb hs id ps n r body en' c' :
  code g = Logger lf limit close lb -> ran id (g :: hs) ps n r body en' c' ->
  exists c, ran id hs ps n r (body_seen close lb limit r body) en' c /\ cn_rw c' = cn_rw c /\
    first_code (cn_log c') = first_code (cn_log c) /\
    logged (cn_log c') = logged (cn_log c) ++ log_lines lf close lb r (take limit (bd_data body)) en' (cn_log c).
Proof.
  intros Hg Hr. destruct (ran_exists sniff parse_form code id hs ps n r (body_seen close lb limit r body)) as (en & c & Hc).
  destruct (logger_run sniff parse_form code g lf limit close lb hs id ps n r body en c en' c' Hg Hc Hr)
    as (-> & H2 & _ & _ & w1 & w2 & Hl & Ho1 & Ho2 & _ & L1 & L2).
  exists c. split; [done|]. split; [done|].
  rewrite Hl, !first_code_app, !logged_app, first_code_shift, logged_shift, (first_code_own _ Ho1), (first_code_own _ Ho2), L1, L2.
  split; [by destruct (first_code (cn_log c))|done].
Qed.

Lemma recovery_run g stable crash hs id ps n r body en c en' c' :
  code g = Recovery stable crash -> ran id hs ps n r body en c -> ran id (g :: hs) ps n r body en' c' ->
  en' = EDone /\ exists w, cn_log c' = EvStart 0 :: EvNext :: map (shift_event [g]) (cn_log c) ++ w /\ starts w = [] /\
    first_code (cn_log c') = Some (match first_code (cn_log c) with Some m => m | None => rescue en end) /\
    reports (fun v => if stable then [] else crash v) (fun v => L "panic : " ++ crash v) en w.
Proof.
  intros Hg [x Hrun] [x' Hrun'].
  cbn [length Ctx.crun] in Hrun'.
  change (x_index (fresh id (g :: hs) ps n) <? x_hlen (fresh id (g :: hs) ps n))%nat with true in Hrun'. cbn iota in Hrun'.
  change (x_handlers (fresh id (g :: hs) ps n) !! x_index (fresh id (g :: hs) ps n)) with (Some g) in Hrun'. cbn iota in Hrun'.
  change (x_index (fresh id (g :: hs) ps n)) with 0%nat in Hrun'. rewrite Hg in Hrun'.
  match type of Hrun' with context [Ctx.pexec _ _ ?nx _ _ _] => set (next := nx) in * end.
  destruct (crun_up sniff parse_form code [g] (length hs) (fresh id hs ps n) (arrive r body) [EvStart 0; EvNext])
    as (r1 & x1 & c1 & w & H1 & H2 & H3). rewrite Hrun in H1. injection H1 as <- <- <-. cbn [arrive cn_log app] in H3. subst w.
  assert (Hn : next (fresh id (g :: hs) ps n) (log (arrive r body) (EvStart 0)) =
    (en, (up [g] x, relog c ([EvStart 0; EvNext] ++ map (shift_event [g]) (cn_log c))))) by exact H2.
  assert (Hfl : flags x c).
  { eapply (crun_inv _ _ _ _ _ _ (flags_invariant sniff parse_form)) in Hrun; [done| | | |apply flags_fresh]; [intros h _; apply only_any|done|simpl; lia]. }
  pose proof Hrun as Hstuck. apply crun_total in Hstuck as (T1 & _ & _ & _); [|done|simpl; lia].
  destruct (recovery_exec sniff parse_form stable crash next _ _ _ _ _ Hn T1) as (x2 & c2 & l3 & E & W & _ & _ & Hl & Hs & Hc & Hd).
  { destruct Hfl as [F1 F2]. unfold flags. cbn [relog cn_log up x_written x_status]. rewrite first_code_app, first_code_shift.
    change (first_code [EvStart 0; EvNext]) with (@None Z). cbn iota. rewrite F1, F2. done. }
  rewrite E in Hrun'. cbn iota in Hrun'. cbn [set_index x_written] in Hrun'. rewrite W in Hrun'. injection Hrun' as <- <- <-.
  split; [done|]. exists (l3 ++ [EvEnd 0]). cbn [log relog cn_log] in Hl |- *. rewrite Hl. cbn [relog cn_log] in Hc.
  split; [cbn [app]; by rewrite <- !app_assoc|].
  split; [by rewrite starts_app, Hs|]. split.
  - rewrite first_code_app, <- Hl, Hc, first_code_app, first_code_shift.
    change (first_code [EvStart 0; EvNext]) with (@None Z). done.
  - destruct Hd as [D1 D2]. split; [by rewrite data_of_app, D1, app_nil_r|by rewrite logged_app, D2, app_nil_r].
Qed.
End Facts.

Section Engine.
Context {A V : Type}.
Variable re_ok : gostr -> bool.
Variable re_find : gostr -> gostr -> option (list gostr).
Variable sniff : gostr -> gostr.
Variable parse_form : bool -> request -> gostr * bool -> gmap gostr (list gostr) * bool * gostr.
Variable code : handler A -> prog V.

(** behind a chain that starts with Logger *)
Lemma logger_logs ops r0 opts e id x r body en px c' lf limit lb :
  engine_of re_ok ops r0 opts e ->
  ServeHTTP re_find sniff parse_form code e id x (arrive r body) = (en, px, c') -> starts (cn_log c') <> [] ->
  (forall hs, dispatched re_ok re_find e r hs -> exists g hs', hs = g :: hs' /\ code g = Logger lf limit false lb) ->
  exists g hs ps n c, dispatched re_ok re_find e r (g :: hs) /\ code g = Logger lf limit false lb /\
    ran sniff parse_form code id hs ps n r (body_seen false lb limit r body) en c /\
    logged (cn_log c') = logged (cn_log c) ++
      match en with
      | EDone => [log_line lf (match first_code (cn_log c') with Some m => m | None => 0 end) r
                    (if decide (logs_body false lb r) then ascii_of_nat 10 :: take limit (bd_data body) else [])]
      | _ => []
      end.
Proof.
  intros He Hs Hne Hd.
  destruct (serve_ran re_ok re_find sniff parse_form code _ _ _ _ _ _ _ _ _ _ _ He Hs Hne) as (hs0 & ps & n & Hdis & Hran).
  destruct (Hd _ Hdis) as (g & hs & -> & Hg).
  destruct (logger_any sniff parse_form code _ _ _ _ _ _ _ _ _ _ _ _ _ Hg Hran) as (c & H1 & _ & H3 & H4).
  exists g, hs, ps, n, c. split_and!; try done. by rewrite H4, H3.
Qed.

Lemma default_logs lg rc ops opts e id x r body en px c' lf limit lb stable crash :
  engine_of re_ok ([RNew; RUse 0 [IHandler lg]; RUse 0 [IHandler rc]] ++ ops) 0 opts e ->
  code (HHandler lg) = Logger lf limit false lb -> code (HHandler rc) = Recovery stable crash ->
  befores (history ops) 0 = [] -> (forall us, WithNoFoundHandlers us ∉ opts) ->
  ServeHTTP re_find sniff parse_form code e id x (arrive r body) = (en, px, c') -> starts (cn_log c') <> [] ->
  en = EDone /\ exists hs ps n en2 c m,
    dispatched re_ok re_find e r (HHandler lg :: HHandler rc :: hs) /\
    ran sniff parse_form code id hs ps n r (body_seen false lb limit r body) en2 c /\
    first_code (cn_log c') = Some m /\ m = match first_code (cn_log c) with Some k => k | None => rescue en2 end /\
    logged (cn_log c') = logged (cn_log c) ++ match en2 with EThrow (Some v) => [L "panic : " ++ crash v] | _ => [] end ++
      [log_line lf m r (if decide (logs_body false lb r) then ascii_of_nat 10 :: take limit (bd_data body) else [])].
Proof.
  intros He Hlg Hrc Hb Ho Hs Hne.
  assert (o_nofound (en_options e) = []) as Hnf.
  { pose proof (engine_built _ _ _ _ _ He) as [_ Hbu]. exact (nofound_absent _ _ _ (bu_opts _ _ _ _ _ Hbu) Ho). }
  destruct (serve_ran re_ok re_find sniff parse_form code _ _ _ _ _ _ _ _ _ _ _ He Hs Hne) as (hs0 & ps & n & Hdis & Hran).
  assert (exists hs, hs0 = HHandler lg :: HHandler rc :: hs) as [hs ->].
  { destruct Hdis as [v Hv Hm Hf|Hn Hx]; [|by destruct Hx].
    destruct (default_chain re_ok lg rc ops opts e v He Hv) as (bs & rest & -> & Hbs). rewrite Hb in Hbs.
    inversion Hbs; subst. by eexists. }
  destruct (logger_any sniff parse_form code _ _ _ _ _ _ _ _ _ _ _ _ _ Hlg Hran) as (c1 & H1 & _ & H3 & H4).
  destruct (ran_exists sniff parse_form code id hs ps n r (body_seen false lb limit r body)) as (en2 & c & H2).
  destruct (recovery_run sniff parse_form code _ _ _ _ _ _ _ _ _ _ _ _ _ Hrc H2 H1) as (-> & w & Hl & Hw & Hf & _ & Hd).
  split; [done|]. exists hs, ps, n, en2, c, (match first_code (cn_log c) with Some k => k | None => rescue en2 end).
  split_and!; try done; [by rewrite H3, Hf|].
  rewrite H4. unfold log_lines. rewrite Hf, Hl. cbn iota.
  change (logged (EvStart 0 :: EvNext :: map (shift_event [HHandler rc]) (cn_log c) ++ w)) with (logged (map (shift_event [HHandler rc]) (cn_log c) ++ w)).
  by rewrite logged_app, logged_shift, Hd, <- app_assoc.
Qed.

(** the status in the line is the status that the client gets *)
Lemma default_status lg rc ops opts e id x r body en px c' lf limit lb stable crash :
  engine_of re_ok ([RNew; RUse 0 [IHandler lg]; RUse 0 [IHandler rc]] ++ ops) 0 opts e ->
  code (HHandler lg) = Logger lf limit false lb -> code (HHandler rc) = Recovery stable crash ->
  befores (history ops) 0 = [] -> (forall us, WithNoFoundHandlers us ∉ opts) ->
  ServeHTTP re_find sniff parse_form code e id x (arrive r body) = (en, px, c') -> starts (cn_log c') <> [] ->
  uses_ctx code e -> (forall l1 m o l2, cn_log c' = l1 ++ EvCall (OWriteHeader m) o :: l2 -> 100 <= m <= 999) ->
  exists ls m hd out text, logged (cn_log c') = ls ++ [log_line lf m r text] /\ finish sniff (cn_rw c') = (m, hd, out).
Proof.
  intros He Hlg Hrc Hb Ho Hs Hne Hu Hv.
  destruct (default_logs _ _ _ _ _ _ _ _ _ _ _ _ _ _ _ _ _ He Hlg Hrc Hb Ho Hs Hne) as (_ & hs & ps & n & en2 & c & m & _ & _ & Hm & _ & Hl).
  destruct (first_status re_ok re_find sniff parse_form code _ _ _ _ _ _ _ _ _ _ _ He Hs Hne Hu) as [_ Hsent].
  assert (100 <= m <= 999) as Hvm.
  { unfold first_code in Hm. assert (forall l : list (event V), head (omap asks l) = Some m -> (exists l1 l2 ev, l = l1 ++ ev :: l2 /\ asks ev = Some m)) as Hx.
    { induction l as [|ev l IH]; [done|]. cbn. destruct (asks ev) eqn:Ha; cbn.
      - intros [= ->]. by exists [], l, ev.
      - intros H. destruct (IH H) as (l1 & l2 & ev' & -> & H'). by exists (ev :: l1), l2, ev'. }
    destruct (Hx _ Hm) as (l1 & l2 & ev & El & Ha). destruct ev as [| | |o a| |]; try done. destruct o; try done; cbn in Ha; injection Ha as <-.
    - by eapply Hv.
    - done. }
  destruct (Hsent _ Hm Hvm) as [h Hw].
  rewrite app_assoc in Hl. eexists _, m, _, _, _. split; [exact Hl|]. unfold finish. rewrite Hw. reflexivity.
Qed.
End Engine.

(** ** The text of a line *)
(** the background of the status: green for 2xx, white for 3xx, yellow for 4xx, red
    for all others *)
Definition bytes (l : list nat) : gostr := map ascii_of_nat l.
Definition painted (n : Z) (c : gostr) : Prop :=
  (200 <= n <= 299 -> c = bytes [27; 91; 57; 55; 59; 52; 50; 109]%nat) /\
  (300 <= n <= 399 -> c = bytes [27; 91; 57; 48; 59; 52; 55; 109]%nat) /\
  (400 <= n <= 499 -> c = bytes [27; 91; 57; 55; 59; 52; 51; 109]%nat) /\
  (n < 200 \/ 500 <= n -> c = bytes [27; 91; 57; 55; 59; 52; 49; 109]%nat).
Lemma color_painted n : painted n (colorForStatus n).
Proof.
  unfold painted, colorForStatus.
  destruct (Z.leb_spec 200 n), (Z.ltb_spec n 300), (Z.leb_spec 300 n), (Z.ltb_spec n 400), (Z.leb_spec 400 n), (Z.ltb_spec n 500); cbn [andb];
    split_and!; intros; (done || lia).
Qed.
(** the fields of a line: blanks may precede each *)
Definition blanks (s : gostr) : Prop := Forall (fun a => a = " "%char) s.
Lemma pad_blanks w s : exists b, pad w s = b ++ s /\ blanks b.
Proof. exists (repeat " "%char (w - length s)). split; [done|]. unfold blanks. induction (w - length s)%nat; by constructor. Qed.
Lemma line_fields lf n r text : exists b1 b2 b3 b4 c,
  log_line lf n r text =
    L "[ water : " ++ h_get (rq_header r) (L "Trace-ID") ++ L " ] " ++ lf_start lf ++
    L " |" ++ (if lf_color lf then c else []) ++ L " " ++ b1 ++ itoa n ++ L " " ++ (if lf_color lf then bytes [27; 91; 48; 109]%nat else []) ++
    L "| " ++ b2 ++ lf_used lf ++ L " | " ++ b3 ++ requestRealIp (rq_header r) (rq_remote r) ++
    L " | " ++ b4 ++ rq_method r ++ L " " ++ lf_url lf r ++ text /\
  blanks b1 /\ blanks b2 /\ blanks b3 /\ blanks b4 /\ painted n c.
Proof.
  destruct (pad_blanks 3 (itoa n)) as (b1 & E1 & H1). destruct (pad_blanks 13 (lf_used lf)) as (b2 & E2 & H2).
  destruct (pad_blanks 16 (requestRealIp (rq_header r) (rq_remote r))) as (b3 & E3 & H3).
  destruct (pad_blanks 7 (rq_method r)) as (b4 & E4 & H4).
  exists b1, b2, b3, b4, (colorForStatus n). split; [|split_and!; try done; apply color_painted].
  unfold log_line, logStatus, logPrefix. rewrite E1, E2, E3, E4.
  destruct (lf_color lf); rewrite <- !app_assoc; reflexivity.
Qed.
