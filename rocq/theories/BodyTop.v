(** Bodies that fail, that are closed, and that Logger replaced. *)
From Verif Require Import Base GoStr Strconv Pattern Tree TreeSpec Header Router Ctx CtxFacts TraceSpec Engine EngineSpec
  ServeFacts ServeProps ServeTop ServeDispatch Content Middleware MiddlewareSpec LoggerFacts BodySpec RequestSpec RequestFacts BodyFacts.
Local Open Scope Z_scope.

Section Top.
Context {A V : Type}.
Variable re_ok : gostr -> bool.
Variable re_find : gostr -> gostr -> option (list gostr).
Variable sniff : gostr -> gostr.
Variable parse_form : bool -> request -> gostr * bool -> gmap gostr (list gostr) * bool * gostr.
Variable code : handler A -> prog V.

(** the rest of the chain behind Logger, and alone *)
Lemma logger_hidden ops r0 opts e id x r body en px c' lf limit close lb forms :
  engine_of re_ok ops r0 opts e ->
  ServeHTTP re_find sniff parse_form code e id x (arrive r body) = (en, px, c') -> starts (cn_log c') <> [] ->
  (forall hs, dispatched re_ok re_find e r hs -> exists g hs', hs = g :: hs' /\ code g = Logger lf limit close lb) ->
  (forms = true \/ exists f ok, forall i, parse_form (is_multipart r) r i = (f, ok, fst i)) ->
  exists g hs ps n en0 c, dispatched re_ok re_find e r (g :: hs) /\ code g = Logger lf limit close lb /\
    ran sniff parse_form code id hs ps n r body en0 c /\
    ((logs_body close lb r -> (length (bd_data body) <= limit)%nat /\ ends_well (bd_feed body) = true /\ left_closed forms (cn_log c)) ->
     en = en0 /\ cn_rw c' = cn_rw c /\ cn_form c' = cn_form c /\
     exists w1 w2, cn_log c' = w1 ++ map (shift_event [g]) (cn_log c) ++ w2 /\ Forall log_own w1 /\ Forall log_own w2 /\
       starts w2 = [] /\ logged w1 = [] /\ logged w2 = log_lines lf close lb r (bd_data body) en (cn_log c)).
Proof.
  intros He Hs Hne Hd Hforms.
  destruct (logger_serves re_ok re_find sniff parse_form code _ _ _ _ _ _ _ _ _ _ _ _ _ _ _ He Hs Hne Hd)
    as (g & hs & ps & n & c1 & Hdis & Hg & Hran & H1 & H2 & H3 & w1 & w2 & H4).
  destruct (ran_exists sniff parse_form code id hs ps n r body) as (en0 & c & Hr).
  exists g, hs, ps, n, en0, c. split; [done|]. split; [done|]. split; [done|]. intros Hok.
  unfold body_seen in Hran. destruct (decide (logs_body close lb r)) as [Hlb|Hlb].
  - destruct (Hok Hlb) as (Hlen & Hend & Hleft).
    destruct (ran_memory sniff parse_form code r forms Hforms _ _ _ _ _ _ _ Hend Hr Hleft) as [b Hm].
    rewrite take_ge in Hran by done. rewrite take_ge in H4 by done.
    destruct Hran as [x1 Hran], Hm as [x2 Hm]. rewrite Hm in Hran. injection Hran as <- _ <-.
    cbn [set_body cn_rw cn_form cn_log] in *. split; [done|]. split; [done|]. split; [done|]. by exists w1, w2.
  - destruct Hran as [x1 Hran], Hr as [x2 Hr]. rewrite Hr in Hran. injection Hran as <- _ <-.
    split; [done|]. split; [done|]. split; [done|]. exists w1, w2.
    destruct H4 as (?&?&?&?&?& H4). split_and!; try done. rewrite H4. unfold log_lines. by rewrite !(decide_False _ _ Hlb).
Qed.

(** ** Reading never fails behind Logger *)
Lemma inputs_memory r body l : bd_feed body = FMem -> bd_feed (fst (inputs (V:=V) parse_form r body l)) = FMem.
Proof.
  intros Hb. unfold inputs. assert (bd_feed (fst (body, None : option (gmap gostr (list gostr)))) = FMem) as H by done.
  revert H. generalize (body, None : option (gmap gostr (list gostr))). induction l as [|ev l IH]; intros [[data how] form] H; [done|].
  cbn [fold_left]. apply IH. cbn [fst bd_feed] in H. subst how. destruct ev as [| | |o a| |]; try done. destruct o; try done; cbn.
  destruct form; [done|]. by destruct (parse_form _ _ _) as [[? ?] ?].
Qed.
Lemma ran_inputs id hs ps n r body en c : ran sniff parse_form code id hs ps n r body en c -> hist (in_rule parse_form r body) (cn_log c).
Proof.
  intros Hran. destruct (ran_inv _ _ _ _ _ _ _ _ _ _ _ Hran _ _ _ (in_invariant sniff parse_form r body)) as (x' & (H1 & H2) & H3).
  - intros h _. apply only_any.
  - split; [|apply hist_nil]. done.
  - done.
Qed.
Lemma no_reads_own (w : list (event V)) a : Forall log_own w -> EvCall OBodyReadAll a ∉ w.
Proof. intros H Hin. rewrite Forall_forall in H. by destruct (H _ Hin). Qed.
Lemma logger_no_errors ops r0 opts e id x r body en px c' lf limit close lb a :
  engine_of re_ok ops r0 opts e ->
  ServeHTTP re_find sniff parse_form code e id x (arrive r body) = (en, px, c') -> starts (cn_log c') <> [] ->
  (forall hs, dispatched re_ok re_find e r hs -> exists g hs', hs = g :: hs' /\ code g = Logger lf limit close lb) ->
  logs_body close lb r -> EvCall OBodyReadAll a ∈ cn_log c' -> exists d, a = Norm (d, true).
Proof.
  intros He Hs Hne Hd Hlb Hin.
  destruct (logger_serves re_ok re_find sniff parse_form code _ _ _ _ _ _ _ _ _ _ _ _ _ _ _ He Hs Hne Hd)
    as (g & hs & ps & n & c1 & _ & _ & Hran & _ & _ & _ & w1 & w2 & Hl & Hw1 & Hw2 & _).
  rewrite Hl in Hin. apply elem_of_app in Hin as [Hin|Hin]; [by destruct (no_reads_own _ _ Hw1 Hin)|].
  apply elem_of_app in Hin as [Hin|Hin]; [|by destruct (no_reads_own _ _ Hw2 Hin)].
  apply elem_of_list_fmap in Hin as (ev & Hev & Hin). destruct ev as [| | |o a'| |]; try discriminate Hev.
  cbn [shift_event] in Hev. rewrite <- Hev in Hin. clear Hev.
  apply elem_of_list_split in Hin as (l1 & l2 & Hlog). pose proof (ran_inputs _ _ _ _ _ _ _ _ Hran _ _ _ Hlog) as Hrule.
  unfold in_rule in Hrule. unfold body_seen in Hrule. rewrite decide_True in Hrule by done.
  pose proof (inputs_memory r (mkBody (take limit (bd_data body)) FMem) l1 eq_refl) as Hm.
  destruct (fst (inputs parse_form r _ l1)) as [data how]. cbn [bd_feed] in Hm. subst how. by exists data.
Qed.

(** ** Bodies that break *)
Lemma inputs_broken r body l : Forall (fun ev => ~ replaces ev) l -> ends_well (bd_feed body) = false ->
  ends_well (bd_feed (fst (inputs (V:=V) parse_form r body l))) = false.
Proof.
  intros Hl Hb. unfold inputs. assert (ends_well (bd_feed (fst (body, None : option (gmap gostr (list gostr))))) = false) as H by done.
  revert H. generalize (body, None : option (gmap gostr (list gostr))). induction Hl as [|ev l Hev _ IH]; intros [[data how] form] H; [done|].
  cbn [fold_left]. apply IH. destruct ev as [| | |o a| |]; try done. destruct o; try done; cbn; try (by destruct Hev).
  - by destruct how.
  - destruct form; [done|]. by destruct (parse_form _ _ _) as [[? ?] ?].
Qed.
Lemma serve_broken (e : engine A) id x r body en px c' l1 a l2 :
  ServeHTTP re_find sniff parse_form code e id x (arrive r body) = (en, px, c') -> ends_well (bd_feed body) = false ->
  cn_log c' = l1 ++ EvCall OBodyReadAll a :: l2 -> Forall (fun ev => ~ replaces ev) l1 -> exists d, a = Norm (d, false).
Proof.
  intros H Hb Hl Hr. pose proof (serve_inputs re_find sniff parse_form code _ _ _ _ _ _ _ _ H _ _ _ Hl) as Hrule.
  unfold in_rule in Hrule. pose proof (inputs_broken r body l1 Hr Hb) as Hm.
  destruct (fst (inputs parse_form r body l1)) as [data how]. cbn [bd_feed] in Hm. rewrite Hm in Hrule. by exists data.
Qed.

(** ** BodyBytes *)
Local Notation pexec := (pexec (A:=A) (V:=V) sniff parse_form).
Lemma bodybytes next k x c : exists c',
  pexec next (BodyBytes k) x c = pexec next (k (if ends_well (bd_feed (cn_body c)) then Some (bd_data (cn_body c)) else None)) x c' /\
  cn_req c' = cn_req c /\ cn_rw c' = cn_rw c /\ cn_form c' = cn_form c /\
  bd_data (cn_body c') = [] /\
  bd_feed (cn_body c') = match bd_feed (cn_body c) with FWire => FClosed | how => how end.
Proof.
  unfold BodyBytes. cbn [Ctx.pexec]. unfold Ctx.call at 1. cbn [Ctx.do_op]. destruct c as [req rw [data how] form lg].
  destruct how; cbn [bd_all cn_body bd_data bd_feed feed_ok ends_well Ctx.pexec]; eexists; (split; [reflexivity|]); done.
Qed.
Lemma bodybytes_twice next k x c : exists c',
  pexec next (BodyBytes (fun a => BodyBytes (k a))) x c =
    pexec next (k (if ends_well (bd_feed (cn_body c)) then Some (bd_data (cn_body c)) else None)
                  (match bd_feed (cn_body c) with FMem => Some [] | _ => None end)) x c' /\
  cn_req c' = cn_req c /\ cn_rw c' = cn_rw c /\ cn_form c' = cn_form c.
Proof.
  destruct (bodybytes next (fun a => BodyBytes (k a)) x c) as (c1 & -> & R1 & W1 & F1 & D1 & H1).
  match goal with |- context [BodyBytes (k ?a)] => destruct (bodybytes next (k a) x c1) as (c2 & -> & R2 & W2 & F2 & _) end.
  exists c2. split; [|split_and!; congruence]. rewrite D1, H1. by destruct (bd_feed (cn_body c)).
Qed.
End Top.
