(** What the response helpers do. *)
From Verif Require Import Base GoStr Strconv Pattern Tree TreeSpec Header Router Ctx CtxFacts TraceSpec Engine EngineSpec
  ServeFacts ServeProps ServeTop ServeDispatch Content.
Local Open Scope Z_scope.

Section Facts.
Context {A V : Type}.
Variable re_ok : gostr -> bool.
Variable re_find : gostr -> gostr -> option (list gostr).
Variable sniff : gostr -> gostr.
Variable parse_form : bool -> request -> gostr * bool -> gmap gostr (list gostr) * bool * gostr.
Variable code : handler A -> prog V.
Implicit Types x : ctxobj A V.
Implicit Types c : conn V.
Implicit Types next : ctxobj A V -> conn V -> ending * (ctxobj A V * conn V).

Local Notation do_op := (do_op sniff parse_form).
Local Notation call := (call sniff parse_form).
Local Notation pexec := (pexec sniff parse_form).
Local Notation crun := (crun sniff parse_form code).
Local Notation ServeHTTP := (ServeHTTP re_find sniff parse_form code).
Local Notation ran := (ran sniff parse_form code).

(** ** Serving, with the run of the chain *)
Lemma serve_ran ops r0 opts e id x r body en px c' : engine_of re_ok ops r0 opts e ->
  ServeHTTP e id x (arrive r body) = (en, px, c') -> starts (cn_log c') <> [] ->
  exists hs ps n, dispatched re_ok re_find e r hs /\ ran id hs ps n r body en c'.
Proof.
  intros He H Hs. destruct (serve_handled re_ok re_find sniff parse_form code _ _ _ _ _ _ _ _ _ _ _ He H)
    as [n Hn -> -> | Hn Hnf Hno -> -> | ps Hn Hnf Hno Hr | v w n ps Hn Hv Hw Hsp Hf Hl Hfit Hh Hr].
  - done.
  - done.
  - exists (o_nofound (en_options e)), ps, None. split; [by apply dis_nofound|done].
  - exists (rt_handlers v), ps, (Some (n, Some w)). split; [|done]. apply dis_route; [done| |done].
    destruct Hfit as [[? _]|(u & _ & (_ & ? & _) & (? & _))]; congruence.
Qed.

(** ** One operation *)
Lemma pexec_seqp next o os k x c : pexec next (seqp (o :: os) k) x c =
  match call o x c with
  | (Norm _, (x, c)) => pexec next (seqp os k) x c
  | (Throw v, s) => (EThrow v, s)
  end.
Proof. cbn [seqp fold_right]. cbn [Ctx.pexec]. destruct (call o x c) as [[a|v] [x1 c1]]; done. Qed.
Lemma seqp_app (os os' : list (op V)) k : seqp (os ++ os') k = seqp os (seqp os' k).
Proof. unfold seqp. by rewrite fold_right_app. Qed.

(** ctx.WriteHeader when nothing has been written *)
Lemma call_WriteHeader n x c : x_written x = false -> rw_sent (cn_rw c) = None -> valid_code n = true ->
  call (OWriteHeader n) x c =
  (Norm tt, (set_written x n,
     mkConn (cn_req c) (mkRw (rw_hdr (cn_rw c)) (Some (n, rw_hdr (cn_rw c))) (rw_body (cn_rw c)))
       (cn_body c) (cn_form c) (cn_log c ++ [EvSend n; EvCall (OWriteHeader n) (Norm tt)]))).
Proof.
  intros Hw Hs Hn. unfold Ctx.call. cbn [Ctx.do_op]. unfold ctx_WriteHeader. rewrite Hw.
  rewrite raw_WriteHeader_spec, Hs, Hn. unfold log, set_rw. cbn. by rewrite <- app_assoc.
Qed.
Lemma call_WriteHeader_written n x c : x_written x = true ->
  call (OWriteHeader n) x c = (Norm tt, (x, log c (EvCall (OWriteHeader n) (Norm tt)))).
Proof. intros Hw. unfold Ctx.call. cbn [Ctx.do_op]. unfold ctx_WriteHeader. by rewrite Hw. Qed.
(** ctx.Write after the header *)
Lemma call_Write_written d x c : x_written x = true ->
  call (OWrite d) x c = (Norm tt, (x, log (raw_Write d c) (EvCall (OWrite d) (Norm tt)))).
Proof. intros Hw. unfold Ctx.call. cbn [Ctx.do_op]. unfold ctx_Write. rewrite Hw. done. Qed.
Lemma call_HeaderSet k v x c : call (OHeaderSet k v) x c =
  (Norm tt, (x, log (set_hdr c (h_set (rw_hdr (cn_rw c)) k v)) (EvCall (OHeaderSet k v) (Norm tt)))).
Proof. done. Qed.

(** what stays *)
Definition kept x x' : Prop :=
  x_handlers x' = x_handlers x /\ x_hlen x' = x_hlen x /\ x_index x' = x_index x.
Lemma kept_trans x y z : kept x y -> kept y z -> kept x z.
Proof. unfold kept. intros (?&?&?) (?&?&?). split_and!; congruence. Qed.

(** writing pieces of a body after the header *)
Lemma exec_writes next ds k : forall x c n h, x_written x = true -> rw_sent (cn_rw c) = Some (n, h) ->
  exists c', pexec next (seqp (map OWrite ds) k) x c = pexec next k x c' /\
    rw_sent (cn_rw c') = Some (n, h) /\ rw_hdr (cn_rw c') = rw_hdr (cn_rw c) /\
    rw_body (cn_rw c') = rw_body (cn_rw c) ++ if body_allowed n then concat ds else [].
Proof.
  induction ds as [|d ds IH]; intros x c n h Hw Hs.
  - exists c. cbn [map seqp fold_right]. split_and!; [done|done|done|]. destruct (body_allowed n); by rewrite app_nil_r.
  - cbn [map]. rewrite pexec_seqp, call_Write_written by done. cbn iota.
    set (c1 := log (raw_Write d c) (EvCall (OWrite d) (Norm tt))).
    assert (Hrw : cn_rw c1 = mkRw (rw_hdr (cn_rw c)) (Some (n, h)) (rw_body (cn_rw c) ++ if body_allowed n then d else [])).
    { unfold c1. cbn [log cn_rw]. by apply raw_Write_rw. }
    destruct (IH x c1 n h Hw) as (c' & H1 & H2 & H3 & H4); [by rewrite Hrw|].
    exists c'. split_and!; [done|done|by rewrite H3, Hrw|].
    rewrite H4, Hrw. cbn [rw_body concat]. destruct (body_allowed n); by rewrite <- app_assoc.
Qed.

(** the common shape of String, Data, HTMLRaw, JSON, XML and HTMLSet *)
Definition answer (n : Z) (t : gostr) (ds : list gostr) : list (op V) :=
  OWriteHeader n :: OHeaderSet HeaderContentType t :: map OWrite ds.
Lemma exec_answer next n t ds k x c :
  x_written x = false -> rw_sent (cn_rw c) = None -> valid_code n = true ->
  exists x' c', pexec next (seqp (answer n t ds) k) x c = pexec next k x' c' /\
    x_written x' = true /\ x_status x' = n /\ kept x x' /\
    rw_sent (cn_rw c') = Some (n, rw_hdr (cn_rw c)) /\
    rw_body (cn_rw c') = rw_body (cn_rw c) ++ if body_allowed n then concat ds else [].
Proof.
  intros Hw Hs Hn. unfold answer. rewrite pexec_seqp, call_WriteHeader by done. cbn iota.
  rewrite pexec_seqp, call_HeaderSet. cbn iota.
  match goal with |- context [pexec next _ ?x1 ?c1] => set (y := x1); set (c1' := c1) end.
  destruct (exec_writes next ds k y c1' n (rw_hdr (cn_rw c))) as (c' & H1 & H2 & H3 & H4); [done|done|].
  exists y, c'. split_and!; done.
Qed.


(** ** A chain of one handler *)
Lemma run_one h id ps n r body en c' : ran id [h] ps n r body en c' ->
  exists next, (forall x c, (1 <= x_index x)%nat -> x_hlen x = 1%nat -> x_handlers x = [h] -> next x c = (EDone, (bump x, log c EvNext))) /\
  match pexec next (code h) (fresh id [h] ps n) (log (arrive r body) (EvStart 0)) with
  | (EDone, (x1, c1)) => en = EDone /\ cn_rw c' = cn_rw c1
  | (en1, (x1, c1)) => en = en1 /\ c' = c1
  end.
Proof.
  intros [x' H]. cbn [length] in H. cbn [Ctx.crun] in H.
  change (x_index (fresh id [h] ps n) <? x_hlen (fresh id [h] ps n))%nat with true in H. cbn iota in H.
  change (x_handlers (fresh id [h] ps n) !! x_index (fresh id [h] ps n)) with (Some h) in H. cbn iota in H.
  match type of H with context [pexec ?nx _ _ _] => exists nx; set (next := nx) in * end.
  split.
  { intros y cy Hi Hl Hh. unfold next. cbn. rewrite Hl. replace (S (x_index y) <? 1)%nat with false; [done|].
    symmetry. apply Nat.ltb_ge. lia. }
  change (x_index (fresh id [h] ps n)) with 0%nat in H.
  destruct (pexec next (code h) _ _) as [[|v|] [x1 c1]] eqn:Hp.
  - destruct (x_written (set_index x1 (S (x_index x1)))); [by inversion H; subst|].
    destruct (_ <? _)%nat eqn:Hlt; [|by inversion H; subst].
    exfalso. apply Nat.ltb_lt in Hlt.
    apply (pexec_total sniff parse_form (fun y => x_hlen y = 1%nat /\ (0 <= x_index y)%nat)) in Hp as [(H1 & H2) _];
      [simpl in Hlt; lia| | |split; [done|simpl; lia]].
    + intros o y cy r2 y' cy' (H1 & H2) Hc. apply call_run in Hc as []. split; [congruence|lia].
    + intros y cy r2 y' cy' (H1 & H2) Hc. unfold next in Hc. simpl in Hc.
      destruct (_ <? _)%nat eqn:Hl in Hc; inversion Hc; subst; simpl; [|split; [split; [done|lia]|done]].
      exfalso. apply Nat.ltb_lt in Hl. lia.
  - by inversion H; subst.
  - by inversion H; subst.
Qed.

(** the helpers that end with a response: the program of a handler that calls
    one and returns, its status, the type it is documented to have, the body *)
Inductive helps : prog V -> Z -> gostr -> gostr -> Prop :=
  | helps_String n s : helps (String_ n s PRet) n (L "text/plain; charset=utf-8") s
  | helps_Data n t s : helps (Data n t s PRet) n t s
  | helps_HTMLRaw n s : helps (HTMLRaw n s PRet) n (L "text/html; charset=utf-8") s
  | helps_JSON n out ok : helps (JSON n out ok (fun _ => PRet)) n (L "application/json; charset=utf-8") (concat out)
  | helps_XML n out ok : helps (XML n out ok (fun _ => PRet)) n (L "application/xml; charset=utf-8") (concat out)
  | helps_HTMLSet n : helps (HTMLSet n PRet) n (L "text/html; charset=utf-8") [].
Lemma helps_answer p n t s : helps p n t s -> exists ds, p = seqp (answer n t ds) PRet /\ concat ds = s.
Proof.
  intros []; unfold answer.
  - exists [s0]. split; [done|apply app_nil_r].
  - exists [s0]. split; [done|apply app_nil_r].
  - exists [s0]. split; [done|apply app_nil_r].
  - exists out. done.
  - exists out. done.
  - exists []. done.
Qed.

Lemma helper_response h n t s id ps nd r body en c' :
  helps (code h) n t s -> valid_code n = true -> ran id [h] ps nd r body en c' ->
  en = EDone /\ cn_rw c' = mkRw (rw_hdr (cn_rw c')) (Some (n, ∅)) (if body_allowed n then s else []).
Proof.
  intros Hh Hn Hr. apply helps_answer in Hh as (ds & Hp & Hc). apply run_one in Hr as (next & _ & Hr).
  rewrite Hp in Hr.
  destruct (exec_answer next n t ds PRet (fresh id [h] ps nd) (log (arrive r body) (EvStart 0)))
    as (x1 & c1 & E & _ & _ & _ & Hs & Hb); [done|done|done|].
  rewrite E in Hr. cbn in Hr. destruct Hr as [-> Hr]. split; [done|]. rewrite Hr.
  destruct (cn_rw c1) as [a b d]. cbn in *. subst. done.
Qed.

(** what the client gets *)
Lemma finish_bare hd n s : finish sniff (mkRw hd (Some (n, ∅)) s) =
  (n, if negb (length s =? 0)%nat then {[ L "Content-Type" := [sniff s] ]} else ∅, s).
Proof.
  unfold finish. cbn [rw_sent rw_body]. f_equal. f_equal.
  rewrite (bool_decide_eq_true_2 (∅ !! _ = None)) by apply lookup_empty.
  assert (forall k, h_get ∅ k = []) as Hg by (intros k; unfold h_get, h_values; by rewrite lookup_empty).
  rewrite !Hg. cbn [seqb]. rewrite seqb_refl, !andb_true_r.
  destruct (negb _); [|done]. unfold h_set. change (canon (L "Content-Type")) with (L "Content-Type").
  by rewrite insert_empty.
Qed.

Lemma helper_delivers ops r0 opts e id x r body en px c' n t s :
  engine_of re_ok ops r0 opts e ->
  ServeHTTP e id x (arrive r body) = (en, px, c') -> starts (cn_log c') <> [] ->
  (forall hs, dispatched re_ok re_find e r hs -> exists h, hs = [h] /\ helps (code h) n t s) ->
  valid_code n = true ->
  en = EDone /\
  finish sniff (cn_rw c') =
    if body_allowed n
    then (n, if decide (s = []) then ∅ else {[ L "Content-Type" := [sniff s] ]}, s)
    else (n, ∅, []).
Proof.
  intros He H Hs Hd Hn. destruct (serve_ran _ _ _ _ _ _ _ _ _ _ _ He H Hs) as (hs & ps & nd & Hdis & Hr).
  destruct (Hd _ Hdis) as (h & -> & Hh). destruct (helper_response _ _ _ _ _ _ _ _ _ _ _ Hh Hn Hr) as [-> Hrw].
  split; [done|]. rewrite Hrw, finish_bare. destruct (body_allowed n); [|done].
  destruct s; [by rewrite decide_True|by rewrite decide_False].
Qed.

(** ** Stream *)
Lemma call_Write_first d x c : x_written x = false -> rw_sent (cn_rw c) = None ->
  h_get (rw_hdr (cn_rw c)) (L "Content-Type") <> [] ->
  exists x' c', call (OWrite d) x c = (Norm tt, (x', c')) /\ x_written x' = true /\ kept x x' /\
    cn_rw c' = mkRw (rw_hdr (cn_rw c)) (Some (200, rw_hdr (cn_rw c))) (rw_body (cn_rw c) ++ d).
Proof.
  intros Hw Hs Ht. unfold Ctx.call. cbn [Ctx.do_op]. unfold ctx_Write. rewrite Hw. cbn [negb].
  destruct (seqb (h_get (rw_hdr (cn_rw c)) (L "Content-Type")) []) eqn:E; [by apply seqb_true in E|].
  rewrite andb_false_r. unfold ctx_WriteHeader. rewrite Hw, raw_WriteHeader_spec, Hs. cbn [valid_code].
  eexists _, _. split; [reflexivity|]. split; [done|]. split; [done|].
  cbn [log cn_rw]. erewrite raw_Write_rw; [|reflexivity]. done.
Qed.

Lemma stream_response h t out ok id ps nd r body en c' :
  code h = Stream t out ok (fun _ => PRet) -> t <> [] -> concat out <> [] -> ran id [h] ps nd r body en c' ->
  en = EDone /\ cn_rw c' = mkRw {[ L "Content-Type" := [t] ]} (Some (200, {[ L "Content-Type" := [t] ]})) (concat out).
Proof.
  intros Hh Ht Hout Hr. apply run_one in Hr as (next & _ & Hr). rewrite Hh in Hr. unfold Stream in Hr.
  set (ds := List.filter (fun d => negb (length d =? 0)%nat) out) in Hr.
  assert (Hc : concat ds = concat out).
  { unfold ds. clear. induction out as [|d out IH]; [done|]. cbn [List.filter concat]. destruct d as [|a d]; [done|].
    cbn [length Nat.eqb negb concat]. by rewrite IH. }
  destruct ds as [|d ds]; [by rewrite <- Hc in Hout|].
  rewrite pexec_seqp, call_HeaderSet in Hr. cbn iota in Hr. cbn [map] in Hr. rewrite pexec_seqp in Hr.
  match type of Hr with context [call (OWrite d) ?x1 ?c1] =>
    destruct (call_Write_first d x1 c1) as (x2 & c2 & E & Hw2 & _ & Hrw); [done|done| |rewrite E in Hr] end.
  { cbn [log set_hdr set_rw cn_rw rw_hdr]. by rewrite h_get_set. }
  cbn iota in Hr.
  cbn [log set_hdr set_rw cn_rw rw_hdr rw_sent rw_body arrive rw_new app] in Hrw.
  destruct (exec_writes next ds PRet x2 c2 200 (h_set ∅ HeaderContentType t)) as (c3 & E3 & H3 & H4 & H5);
    [done|by rewrite Hrw|].
  rewrite E3 in Hr. cbn [Ctx.pexec] in Hr. destruct Hr as [-> Hr]. split; [done|]. rewrite Hr.
  rewrite Hrw in H4, H5. cbn [rw_hdr rw_body body_allowed] in H4, H5.
  assert (h_set ∅ HeaderContentType t = {[ L "Content-Type" := [t] ]}) as Hset by (unfold h_set; apply insert_empty).
  destruct (cn_rw c3) as [a b f]. cbn [rw_sent rw_hdr rw_body] in *. subst a b f. rewrite <- Hset.
  f_equal. rewrite <- Hc. done.
Qed.
Lemma stream_delivers ops r0 opts e id x r body en px c' t out ok :
  engine_of re_ok ops r0 opts e ->
  ServeHTTP e id x (arrive r body) = (en, px, c') -> starts (cn_log c') <> [] ->
  (forall hs, dispatched re_ok re_find e r hs -> exists h, hs = [h] /\ code h = Stream t out ok (fun _ => PRet)) ->
  t <> [] -> concat out <> [] ->
  en = EDone /\ finish sniff (cn_rw c') = (200, {[ L "Content-Type" := [t] ]}, concat out).
Proof.
  intros He H Hs Hd Ht Hout. destruct (serve_ran _ _ _ _ _ _ _ _ _ _ _ He H Hs) as (hs & ps & nd & Hdis & Hr).
  destruct (Hd _ Hdis) as (h & -> & Hh). destruct (stream_response _ _ _ _ _ _ _ _ _ _ _ Hh Ht Hout Hr) as [-> Hrw].
  split; [done|]. rewrite Hrw. unfold finish. cbn [rw_sent rw_body].
  rewrite (bool_decide_eq_false_2 ({[ _ := _ ]} !! _ = None)) by (by rewrite lookup_singleton).
  by rewrite andb_false_r.
Qed.

End Facts.
