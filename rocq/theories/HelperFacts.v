(** The handler goes on after a response helper. *)
From Verif Require Import Base GoStr Strconv Pattern Tree TreeSpec Header Router Ctx CtxFacts TraceSpec Engine EngineSpec
  ServeFacts ServeProps ServeTop ServeDispatch Content ContentFacts RecoveryFacts.
Local Open Scope Z_scope.

Section Facts.
Context {A V : Type}.
Variable re_ok : gostr -> bool.
Variable re_find : gostr -> gostr -> option (list gostr).
Variable sniff : gostr -> gostr.
Variable parse_form : bool -> request -> gostr * bool -> gmap gostr (list gostr) * bool * gostr.
Variable code : handler A -> prog V.
Local Notation call := (call (A:=A) sniff parse_form).
Local Notation pexec := (pexec (A:=A) sniff parse_form).
Local Notation crun := (crun sniff parse_form code).
Local Notation ran := (ran sniff parse_form code).

(** the program of a handler that calls one of the helpers and then does k; the
    status and the body it is for *)
Inductive answers_then : prog V -> Z -> gostr -> prog V -> Prop :=
  | then_Abort n k : answers_then (Abort n k) n [] k
  | then_NotModified k : answers_then (NotModified k) 304 [] k
  | then_BadRequest k : answers_then (BadRequest k) 400 [] k
  | then_Unauthorized k : answers_then (Unauthorized k) 401 [] k
  | then_Forbidden k : answers_then (Forbidden k) 403 [] k
  | then_NotFound k : answers_then (NotFound k) 404 [] k
  | then_InternalServerError k : answers_then (InternalServerError k) 500 [] k
  | then_String n s k : answers_then (String_ n s k) n s k
  | then_Data n t s k : answers_then (Data n t s k) n s k
  | then_HTMLRaw n s k : answers_then (HTMLRaw n s k) n s k
  | then_JSON n out ok k : answers_then (JSON n out ok k) n (concat out) (k ok)
  | then_XML n out ok k : answers_then (XML n out ok k) n (concat out) (k ok)
  | then_HTMLSet n k : answers_then (HTMLSet n k) n [] k.

Definition plain_op (o : op V) : Prop := (exists k v, o = OHeaderSet k v) \/ exists d, o = OWrite d.
Definition op_data (o : op V) : gostr := match o with OWrite d => d | _ => [] end.
Lemma then_seqp p n s k : answers_then p n s k ->
  exists os, p = seqp (OWriteHeader n :: os) k /\ Forall plain_op os /\ concat (map op_data os) = s.
Proof.
  intros []; try (exists []; split_and!; [reflexivity|constructor|reflexivity]);
    try (eexists [_; _]; split_and!; [reflexivity|constructor; [by left; eauto|constructor; [by right; eauto|constructor]]|cbn; by rewrite app_nil_r]).
  - exists (OHeaderSet HeaderContentType MIMEApplicationJSONCharsetUTF8 :: map OWrite out). split; [done|]. split.
    + constructor; [left; eauto|]. apply Forall_forall. intros o Ho. apply elem_of_list_fmap in Ho as (d & -> & _). right. eauto.
    + cbn [map concat op_data]. rewrite map_map. cbn. by rewrite map_id.
  - exists (OHeaderSet HeaderContentType MIMEApplicationXMLCharsetUTF8 :: map OWrite out). split; [done|]. split.
    + constructor; [left; eauto|]. apply Forall_forall. intros o Ho. apply elem_of_list_fmap in Ho as (d & -> & _). right. eauto.
    + cbn [map concat op_data]. rewrite map_map. cbn. by rewrite map_id.
  - exists [OHeaderSet HeaderContentType MIMETextHTMLCharsetUTF8]. split_and!; [reflexivity|constructor; [left; eauto|constructor]|reflexivity].
Qed.

(** the operations after the header, one after the other *)
Lemma exec_plain next os k : Forall plain_op os -> forall x c, x_written x = true ->
  exists c' w, pexec next (seqp os k) x c = pexec next k x c' /\ cn_log c' = cn_log c ++ w /\
    starts w = [] /\ data_of w = concat (map op_data os).
Proof.
  induction 1 as [|o os Ho Hos IH]; intros x c Hx.
  - exists c, []. cbn [seqp fold_right]. by rewrite app_nil_r.
  - rewrite pexec_seqp. destruct Ho as [(key & v & ->)|(d & ->)].
    + rewrite call_HeaderSet. cbn iota.
      destruct (IH x (log (set_hdr c (h_set (rw_hdr (cn_rw c)) key v)) (EvCall (OHeaderSet key v) (Norm tt))) Hx) as (c' & w & E & Hl & Hs & Hd).
      eexists c', _. split; [exact E|]. split; [rewrite Hl; cbn [log set_hdr set_rw cn_log]; by rewrite <- app_assoc|]. split; [exact Hs|exact Hd].
    + rewrite call_Write_written by done. cbn iota.
      destruct (IH x (log (raw_Write d c) (EvCall (OWrite d) (Norm tt))) Hx) as (c' & w & E & Hl & Hs & Hd).
      assert (cn_log (raw_Write d c) = cn_log c ++ [EvData d]) as Hw0.
      { unfold raw_Write. cbn zeta. destruct (rw_sent (cn_rw (log c (EvData d)))) as [[n h]|]; simpl; [|done].
        destruct (rw_sent _) as [[n' h']|]; [|done]. by destruct (body_allowed n'). }
      exists c', (EvData d :: EvCall (OWrite d) (Norm tt) :: w). split; [exact E|]. split; [rewrite Hl; cbn [log cn_log]; by rewrite Hw0, <- !app_assoc|].
      split; [exact Hs|]. change (d ++ data_of w = d ++ concat (map op_data os)). by rewrite Hd.
Qed.

Lemma helper_run g hs p n s k id ps nd r body en c' : code g = p -> answers_then p n s k -> 100 <= n <= 999 ->
  ran id (g :: hs) ps nd r body en c' ->
  exists w l, cn_log c' = EvStart 0 :: w ++ l ++ match en with EDone => [EvEnd 0] | _ => [] end /\
    starts w = [] /\ first_code w = Some n /\ data_of w = s /\ did code (g :: hs) k l en.
Proof.
  intros Hg Hp Hn [x' H]. apply then_seqp in Hp as (os & -> & Hos & Hd). cbn [length] in H. cbn [Ctx.crun] in H.
  change (x_index (fresh id (g :: hs) ps nd) <? x_hlen (fresh id (g :: hs) ps nd))%nat with true in H. cbn iota in H.
  change (x_handlers (fresh id (g :: hs) ps nd) !! x_index (fresh id (g :: hs) ps nd)) with (Some g) in H. cbn iota in H.
  match type of H with context [pexec ?nx _ _ _] => set (next := nx) in * end.
  rewrite Hg, pexec_seqp, call_WriteHeader in H by (done || by apply valid_code_iff). cbn iota in H.
  change (x_index (fresh id (g :: hs) ps nd)) with 0%nat in H.
  match type of H with context [pexec next _ ?x1 ?c1] => set (x1' := x1) in *; set (c1' := c1) in * end.
  destruct (exec_plain next os k Hos x1' c1' eq_refl) as (c2 & w & E & Hl & Hs & Hw). rewrite E in H.
  destruct (pexec next k x1' c2) as [r3 [x3 c3]] eqn:Ek.
  assert (Hlog : cn_log c2 = EvStart 0 :: [EvSend n; EvCall (OWriteHeader n) (Norm tt)] ++ w) by (rewrite Hl; done).
  pose proof Ek as Hdid. apply (pexec_did sniff parse_form code (g :: hs) (fun y => x_handlers y = g :: hs /\ fit y)) in Hdid as (_ & Hns & l & Hl3 & Hdid).
  - exists (EvSend n :: EvCall (OWriteHeader n) (Norm tt) :: w), l.
    assert (Hwr : r3 = EDone -> x_written x3 = true).
    { intros ->. assert (flags x3 c3) as [F _].
      { apply (pexec_inv sniff parse_form (fun _ => True) (fun y c => flags y c /\ x_handlers y = g :: hs /\ fit y) next k) in Ek; [by destruct Ek| |apply only_any| |].
        - intros o x c r' x1 c1 _ (H1 & H2 & H3) Hc. pose proof Hc as Hc'. apply call_run in Hc' as []. split; [by eapply flags_call|]. unfold fit in *. split; congruence.
        - intros y cy r' y' cy' (H1 & H2 & H3) Hc. unfold next in Hc.
          assert (x_hlen (set_index y (S (x_index y))) <= x_index (set_index y (S (x_index y))) + length hs)%nat as Hle.
          { cbn. unfold fit in H3. rewrite H3, H2. cbn. lia. }
          pose proof Hc as Hc'. apply crun_total in Hc' as (T1 & T2 & T3 & T4); [|done|done].
          split; [|cbn in T2, T3; unfold fit in *; split; cbn in *; congruence].
          eapply (crun_inv _ _ _ _ _ _ (flags_invariant sniff parse_form)) in Hc; [done|intros h _; apply only_any|done|done|].
          apply (flags_silent (bump y)); [exact H1|done].
        - split; [|by split]. unfold flags. rewrite Hlog. done. }
      rewrite F, Hl3, Hlog. apply bool_decide_eq_true_2. cbn [app]. eexists. reflexivity. }
    destruct r3 as [|v|]; [| |done].
    + specialize (Hwr eq_refl). cbn [set_index x_written] in H. rewrite Hwr in H. injection H as <- <- <-.
      cbn [log cn_log]. rewrite Hl3, Hlog. split; [cbn [app]; by rewrite <- !app_assoc|]. split; [exact Hs|]. split; [done|]. split; [|done].
      change (data_of w = s). by rewrite Hw.
    + injection H as <- <- <-. rewrite Hl3, Hlog. split; [cbn [app]; by rewrite app_nil_r|]. split; [exact Hs|]. split; [done|]. split; [|done].
      change (data_of w = s). by rewrite Hw.
  - intros o x c r' x1 c1 (H1 & H2) Hc. apply call_run in Hc as []. unfold fit in *. split; congruence.
  - intros y cy r' y' cy' (H2 & H3) Hc. unfold next in Hc.
    assert (x_hlen (set_index y (S (x_index y))) <= x_index (set_index y (S (x_index y))) + length hs)%nat as Hle.
    { cbn. unfold fit in H3. rewrite H3, H2. cbn. lia. }
    pose proof Hc as Hc'. apply crun_total in Hc' as (T1 & T2 & T3 & T4); [|done|done].
    apply (crun_turns sniff parse_form code (g :: hs)) in Hc as (l' & L1 & L2); [|done|done|done].
    split; [cbn in T2, T3; unfold fit in *; split; cbn in *; congruence|]. split; [done|]. exists l'. rewrite L1. cbn [log cn_log]. by rewrite <- app_assoc.
  - done.
Qed.

Lemma helper_serve ops r0 opts e id x r body en px c' n s k :
  engine_of re_ok ops r0 opts e ->
  ServeHTTP re_find sniff parse_form code e id x (arrive r body) = (en, px, c') -> starts (cn_log c') <> [] ->
  (forall hs, dispatched re_ok re_find e r hs -> exists g hs', hs = g :: hs' /\ answers_then (code g) n s k) -> 100 <= n <= 999 ->
  exists hs w l, dispatched re_ok re_find e r hs /\
    cn_log c' = EvStart 0 :: w ++ l ++ match en with EDone => [EvEnd 0] | _ => [] end /\
    starts w = [] /\ first_code w = Some n /\ data_of w = s /\ did code hs k l en.
Proof.
  intros He H Hs Hd Hn. destruct (serve_ran re_ok _ _ _ _ _ _ _ _ _ _ _ _ _ _ _ He H Hs) as (hs & ps & nd & Hdis & Hr).
  destruct (Hd _ Hdis) as (g & hs' & -> & Hg). destruct (helper_run _ _ _ _ _ _ _ _ _ _ _ _ _ eq_refl Hg Hn Hr) as (w & l & Hw).
  exists (g :: hs'), w, l. done.
Qed.
End Facts.
