(** Recovery: the run of a chain that contains it. *)
From Verif Require Import Base GoStr Strconv Pattern Tree TreeSpec Header Router Ctx CtxFacts TraceSpec Engine EngineSpec
  ServeFacts ServeProps ServeTop ServeDispatch Content ContentFacts Middleware MiddlewareSpec.
Local Open Scope Z_scope.

Section Facts.
Context {A V : Type}.
Variable sniff : gostr -> gostr.
Variable parse_form : bool -> request -> gostr * bool -> gmap gostr (list gostr) * bool * gostr.
Variable code : handler A -> prog V.
Implicit Types x y : ctxobj A V.
Implicit Types c : conn V.
Implicit Types next : ctxobj A V -> conn V -> ending * (ctxobj A V * conn V).

Local Notation call := (call sniff parse_form).
Local Notation pexec := (pexec sniff parse_form).
Local Notation crun := (crun sniff parse_form code).
Local Notation ran := (ran sniff parse_form code).

(** the flags follow the log throughout *)
Lemma flags_invariant : invariant (A:=A) sniff parse_form (fun _ : op V => True) flags flags.
Proof.
  split.
  - done.
  - intros x c H _. by apply flags_silent.
  - intros o x c r x' c' _ H Hc. by eapply flags_call.
  - intros x c H. apply (flags_silent (bump x)); [done|done].
  - intros x c i H. destruct (x_written x); apply (flags_silent (bump x)); done.
Qed.

(** ** Operations that do not panic *)
Lemma valid_code_iff n : valid_code n = true <-> 100 <= n <= 999.
Proof. unfold valid_code. rewrite andb_true_iff, !Z.leb_le. done. Qed.
Lemma raw_WriteHeader_safe n c o c' : 100 <= n <= 999 -> raw_WriteHeader n c = (o, c') -> o = Norm tt.
Proof.
  intros Hn. apply valid_code_iff in Hn. rewrite raw_WriteHeader_spec, Hn. destruct (rw_sent _); by intros [= <- <-].
Qed.
Lemma call_safe o x c r x' c' : safe o -> call o x c = (r, (x', c')) -> exists a, r = Norm a.
Proof.
  intros Ho H. apply call_eq in H as (c1 & Hd & _). revert Hd.
  destruct o; try (by destruct Ho); simpl; try (intros H; inversion H; subst; by eauto).
  - unfold ctx_WriteHeader. destruct (x_written x); [intros H; inversion H; subst; by eauto|].
    destruct (raw_WriteHeader code0 c) as [o1 c2] eqn:Hr. apply raw_WriteHeader_safe in Hr; [|done]. subst.
    intros H; inversion H; subst; by eauto.
  - unfold ctx_Write. destruct (x_written x) eqn:Hw; simpl; [intros H; inversion H; subst; by eauto|].
    unfold ctx_WriteHeader. rewrite Hw. match goal with |- context [raw_WriteHeader 200 ?c0] =>
      destruct (raw_WriteHeader 200 c0) as [o1 c2] eqn:Hr end. apply raw_WriteHeader_safe in Hr; [|lia]. subst.
    intros H; inversion H; subst; by eauto.
  - destruct (raw_WriteHeader code0 c) as [o1 c2] eqn:Hr. apply raw_WriteHeader_safe in Hr; [|done]. subst.
    intros H; inversion H; subst; by eauto.
Qed.

(** an operation: log, flags *)
Lemma call_written o x c r x' c' : call o x c = (r, (x', c')) -> x_written x = true -> x_written x' = true.
Proof. intros H Hw. apply call_log in H as (l & _ & _ & _ & _ & _ & -> & _). by rewrite Hw. Qed.
Lemma call_starts o x c r x' c' : call o x c = (r, (x', c')) -> exists l, cn_log c' = cn_log c ++ l /\ starts l = [].
Proof.
  intros H. apply call_log in H as (l & Hl & _ & Hs & _). exists (l ++ [EvCall o r]). split; [done|].
  by rewrite starts_app, Hs.
Qed.

(** ** Recovery itself *)
Lemma logged_app (l1 l2 : list (event V)) : logged (l1 ++ l2) = logged l1 ++ logged l2.
Proof. unfold logged. apply omap_app. Qed.
Lemma call_Log s x c : call (OLog s) x c = (Norm tt, (x, log c (EvCall (OLog s) (Norm tt)))).
Proof. done. Qed.
(** an operation other than logging *)
Lemma call_logged o x c r x' c' l : call o x c = (r, (x', c')) -> (forall s, o <> OLog s) ->
  cn_log c' = cn_log c ++ l -> logged l = [].
Proof.
  intros H Ho Hl. apply call_wire in H as (w & Hw & Hf). rewrite Hl, <- app_assoc in Hw. apply app_inv_head in Hw as ->.
  rewrite logged_app. assert (logged w = []) as ->.
  { clear Hl. induction Hf as [|ev w Hev _ IH]; [done|]. destruct ev; try (by destruct Hev); exact IH. }
  destruct o; try done. exfalso. by eapply Ho.
Qed.
Lemma recovery_exec stable crash next x c r1 x1 c1 :
  next x c = (r1, (x1, c1)) -> r1 <> EStuck -> flags x1 c1 ->
  exists x' c' l3, pexec next (Recovery stable crash) x c = (EDone, (x', c')) /\
    x_written x' = true /\ kept x1 x' /\ flags x' c' /\
    cn_log c' = cn_log c1 ++ l3 /\ starts l3 = [] /\
    first_code (cn_log c') = Some (match first_code (cn_log c1) with Some n => n | None => rescue r1 end) /\
    reports (fun v => if stable then [] else crash v) (fun v => L "panic : " ++ crash v) r1 l3.
Proof.
  intros Hn Hr Hf. unfold Recovery. cbn [Ctx.pexec]. rewrite Hn.
  assert (Hwr : forall y cy ty l3, x_written y = true -> kept x1 y -> flags y cy -> cn_log cy = cn_log c1 ++ l3 -> starts l3 = [] ->
    first_code (cn_log cy) = Some ty -> data_of l3 = [] -> forall v, logged l3 = [L "panic : " ++ crash v] ->
    exists x' c' l3, pexec next (if stable then PRet else String_ 500 (crash v) PRet) y cy = (EDone, (x', c')) /\
    x_written x' = true /\ kept x1 x' /\ flags x' c' /\
    cn_log c' = cn_log c1 ++ l3 /\ starts l3 = [] /\ first_code (cn_log c') = Some ty /\
    reports (fun v => if stable then [] else crash v) (fun v => L "panic : " ++ crash v) (EThrow (Some v)) l3).
  { intros y cy ty l3 Hw Hk Hfy Hl Hs Hc Hd v Hg. destruct stable; [by exists y, cy, l3|].
    unfold String_. rewrite pexec_seqp. destruct (call (OWriteHeader 500) y cy) as [o1 [y1 cy1]] eqn:E1.
    pose proof (flags_call _ _ _ _ _ _ _ _ Hfy E1) as F1. rewrite call_WriteHeader_written in E1 by done.
    injection E1 as <- <- <-. rewrite pexec_seqp. rewrite call_HeaderSet. cbn iota.
    match goal with |- context [pexec next _ y ?cc] => set (cy2 := cc) end.
    assert (F2 : flags y cy2). { apply (flags_silent y (set_hdr _ _)); done. }
    rewrite pexec_seqp. destruct (call (OWrite (crash v)) y cy2) as [o3 [y3 cy3]] eqn:E3.
    pose proof (flags_call _ _ _ _ _ _ _ _ F2 E3) as F3. rewrite call_Write_written in E3 by done.
    injection E3 as <- <- <-. cbn [seqp fold_right Ctx.pexec].
    eexists y, _, (l3 ++ [EvCall (OWriteHeader 500) (Norm tt); EvCall (OHeaderSet HeaderContentType MIMETextPlainCharsetUTF8) (Norm tt);
      EvData (crash v); EvCall (OWrite (crash v)) (Norm tt)]). split; [reflexivity|].
    split; [done|]. split; [done|]. split; [done|].
    assert (Hlog : cn_log (log (raw_Write (crash v) cy2) (EvCall (OWrite (crash v)) (Norm tt))) =
       cn_log c1 ++ l3 ++ [EvCall (OWriteHeader 500) (Norm tt); EvCall (OHeaderSet HeaderContentType MIMETextPlainCharsetUTF8) (Norm tt);
      EvData (crash v); EvCall (OWrite (crash v)) (Norm tt)]).
    { cbn [log cn_log]. rewrite raw_Write_log. unfold cy2. cbn [log set_hdr set_rw cn_log]. rewrite Hl, <- !app_assoc. done. }
    split; [exact Hlog|]. split; [by rewrite starts_app, Hs|]. split.
    - rewrite Hlog, app_assoc, <- Hl, first_code_app, Hc. done.
    - split; [rewrite data_of_app, Hd; unfold data_of; cbn; by rewrite app_nil_r|]. by rewrite logged_app, Hg. }
  assert (Hsend : forall n, valid_code n = true ->
    x_written x1 = false -> exists y cy l3, call (OWriteHeader n) x1 (log c1 (EvCall OWritten (Norm false))) = (Norm tt, (y, cy)) /\
      x_written y = true /\ kept x1 y /\ flags y cy /\ cn_log cy = cn_log c1 ++ l3 /\ starts l3 = [] /\
      first_code (cn_log cy) = Some n /\ data_of l3 = [] /\ logged l3 = []).
  { intros n Hv Hw. destruct (call (OWriteHeader n) x1 (log c1 (EvCall OWritten (Norm false)))) as [o1 [y cy]] eqn:E.
    assert (flags y cy) as Hfy.
    { eapply flags_call; [|exact E]. apply flags_silent; done. }
    destruct (call_safe (OWriteHeader n) _ _ _ _ _ (proj1 (valid_code_iff n) Hv) E) as [[] ->].
    pose proof (call_run _ _ _ _ _ _ _ _ E) as [R1 R2 R3 _ _ _].
    pose proof (fun l => call_logged _ _ _ _ _ _ l E ltac:(done)) as Hg.
    apply call_log in E as (l & Hl & Ha & Hs & _ & Hd & Hwy & _). exists y, cy, (EvCall OWritten (Norm false) :: l ++ [EvCall (OWriteHeader n) (Norm tt)]).
    split; [done|]. rewrite Hw in Hwy. simpl in Hwy.
    split; [done|]. split; [done|]. split; [done|].
    assert (Hlog : cn_log cy = cn_log c1 ++ EvCall OWritten (Norm false) :: l ++ [EvCall (OWriteHeader n) (Norm tt)]).
    { rewrite Hl. cbn [log cn_log]. by rewrite <- app_assoc. }
    split; [exact Hlog|]. split; [|split; [|split]].
    - change (starts (EvCall OWritten (Norm false) :: l ++ [EvCall (OWriteHeader n) (Norm tt)])) with
        (starts (l ++ [EvCall (OWriteHeader (V:=V) n) (Norm tt)])). by rewrite starts_app, Hs.
    - rewrite Hlog, first_code_app. destruct Hf as [Hf _]. rewrite Hw in Hf. symmetry in Hf. apply bool_decide_eq_false in Hf.
      destruct (first_code (cn_log c1)) eqn:E0; [exfalso; apply Hf; eauto|].
      change (first_code (EvCall OWritten (Norm false) :: l ++ [EvCall (OWriteHeader n) (Norm tt)])) with
        (first_code (l ++ [EvCall (OWriteHeader (V:=V) n) (Norm tt)])). rewrite first_code_app.
      unfold first_code at 1. by rewrite Ha.
    - change (data_of (EvCall OWritten (Norm false) :: l ++ [EvCall (OWriteHeader n) (Norm tt)])) with
        (data_of (l ++ [EvCall (OWriteHeader (V:=V) n) (Norm tt)])). by rewrite data_of_app, Hd.
    - change (logged (l ++ [EvCall (OWriteHeader (V:=V) n) (Norm tt)]) = []). by apply Hg. }
  assert (Hask : call OWritten x1 c1 = (Norm (x_written x1), (x1, log c1 (EvCall OWritten (Norm (x_written x1)))))) by done.
  assert (Hquiet : x_written x1 = true -> first_code (cn_log c1) <> None).
  { intros Hw. destruct Hf as [Hf _]. rewrite Hw in Hf. symmetry in Hf. apply bool_decide_eq_true in Hf as [? ->]. done. }
  assert (H200 : exists x' c' l3, pexec next (PDo OWritten (fun w => if w then PRet else PDo (OWriteHeader 200) (fun _ => PRet))) x1 c1 = (EDone, (x', c')) /\
    x_written x' = true /\ kept x1 x' /\ flags x' c' /\
    cn_log c' = cn_log c1 ++ l3 /\ starts l3 = [] /\
    first_code (cn_log c') = Some (match first_code (cn_log c1) with Some n => n | None => 200 end) /\ (data_of l3 = [] /\ logged l3 = [])).
  { cbn [Ctx.pexec]. rewrite Hask. destruct (x_written x1) eqn:Hw.
    - eexists x1, _, [EvCall OWritten (Norm true)]. split; [reflexivity|]. split; [done|]. split; [done|]. split; [by apply flags_silent|].
      split; [done|]. split; [done|]. split; [|done]. cbn [log cn_log]. rewrite first_code_app, first_code_one.
      specialize (Hquiet eq_refl). by destruct (first_code (cn_log c1)).
    - destruct (Hsend 200 eq_refl eq_refl) as (y & cy & l3 & E & H1 & H2 & H3 & H4 & H5 & H6 & H7 & H8). cbn [Ctx.pexec]. rewrite E.
      exists y, cy, l3. split_and!; try done. rewrite H6. destruct Hf as [Hf _]. rewrite Hw in Hf.
      symmetry in Hf. apply bool_decide_eq_false in Hf. destruct (first_code (cn_log c1)); [|done]. exfalso. apply Hf. eauto. }
  destruct r1 as [|[v|]|]; [exact H200| |exact H200|done].
  cbn [Ctx.pexec]. rewrite Hask. destruct (x_written x1) eqn:Hw.
  - specialize (Hquiet eq_refl). destruct (first_code (cn_log c1)) as [ty|] eqn:Hty; [|done].
    rewrite app_nil_l, pexec_seqp, call_Log. cbn iota. cbn [seqp fold_right].
    apply (Hwr x1 _ ty [EvCall OWritten (Norm true); EvCall (OLog (L "panic : " ++ crash v)) (Norm tt)]); try done.
    + apply flags_silent; [|done]. by apply flags_silent.
    + cbn [log cn_log]. by rewrite <- app_assoc.
    + cbn [log cn_log]. by rewrite <- app_assoc, first_code_app, Hty.
  - destruct (Hsend 500 eq_refl eq_refl) as (y & cy & l3 & E & H1 & H2 & H3 & H4 & H5 & H6 & H7 & H8).
    cbn [app]. rewrite pexec_seqp, E. cbn iota. rewrite pexec_seqp, call_Log. cbn iota. cbn [seqp fold_right].
    assert (first_code (cn_log c1) = None) as ->.
    { destruct Hf as [Hf _]. rewrite Hw in Hf. symmetry in Hf. apply bool_decide_eq_false in Hf.
      destruct (first_code (cn_log c1)); [|done]. exfalso. apply Hf. eauto. }
    apply (Hwr y _ 500 (l3 ++ [EvCall (OLog (L "panic : " ++ crash v)) (Norm tt)])); try done.
    + by apply flags_silent.
    + cbn [log cn_log]. by rewrite H4, <- app_assoc.
    + by rewrite starts_app, H5.
    + cbn [log cn_log]. by rewrite first_code_app, H6.
    + by rewrite data_of_app, H7.
    + by rewrite logged_app, H8.
Qed.

(** ** Handlers before Recovery *)
Section Chain.
Variables (hs pre post : list (handler A)) (h : handler A) (stable : bool) (crash : gostr -> gostr).
Hypothesis Hhs : hs = pre ++ h :: post.
Hypothesis Hcode : code h = Recovery stable crash.
Hypothesis Hpre : forall g, g ∈ pre -> calm true (code g).
Let k := length pre.
Let text := fun v => if stable then [] else crash v.
Let note := fun v => L "panic : " ++ crash v.

(** how a run that starts at or before Recovery ends *)
Definition guarded (l0 l : list (event V)) x' : Prop :=
  x_written x' = true /\ (k ∉ starts l \/ rescued code hs k text note l0 l).

Lemma guarded_more l0 l x y w : guarded l0 l x -> starts w = [] -> x_written y = true ->
  (x_written x = true -> first_code (l0 ++ l) <> None) -> guarded l0 (l ++ w) y.
Proof.
  intros [Hw [Hn|(l1 & l2 & r2 & l3 & l4 & -> & Hk & Ht & H3 & H4 & Hc & Hd)]] Hsw Hy Hf; split; try done.
  - left. by rewrite starts_app, Hsw, app_nil_r.
  - right. exists l1, l2, r2, l3, (l4 ++ w). split_and!; try done.
    + rewrite <- !app_assoc. simpl. rewrite <- !app_assoc. done.
    + by rewrite starts_app, H4, Hsw.
    + rewrite app_assoc, first_code_app, Hc. done.
Qed.

(** the state between steps *)
Definition inv (i : nat) x c : Prop :=
  x_handlers x = hs /\ fit x /\ flags x c /\ x_index x = i.

Lemma calm_quiet next p : calm false p -> forall x c,
  flags x c -> exists x' c' l, pexec next p x c = (EDone, (x', c')) /\ cn_log c' = cn_log c ++ l /\ starts l = [] /\
    kept x x' /\ flags x' c' /\ (x_written x = true -> x_written x' = true).
Proof.
  induction p as [|v|o kk IH|kk IH|b IHb kk IH]; cbn [calm]; intros Hp x c Hf; cbn [Ctx.pexec].
  - exists x, c, []. by rewrite app_nil_r.
  - done.
  - destruct Hp as [Ho Hk]. destruct (call o x c) as [r [x1 c1]] eqn:Hc.
    pose proof (flags_call _ _ _ _ _ _ _ _ Hf Hc) as F1. pose proof (call_run _ _ _ _ _ _ _ _ Hc) as [R1 R2 R3 _ _ _].
    pose proof (call_written _ _ _ _ _ _ Hc) as W1. destruct (call_starts _ _ _ _ _ _ Hc) as (l & Hl & Hs).
    destruct (call_safe _ _ _ _ _ _ Ho Hc) as [a ->].
    destruct (IH a (Hk a) x1 c1 F1) as (x' & c' & l' & E & H1 & H2 & H3 & H4 & H5).
    exists x', c', (l ++ l'). split; [done|]. rewrite H1, Hl, app_assoc, starts_app, Hs, H2. split_and!; try done; [|auto].
    by eapply kept_trans.
  - by destruct Hp.
  - destruct Hp as [[Hb Hk]|[Hb Hk]];
      destruct (IHb Hb x c Hf) as (x1 & c1 & l & -> & H1 & H2 & H3 & H4 & H5);
      destruct (IH None Hk x1 c1 H4) as (x2 & c2 & l' & -> & J1 & J2 & J3 & J4 & J5);
      exists x2, c2, (l ++ l'); rewrite J1, H1, app_assoc, starts_app, H2, J2; split_and!; try done; try (by eapply kept_trans); auto.
Qed.

Lemma flags_first x c : flags x c -> x_written x = true -> first_code (cn_log c) <> None.
Proof. intros [Hf _] Hw. rewrite Hw in Hf. symmetry in Hf. apply bool_decide_eq_true in Hf as [? ->]. done. Qed.

Lemma calm_exec next i p : (i < k)%nat -> calm true p ->
  (forall x c, inv i x c -> exists x' c' l, next x c = (EDone, (x', c')) /\ cn_log c' = cn_log c ++ EvNext :: l /\
     x_handlers x' = hs /\ fit x' /\ flags x' c' /\ guarded (cn_log c ++ [EvNext]) l x') ->
  forall x c, inv i x c ->
  exists x' c' l, pexec next p x c = (EDone, (x', c')) /\ cn_log c' = cn_log c ++ l /\
    x_handlers x' = hs /\ fit x' /\ flags x' c' /\
    ((starts l = [] /\ x_index x' = i) \/ guarded (cn_log c) l x').
Proof.
  intros Hi Hp Hnext. revert Hp. induction p as [|v|o kk IH|kk IH|b IHb kk IH]; cbn [calm]; intros Hp x c Hx; cbn [Ctx.pexec].
  - exists x, c, []. rewrite app_nil_r. destruct Hx as (?&?&?&?). split_and!; try done. by left.
  - done.
  - destruct Hp as [Ho Hk]. destruct (call o x c) as [r [x1 c1]] eqn:Hc. destruct Hx as (X1 & X2 & X3 & X4).
    pose proof (flags_call _ _ _ _ _ _ _ _ X3 Hc) as F1. pose proof (call_run _ _ _ _ _ _ _ _ Hc) as [R1 R2 R3 _ _ _].
    destruct (call_starts _ _ _ _ _ _ Hc) as (l & Hl & Hs). destruct (call_safe _ _ _ _ _ _ Ho Hc) as [a ->].
    destruct (IH a (Hk a) x1 c1) as (x' & c' & l' & E & H1 & H2 & H3 & H4 & H5).
    { unfold inv, fit in *. split_and!; try done; congruence. }
    exists x', c', (l ++ l'). rewrite H1, Hl, app_assoc. split_and!; try done.
    destruct H5 as [[H5 H6]|[G1 G2]].
    + left. by rewrite starts_app, Hs, H5.
    + right. split; [done|]. destruct G2 as [G2|(l1 & l2 & r2 & l3 & l4 & -> & G3 & G4 & G5 & G6 & G7 & G8)].
      * left. by rewrite starts_app, Hs.
      * right. exists (l ++ l1), l2, r2, l3, l4. rewrite Hl in G7. split_and!; try done.
        -- by rewrite <- !app_assoc.
        -- by rewrite starts_app, Hs.
        -- rewrite !app_assoc. rewrite !app_assoc in G7. done.
  - destruct Hp as [_ Hp]. destruct (Hnext x c Hx) as (x1 & c1 & l & -> & H1 & H2 & H3 & H4 & H5).
    destruct (calm_quiet next kk Hp x1 c1 H4) as (x2 & c2 & l' & -> & J1 & J2 & (J3 & J3' & _) & J4 & J5).
    exists x2, c2, (EvNext :: l ++ l'). split; [done|].
    split; [by rewrite J1, H1, <- app_assoc|]. split; [congruence|]. split; [unfold fit in *; congruence|]. split; [done|].
    right. assert (G : guarded (cn_log c ++ [EvNext]) (l ++ l') x2).
    { apply (guarded_more _ _ x1); [done|done|apply J5; apply H5|]. intros _. rewrite <- app_assoc.
      change ([EvNext] ++ l) with (EvNext :: l). rewrite <- H1. apply flags_first with x1; [done|]. apply H5. }
    destruct G as [G1 G2]. split; [done|]. destruct G2 as [G2|(l1 & l2 & r2 & l3 & l4 & E & G3 & G4 & G5 & G6 & G7 & G8)]; [by left|].
    right. exists (EvNext :: l1), l2, r2, l3, l4. rewrite E in *. rewrite <- app_assoc in G7. cbn [app] in G7 |- *.
    split_and!; try done. rewrite G7. by rewrite <- !app_assoc.
  - destruct Hp as [[Hb Hk]|[Hb Hk]].
    + destruct (IHb Hb x c Hx) as (x1 & c1 & l & -> & H1 & H2 & H3 & H4 & H5).
      destruct (calm_quiet next _ Hk x1 c1 H4) as (x2 & c2 & l' & -> & J1 & J2 & (J3 & J3' & J3'') & J4 & J5).
      exists x2, c2, (l ++ l'). split; [done|]. split; [by rewrite J1, H1, app_assoc|].
      split; [congruence|]. split; [unfold fit in *; congruence|]. split; [done|].
      destruct H5 as [[H5 H6]|H5].
      * left. rewrite starts_app, H5, J2. split; [done|congruence].
      * right. apply (guarded_more _ _ x1); [done|done|apply J5; apply H5|]. intros _.
        rewrite <- H1. apply flags_first with x1; [done|]. apply H5.
    + destruct Hx as (X1 & X2 & X3 & X4).
      destruct (calm_quiet next _ Hb x c X3) as (x1 & c1 & l & -> & J1 & J2 & (J3 & J3' & J3'') & J4 & J5).
      destruct (IH None Hk x1 c1) as (x2 & c2 & l' & -> & H1 & H2 & H3 & H4 & H5).
      { unfold inv, fit in *. split_and!; try done; congruence. }
      exists x2, c2, (l ++ l'). split; [done|]. split; [by rewrite H1, J1, app_assoc|]. split_and!; try done.
      destruct H5 as [[H5 H6]|[G1 G2]].
      * left. by rewrite starts_app, J2, H5.
      * right. split; [done|]. destruct G2 as [G2|(l1 & l2 & r2 & l3 & l4 & -> & G3 & G4 & G5 & G6 & G7 & G8)].
        -- left. by rewrite starts_app, J2.
        -- right. exists (l ++ l1), l2, r2, l3, l4. rewrite J1 in G7. split_and!; try done.
           ++ by rewrite <- !app_assoc.
           ++ by rewrite starts_app, J2.
           ++ rewrite !app_assoc. rewrite !app_assoc in G7. done.
Qed.

Lemma hs_len : length hs = S (k + length post).
Proof. rewrite Hhs, app_length. simpl. unfold k. lia. Qed.

Lemma guard_run fuel : forall i x c, (i <= k)%nat -> inv i x c -> (x_hlen x <= x_index x + fuel)%nat ->
  exists x' c' l, crun fuel x c = (EDone, (x', c')) /\ cn_log c' = cn_log c ++ l /\
    x_handlers x' = hs /\ fit x' /\ flags x' c' /\ guarded (cn_log c) l x'.
Proof.
  pose proof hs_len as Hlen.
  induction fuel as [|fuel IH]; intros i x c Hi Hx Hle; destruct Hx as (X1 & X2 & X3 & X4);
    assert (Hh : x_hlen x = length hs) by (unfold fit in X2; congruence).
  { lia. }
  cbn [Ctx.crun]. assert ((x_index x <? x_hlen x)%nat = true) as -> by (apply Nat.ltb_lt; lia).
  match goal with |- context [pexec ?nx _ _ _] => set (next := nx) end.
  assert (F0 : flags x (log c (EvStart (x_index x)))) by (by apply flags_silent).
  destruct (decide (i = k)) as [->|Hne].
  - rewrite X1, X4. assert (hs !! k = Some h) as -> by (rewrite Hhs; by apply list_lookup_middle).
    rewrite Hcode. rewrite X4 in F0. destruct (next x (log c (EvStart k))) as [r1 [x1 c1]] eqn:Hn.
    pose proof Hn as Hn'. unfold next in Hn'.
    assert (fit (set_index x (S (x_index x)))) as Hfit by exact X2.
    assert ((x_hlen (set_index x (S (x_index x))) <= x_index (set_index x (S (x_index x))) + fuel)%nat) as Hle' by (simpl; lia).
    pose proof Hn' as T. apply crun_total in T as (T1 & T2 & T3 & T4); [|done|done].
    pose proof Hn' as I. eapply (crun_inv _ _ _ _ _ _ flags_invariant) in I; [| |done|done|].
    2: { intros g _. apply only_any. }
    2: { apply (flags_silent (bump x)); [|done]. exact F0. }
    eapply (crun_turns sniff parse_form code hs) in Hn' as (l2 & L1 & L2); [|done|done|done].
    destruct (recovery_exec stable crash next x _ _ _ _ Hn T1 I) as (x2 & c2 & l3 & E & W & (K1 & K2 & K3) & F & Hl & Hs & Hc & Hd).
    rewrite E. cbn iota. cbn [set_index x_written]. rewrite W.
    eexists _, _, (EvStart k :: EvNext :: l2 ++ l3 ++ [EvEnd k]).
    split; [reflexivity|]. cbn [log cn_log] in L1. split.
    { cbn [log cn_log]. rewrite Hl, L1, <- !app_assoc. done. }
    split; [cbn [set_index x_handlers]; simpl in T3; congruence|].
    split; [unfold fit in *; cbn [set_index x_handlers x_hlen]; simpl in T2, T3; congruence|].
    split; [apply (flags_silent (bump x2)); done|].
    split; [done|]. right. exists [], l2, r1, l3, []. split_and!; try done; [cbn [starts]; apply not_elem_of_nil|].
    assert (Hfc : cn_log c2 = (cn_log c ++ EvStart k :: EvNext :: l2) ++ l3) by (by rewrite Hl, L1, <- !app_assoc).
    assert (Hsil : forall l l' : list (event V), first_code (l ++ EvStart k :: EvNext :: l') = first_code (l ++ l')).
    { intros l l'. rewrite !first_code_app. done. }
    assert (cn_log c ++ EvStart k :: EvNext :: l2 ++ l3 ++ [EvEnd k] = cn_log c2 ++ [EvEnd k]) as ->
      by (rewrite Hfc, <- !app_assoc; done).
    rewrite first_code_app, Hc. f_equal. rewrite L1, <- !app_assoc. cbn [app]. by rewrite Hsil.
  - assert (Hlt : (i < k)%nat) by lia.
    rewrite X1, X4. destruct (lookup_lt_is_Some_2 pre i Hlt) as [g Hg].
    assert (hs !! i = Some g) as -> by (rewrite Hhs; by apply lookup_app_l_Some).
    rewrite X4 in F0.
    destruct (calm_exec next i (code g) Hlt (Hpre g (elem_of_list_lookup_2 _ _ _ Hg))) with (x := x) (c := log c (EvStart i))
      as (x1 & c1 & l & E & H1 & H2 & H3 & H4 & H5).
    { intros y cy (Y1 & Y2 & Y3 & Y4). unfold next.
      destruct (IH (S i) (set_index y (S (x_index y))) (log cy EvNext)) as (y' & cy' & l & E & L & J1 & J2 & J3 & J4).
      - lia.
      - split_and!; [done|done| |by rewrite <- Y4]. apply (flags_silent (bump y)); done.
      - unfold fit in *. simpl. assert (x_hlen y = length hs) by congruence. lia.
      - exists y', cy', l. split; [done|]. split; [by rewrite L; simpl; rewrite <- app_assoc|]. done. }
    { done. }
    rewrite E. cbn iota. cbn [set_index x_written]. destruct (x_written x1) eqn:Hw1.
    + eexists _, _, (EvStart i :: l ++ [EvEnd i]). split; [reflexivity|]. cbn [log cn_log] in *.
      split; [by rewrite H1, <- !app_assoc|]. split; [done|]. split; [done|]. split; [apply (flags_silent (bump x1)); done|].
      split; [done|].
      assert (Hb : forall l' : list (event V), starts (EvStart i :: l' ++ [EvEnd i]) = i :: starts l').
      { intros l'. change (starts (EvStart i :: l' ++ [EvEnd i])) with (i :: starts (l' ++ [EvEnd (V:=V) i])).
        by rewrite starts_app, app_nil_r. }
      destruct H5 as [[H5 H6]|[G1 G2]].
      * left. rewrite Hb, H5. rewrite elem_of_list_singleton. lia.
      * destruct G2 as [G2|(l1 & l2 & r2 & l3 & l4 & -> & G3 & G4 & G5 & G6 & G7 & G8)].
        -- left. rewrite Hb. rewrite elem_of_cons. intros [?|?]; [lia|done].
        -- right. exists (EvStart i :: l1), l2, r2, l3, (l4 ++ [EvEnd i]). split_and!; try done.
           ++ simpl. rewrite <- !app_assoc. simpl. rewrite <- !app_assoc. done.
           ++ change (starts (EvStart i :: l1)) with (i :: starts l1). rewrite elem_of_cons. intros [?|?]; [lia|done].
           ++ by rewrite starts_app, G6.
           ++ change (EvStart i :: (l1 ++ EvStart k :: EvNext :: l2 ++ l3 ++ EvEnd k :: l4) ++ [EvEnd i]) with
                ([EvStart i] ++ (l1 ++ EvStart k :: EvNext :: l2 ++ l3 ++ EvEnd k :: l4) ++ [EvEnd i]).
              rewrite !app_assoc. rewrite !app_assoc in G7. rewrite first_code_app, G7. rewrite <- !app_assoc. done.
    + destruct H5 as [[H5 H6]|[G1 _]]; [|congruence].
      destruct (IH (S i) (set_index x1 (S (x_index x1))) (log c1 (EvEnd i))) as (y' & cy' & l' & E' & L & J1 & J2 & J3 & J4).
      * lia.
      * split_and!; [done|done|apply (flags_silent (bump x1)); done|by rewrite <- H6].
      * unfold fit in *. simpl. rewrite H6. assert (x_hlen x1 = length hs) by congruence. lia.
      * rewrite E'. cbn [log cn_log] in *. exists y', cy', (EvStart i :: l ++ EvEnd i :: l'). split; [done|].
        split; [by rewrite L, H1, <- !app_assoc|]. split_and!; try done.
        destruct J4 as [G1 G2]. split; [done|].
        assert (Hb : starts (EvStart i :: l ++ EvEnd i :: l') = i :: starts l').
        { change (starts (EvStart i :: l ++ EvEnd i :: l')) with (i :: starts (l ++ EvEnd (V:=V) i :: l')).
          by rewrite starts_app, H5. }
        destruct G2 as [G2|(l1 & l2 & r2 & l3 & l4 & -> & G3 & G4 & G5 & G6 & G7 & G8)].
        -- left. rewrite Hb, elem_of_cons. intros [?|?]; [lia|done].
        -- right. exists (EvStart i :: l ++ EvEnd i :: l1), l2, r2, l3, l4. split_and!; try done.
           ++ simpl. rewrite <- !app_assoc. done.
           ++ change (starts (EvStart i :: l ++ EvEnd i :: l1)) with (i :: starts (l ++ EvEnd (V:=V) i :: l1)).
              rewrite starts_app, H5. simpl. rewrite elem_of_cons. intros [?|?]; [lia|done].
           ++ rewrite H1 in G7. rewrite <- !app_assoc in G7. cbn [app] in G7. cbn [app]. rewrite <- !app_assoc. cbn [app]. done.
Qed.

Lemma guard_ran id ps n r body en c' : ran id hs ps n r body en c' ->
  en = EDone /\ (k ∉ starts (cn_log c') /\ responded (cn_log c') \/ rescued code hs k text note [] (cn_log c')).
Proof.
  intros [x' H].
  destruct (guard_run (length hs) 0 (fresh id hs ps n) (arrive r body)) as (x1 & c1 & l & E & L & _ & _ & F & G).
  - lia.
  - split_and!; [done|done|apply flags_fresh|done].
  - simpl. lia.
  - rewrite E in H. inversion H; subst x1 c1 en. split; [done|]. cbn [arrive cn_log app] in L. rewrite <- L in G.
    destruct G as [G1 [G2|G2]]; [left|right; done]. split; [done|]. by apply flags_first with x'.
Qed.
End Chain.
End Facts.

Section Engine.
Context {A V : Type}.
Variable re_ok : gostr -> bool.
Variable re_find : gostr -> gostr -> option (list gostr).
Variable sniff : gostr -> gostr.
Variable parse_form : bool -> request -> gostr * bool -> gmap gostr (list gostr) * bool * gostr.
Variable code : handler A -> prog V.

Lemma recovery_contains ops r0 opts e id x r body en px c' stable crash :
  engine_of re_ok ops r0 opts e ->
  ServeHTTP re_find sniff parse_form code e id x (arrive r body) = (en, px, c') -> starts (cn_log c') <> [] ->
  (forall hs, dispatched re_ok re_find e r hs ->
     exists pre h post, hs = pre ++ h :: post /\ code h = Recovery stable crash /\ forall g, g ∈ pre -> calm true (code g)) ->
  en = EDone /\
  exists pre h post, dispatched re_ok re_find e r (pre ++ h :: post) /\ code h = Recovery stable crash /\
    (length pre ∉ starts (cn_log c') /\ responded (cn_log c') \/
     rescued code (pre ++ h :: post) (length pre) (fun v => if stable then [] else crash v) (fun v => L "panic : " ++ crash v) [] (cn_log c')).
Proof.
  intros He Hs Hne Hd.
  destruct (serve_ran re_ok re_find sniff parse_form code _ _ _ _ _ _ _ _ _ _ _ He Hs Hne) as (hs0 & ps & n & Hdis & Hran).
  destruct (Hd _ Hdis) as (pre & h & post & -> & Hh & Hpre).
  destruct (guard_ran sniff parse_form code _ pre post h stable crash eq_refl Hh Hpre id ps n r body en c' Hran) as [-> H].
  split; [done|]. exists pre, h, post. done.
Qed.

(** Recovery itself, Logger and CORS are calm *)
Lemma calm_seqp (os : list (op V)) k b : Forall safe os -> calm b k -> calm b (seqp os k).
Proof. induction 1 as [|o os Ho Hos IH]; intros Hk; [done|]. split; [done|]. intros _. by apply IH. Qed.
Lemma calm_logger lf limit close lb : calm (V:=V) true (Logger lf limit close lb).
Proof.
  unfold Logger. destruct close; [done|]. split; [done|]. intros r.
  destruct (_ && _); [|done]. split; [done|]. intros d. split; [done|]. intros _. done.
Qed.
Lemma calm_cors cfg : calm (V:=V) true (CORS cfg).
Proof.
  split; [done|]. intros r. cbn zeta.
  assert (Hc : Forall (safe (V:=V)) (if AllowCredentials cfg then [OHeaderSet (L "Access-Control-Allow-Credentials") (L "true")] else []))
    by (destruct (AllowCredentials cfg); by repeat constructor).
  destruct (negb _); apply calm_seqp; try done.
  - constructor; [done|]. constructor; [done|]. apply Forall_app. split; [done|]. destruct (seqb _ _); by repeat constructor.
  - do 5 (constructor; [done|]). rewrite !Forall_app. split_and!; [done| | |constructor; [|done]; simpl; lia].
    + destruct (negb _); [by repeat constructor|]. destruct (negb _); by repeat constructor.
    + destruct (0 <? _); by repeat constructor.
Qed.
End Engine.
