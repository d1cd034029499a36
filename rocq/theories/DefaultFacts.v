(** Proofs about routers made by Default(). *)
From Verif Require Import Base GoStr Strconv Pattern Tree TreeSpec Header Router RouterSpec RouterFacts HandlerFacts RouterProps
  Ctx CtxFacts TraceSpec Engine EngineSpec ServeTop ServeThms ServeProps ServeMore ServeDispatch ServePairs RouterDump Content Middleware MiddlewareSpec RecoveryFacts.
Local Open Scope Z_scope.

Section Default.
Context {A V : Type}.
Implicit Types ops : list (rop A).
Notation made lg rc := [RNew; RUse 0 [IHandler lg]; RUse 0 [IHandler rc]].

Lemma default_ops (lg rc : A) : run_ops (made lg rc) [] = Default lg rc [].
Proof. reflexivity. Qed.

Lemma default_mws (lg rc : A) ops : mws (history (made lg rc ++ ops)) 0 = IHandler lg :: IHandler rc :: mws (history ops) 0.
Proof. reflexivity. Qed.
Lemma default_befores (lg rc : A) ops : befores (history (made lg rc ++ ops)) 0 = befores (history ops) 0.
Proof. reflexivity. Qed.

Lemma Forall2_app_in {X Y} (R : X -> Y -> Prop) l1 l2 k : Forall2 R (l1 ++ l2) k -> exists k1 k2, k = k1 ++ k2 /\ Forall2 R l1 k1 /\ Forall2 R l2 k2.
Proof. intros H. apply Forall2_app_inv_l in H as (k1 & k2 & H1 & H2 & ->). eauto. Qed.

Lemma default_chain re_ok lg rc ops opts e v : engine_of re_ok (made lg rc ++ ops) 0 opts e -> v ∈ routes e ->
  exists bs rest, rt_handlers v = bs ++ HHandler lg :: HHandler rc :: rest /\ Forall2 converts (befores (history ops) 0) bs.
Proof.
  intros (hp & mem & mem' & Hr & Hh) Hv. destruct (middleware_order _ _ _ _ _ _ _ _ Hr Hh) as (ls & [Hl _] & Hf).
  apply elem_of_list_lookup in Hv as [i Hi]. destruct (Forall2_lookup_r _ _ _ _ _ Hf Hi) as (l & Hli & path & m & Hp & _ & _ & _ & _ & _ & Hc).
  apply elem_of_list_lookup_2, Hl in Hli as [_ [path' Hp']]. rewrite (lineage_fun _ _ _ _ Hp Hp') in Hc. unfold chain in Hc.
  rewrite default_befores in Hc. apply Forall2_app_in in Hc as (bs & k & -> & Hb & Hc).
  cbn [map concat] in Hc. rewrite default_mws in Hc. rewrite <- app_assoc in Hc. cbn [app] in Hc.
  inversion Hc as [|? h1 ? k1 H1 Hc1]; subst. inversion Hc1 as [|? h2 ? k2 H2 Hc2]; subst.
  inversion H1; subst. inversion H2; subst. by exists bs, k2.
Qed.

Lemma quiet_turns (code : handler A -> prog V) hs l en : turns code hs l en -> starts l = [] -> en = EDone.
Proof. intros H. by destruct H. Qed.

Lemma default_contains re_ok re_find sniff parse_form (code : handler A -> prog V) lg rc ops opts e id x r body en px c' lf limit close lb stable crash :
  engine_of re_ok (made lg rc ++ ops) 0 opts e ->
  code (HHandler lg) = Logger lf limit close lb -> code (HHandler rc) = Recovery stable crash ->
  (forall b h, b ∈ befores (history ops) 0 -> converts b h -> calm true (code h)) ->
  (forall us, WithNoFoundHandlers us ∉ opts) ->
  ServeHTTP re_find sniff parse_form code e id x (arrive r body) = (en, px, c') ->
  en = EDone /\
  (starts (cn_log c') <> [] -> exists pre h post, dispatched re_ok re_find e r (pre ++ h :: post) /\ code h = Recovery stable crash /\
    (length pre ∉ starts (cn_log c') /\ responded (cn_log c') \/
     rescued code (pre ++ h :: post) (length pre) (fun v => if stable then [] else crash v) (fun v => L "panic : " ++ crash v) [] (cn_log c'))).
Proof.
  intros He Hlg Hrc Hb Ho Hs.
  assert (o_nofound (en_options e) = []) as Hnf.
  { pose proof (engine_built _ _ _ _ _ He) as [_ Hbu]. exact (nofound_absent _ _ _ (bu_opts _ _ _ _ _ Hbu) Ho). }
  assert (forall hs, dispatched re_ok re_find e r hs ->
     exists pre h post, hs = pre ++ h :: post /\ code h = Recovery stable crash /\ forall g, g ∈ pre -> calm true (code g)) as Hd.
  { intros hs Hd. destruct Hd as [v Hv Hm Hf|Hn Hne].
    - destruct (default_chain re_ok lg rc ops opts e v He Hv) as (bs & rest & -> & Hbs).
      exists (bs ++ [HHandler lg]), (HHandler rc), rest. split; [by rewrite <- app_assoc|]. split; [done|].
      intros g. rewrite elem_of_app, elem_of_list_singleton. intros [Hg| ->]; [|rewrite Hlg; apply calm_logger].
      apply elem_of_list_lookup in Hg as [i Hi]. destruct (Forall2_lookup_r _ _ _ _ _ Hbs Hi) as (b & Hbi & Hc).
      eapply Hb; [|done]. by eapply elem_of_list_lookup_2.
    - by destruct Hne. }
  assert (starts (cn_log c') <> [] -> en = EDone) as H1.
  { intros Hne. by destruct (recovery_contains re_ok re_find sniff parse_form code _ _ _ _ _ _ _ _ _ _ _ _ _ He Hs Hne Hd). }
  split.
  - destruct (decide (starts (cn_log c') = [])) as [E|]; [|by apply H1].
    destruct (serve_handled re_ok re_find sniff parse_form code _ _ _ _ _ _ _ _ _ _ _ He Hs) as
      [n Hn|Hr _ Hnf'|ps Hr _ Hnf' Hran|v w n ps Hr Hv Hw Hsame _ _ Hwhy Hh Hran]; [done|done|done|].
    eapply quiet_turns; [by eapply ran_turns|done].
  - intros Hne. by destruct (recovery_contains re_ok re_find sniff parse_form code _ _ _ _ _ _ _ _ _ _ _ _ _ He Hs Hne Hd).
Qed.
End Default.
