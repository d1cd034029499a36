(** Runs that differ only in the parameters or the recorded route of the context. *)
From Verif Require Import Base GoStr Strconv Pattern Tree Header Router Ctx CtxFacts.
Local Open Scope Z_scope.

Section Sim.
Context {A V : Type}.
Variable sniff : gostr -> gostr.
Variable parse_form : bool -> request -> gostr * bool -> gmap gostr (list gostr) * bool * gostr.
Variable code : handler A -> prog V.
Implicit Types x y : ctxobj A V.
Implicit Types c d : conn V.
Local Notation call := (call sniff parse_form).
Local Notation crun := (crun sniff parse_form code).
Local Notation pexec := (pexec sniff parse_form).

(** which of Params and FullPath() the handlers may use *)
Variables params path : bool.
Definition allowed (o : op V) : Prop :=
  match o with
  | OParams | OParamPut _ _ => params = true
  | OFullPath => path = true
  | _ => True
  end.

(** what FullPath tells of a leaf *)
Definition at_uri (n : option (enode (handler A) * option (route A))) : option (option gostr) := (fun nr : enode (handler A) * option (route A) => rt_uri <$> nr.2) <$> n.
Record sim x y : Prop := {
  sim_env : x_env x = x_env y;
  sim_params : params = true -> x_params x = x_params y;
  sim_handlers : x_handlers x = x_handlers y;
  sim_hlen : x_hlen x = x_hlen y;
  sim_index : x_index x = x_index y;
  sim_written : x_written x = x_written y;
  sim_status : x_status x = x_status y;
  sim_end : path = true -> at_uri (x_end x) = at_uri (x_end y);
  sim_parsed : x_parsed x = x_parsed y
}.

Lemma sim_do o x y c r x' c' : allowed o -> sim x y -> do_op sniff parse_form o x c = (r, (x', c')) ->
  exists y', do_op sniff parse_form o y c = (r, (y', c')) /\ sim x' y'.
Proof.
  intros Ho [E P H L I W S N F]. destruct o; simpl in Ho; cbn [do_op] in *;
    try (intros [= <- <- <-]; rewrite <- ?E, <- ?W, <- ?S; eexists; (split; [reflexivity|]); by constructor).
  - unfold ctx_WriteHeader. rewrite <- W. destruct (x_written x) eqn:Hw.
    + intros [= <- <- <-]. eexists. split; [reflexivity|]. constructor; try done. congruence.
    + destruct (raw_WriteHeader _ _) as [o1 c1]. intros [= <- <- <-]. eexists. split; [reflexivity|]. by constructor.
  - unfold ctx_Write, ctx_WriteHeader. rewrite <- W. destruct (x_written x) eqn:Hw; cbn [negb].
    + intros [= <- <- <-]. eexists. split; [reflexivity|]. constructor; try done. congruence.
    + match goal with |- context [raw_WriteHeader ?a ?b] => destruct (raw_WriteHeader a b) as [[?|?] c1] end;
        intros [= <- <- <-]; eexists; (split; [reflexivity|]); by constructor.
  - destruct (raw_WriteHeader _ _) as [o1 c1]. intros [= <- <- <-]. eexists. split; [reflexivity|]. by constructor.
  - specialize (N Ho). destruct (x_end x) as [[n [rt|]]|] eqn:Hx, (x_end y) as [[n' [rt'|]]|] eqn:Hy; simpl in N; try discriminate.
    + injection N as N. intros [= <- <- <-]. rewrite N. eexists. split; [reflexivity|]. constructor; try done. intros _. rewrite Hx, Hy. cbn. by rewrite N.
    + intros [= <- <- <-]. eexists. split; [reflexivity|]. constructor; try done. by rewrite Hx, Hy.
    + intros [= <- <- <-]. eexists. split; [reflexivity|]. constructor; try done. by rewrite Hx, Hy.
  - intros [= <- <- <-]. eexists. split; [by rewrite (P Ho)|]. by constructor.
  - rewrite <- (P Ho). destruct (x_params x) as [m|] eqn:Hx; intros [= <- <- <-]; eexists; (split; [reflexivity|]).
    + by constructor.
    + constructor; try done. intros _. rewrite Hx. by apply P.
  - rewrite <- E. destruct (x_env x) as [m|] eqn:Hx.
    + destruct (m !! name); intros [= <- <- <-]; eexists; (split; [reflexivity|]); constructor; try done; by rewrite Hx.
    + intros [= <- <- <-]; eexists; (split; [reflexivity|]); constructor; try done; by rewrite Hx.
  - rewrite <- E. destruct (x_env x ≫= _); intros H1; inversion H1; subst; eexists; (split; [reflexivity|]); by constructor.
  - rewrite <- E. destruct (x_env x) as [m|] eqn:Hx; intros [= <- <- <-]; eexists; (split; [reflexivity|]); constructor; try done; by rewrite Hx.
  - rewrite <- F. destruct (x_parsed x) eqn:Hp.
    + intros [= <- <- <-]; eexists; (split; [reflexivity|]). constructor; try done. congruence.
    + destruct (parse_form _ _ _) as [[f ok] rest]. destruct ok; intros [= <- <- <-]; eexists; (split; [reflexivity|]); by constructor.
Qed.
Lemma sim_call o x y c r x' c' : allowed o -> sim x y -> call o x c = (r, (x', c')) ->
  exists y', call o y c = (r, (y', c')) /\ sim x' y'.
Proof.
  intros Ho Hs H. apply call_eq in H as (c1 & Hd & ->). destruct (sim_do _ _ _ _ _ _ _ Ho Hs Hd) as (y' & Hy & Hs').
  exists y'. split; [|done]. unfold Ctx.call. by rewrite Hy.
Qed.

Definition sim_fun (f g : ctxobj A V -> conn V -> ending * (ctxobj A V * conn V)) (hs : list (handler A)) : Prop :=
  forall x y c r x' c', sim x y -> x_handlers x = hs -> f x c = (r, (x', c')) ->
    exists y', g y c = (r, (y', c')) /\ sim x' y' /\ x_handlers x' = hs.
Lemma pexec_sim next next' hs p : sim_fun next next' hs -> only allowed p -> sim_fun (pexec next p) (pexec next' p) hs.
Proof.
  intros Hn. induction p as [|v|o k IH|k IH|b IHb k IH]; intros Hp x y c r x' c' Hs Hh H; simpl in *.
  - inversion H; subst. eauto.
  - inversion H; subst. eauto.
  - destruct Hp as [Ho Hk]. destruct (call o x c) as [ro [x1 c1]] eqn:Hc.
    destruct (sim_call _ _ _ _ _ _ _ Ho Hs Hc) as (y1 & Hy1 & Hs1). rewrite Hy1.
    pose proof (call_run _ _ _ _ _ _ _ _ Hc) as [S1 _ _ _ _ _].
    destruct ro as [a|v].
    + by apply (IH a (Hk a) x1); [|congruence|].
    + inversion H; subst x1 c1 r. exists y1. split; [done|]. split; [done|]. congruence.
  - destruct (next x c) as [r1 [x1 c1]] eqn:Hnx. destruct (Hn _ _ _ _ _ _ Hs Hh Hnx) as (y1 & Hy1 & Hs1 & Hh1). rewrite Hy1.
    destruct r1; [by apply (IH Hp x1)|inversion H; subst; eauto..].
  - destruct Hp as [Hb Hk]. destruct (pexec next b x c) as [r1 [x1 c1]] eqn:Hnx.
    destruct (IHb Hb _ _ _ _ _ _ Hs Hh Hnx) as (y1 & Hy1 & Hs1 & Hh1). rewrite Hy1.
    destruct r1; [by apply (IH _ (Hk _) x1)|by apply (IH _ (Hk _) x1)|inversion H; subst; eauto].
Qed.
Lemma crun_sim hs fuel : (forall h, h ∈ hs -> only allowed (code h)) -> sim_fun (crun fuel) (crun fuel) hs.
Proof.
  intros Hcode. induction fuel as [|fuel IH]; intros x y c r x' c' Hs Hh H; simpl in *;
    pose proof Hs as [E P H' L I W S N F]; rewrite <- I, <- L; destruct (x_index x <? x_hlen x)%nat.
  - inversion H; subst; eauto.
  - inversion H; subst; eauto.
  - rewrite <- H'. destruct (x_handlers x !! x_index x) as [h|] eqn:Hl; [|inversion H; subst; eauto].
    match type of H with context [Ctx.pexec _ _ ?nx _ _ _] => set (next := nx) in * end.
    destruct (pexec next (code h) x (log c (EvStart (x_index x)))) as [r1 [x1 c1]] eqn:Hp.
    assert (Hn : sim_fun next next hs).
    { intros a b cc r2 a' cc' Hab Ha Hc. unfold next in *. rewrite <- (sim_index _ _ Hab).
      apply (IH (set_index a (Datatypes.S (x_index a))) _ _ _ _ _); [by destruct Hab; constructor|exact Ha|exact Hc]. }
    assert (Hin : h ∈ hs) by (rewrite <- Hh; by eapply elem_of_list_lookup_2).
    destruct (pexec_sim next next hs (code h) Hn (Hcode h Hin) _ _ _ _ _ _ Hs Hh Hp) as (y1 & -> & Hs1 & Hh1).
    destruct r1 as [|v|]; [|inversion H; subst; eauto..].
    simpl in *. rewrite <- (sim_written _ _ Hs1), <- (sim_index _ _ Hs1).
    assert (Hb : sim (set_index x1 (Datatypes.S (x_index x1))) (set_index y1 (Datatypes.S (x_index x1)))) by (by destruct Hs1; constructor).
    destruct (x_written x1); [inversion H; subst; eauto|]. by apply (IH _ _ _ _ _ _ Hb Hh1).
  - inversion H; subst; eauto.
Qed.
End Sim.
