(** Recovered registration amounts to registration without panics. *)
From Verif Require Import Base GoStr Strconv Pattern Tree TreeSpec Router RouterTry RouterFacts Engine EngineSpec.

Section Facts.
Context {A : Type}.

Definition targ_all (P : top A -> Prop) (g : targ A) : Prop :=
  match g with TSub ts => Forall P ts | _ => True end.
Fixpoint top_ind' (P : top A -> Prop)
  (Hcall : forall t o, call_of t = Some o -> P t)
  (Hgroup : forall r pat args, Forall (targ_all P) args -> P (TGroup r pat args))
  (Htry : forall t, P t -> P (TTry t))
  (t : top A) {struct t} : P t :=
  match t with
  | TGroup r pat args => Hgroup r pat args
      ((fix go (l : list (targ A)) : Forall (targ_all P) l :=
         match l with
         | [] => Forall_nil_2 _
         | g :: l' => Forall_cons_2 (targ_all P) g l'
             (match g return targ_all P g with
              | TSub ts =>
                  (fix run (l : list (top A)) : Forall P l :=
                     match l with
                     | [] => Forall_nil_2 _
                     | o :: l' => Forall_cons_2 P o l' (top_ind' P Hcall Hgroup Htry o) (run l')
                     end) ts
              | _ => I
              end) (go l')
         end) args)
  | TTry t => Htry t (top_ind' P Hcall Hgroup Htry t)
  | TNew => Hcall TNew _ eq_refl
  | TBefore r hs => Hcall (TBefore r hs) _ eq_refl
  | TUse r hs => Hcall (TUse r hs) _ eq_refl
  | THandle r m p hs => Hcall (THandle r m p hs) _ eq_refl
  | TAny r e p hs => Hcall (TAny r e p hs) _ eq_refl
  end.

(** ** The arguments of Group, one after the other *)
Fixpoint gargs (r : nat) (args : list (garg A)) (hp : heap A) : res (heap A) :=
  match args with
  | [] => Ok hp
  | GMw a :: args' => gargs r args' (alter (set_befores (fun l => l ++ [IFuncCtx a])) r hp)
  | GSub ops :: args' => let! hp := run_ops ops hp in gargs r args' hp
  | GOther :: _ => Panic (L "unsupported type")
  end.
Lemma exec_group r p args hp : exec (RGroup r p args) hp = let! hp1 := exec (RGroup r p []) hp in gargs r args hp1.
Proof.
  cbn [exec]. destruct (deref hp r) as [x| |]; [|done|done]. cbn [rbind].
  generalize (alter (set_sub (fun l => l ++ [length hp])) r hp ++ [mkRouter [] p [] [] [] (Some r) [] false]). clear hp.
  induction args as [|[a|ops|] args IH]; intros hp; [done|apply IH| |done]. cbn [gargs].
  assert ((fix run (ops : list (rop A)) (hp : heap A) {struct ops} : res (heap A) :=
     match ops with [] => Ok hp | op :: ops' => let! hp := exec op hp in run ops' hp end) ops hp = run_ops ops hp) as ->.
  { revert hp. induction ops as [|o ops IHo]; intros hp; [done|]. cbn [run_ops]. destruct (exec o hp); cbn [rbind]; [apply IHo|done|done]. }
  destruct (run_ops ops hp) as [hp1| |]; cbn [rbind]; [apply IH|done|done].
Qed.
Fixpoint targs (r : nat) (args : list (targ A)) (hp : heap A) : heap A * option gostr :=
  match args with
  | [] => (hp, None)
  | TMw a :: args' => targs r args' (alter (set_befores (fun l => l ++ [IFuncCtx a])) r hp)
  | TSub ts :: args' => match trun ts hp with (hp, None) => targs r args' hp | stop => stop end
  | TOther :: _ => (hp, Some (L "unsupported type"))
  end.
Lemma texec_group r p args hp : texec (TGroup r p args) hp =
  match exec (RGroup r p []) hp with Ok hp1 => targs r args hp1 | Panic m => (hp, Some m) | Diverge => (hp, Some []) end.
Proof.
  cbn [exec texec]. unfold tderef. destruct (deref hp r) as [x| |]; [|done|done]. cbn [rbind].
  generalize (alter (set_sub (fun l => l ++ [length hp])) r hp ++ [mkRouter [] p [] [] [] (Some r) [] false]). clear hp.
  induction args as [|[a|ts|] args IH]; intros hp; [done|apply IH| |done]. cbn [targs].
  assert ((fix run (ts : list (top A)) (hp : heap A) {struct ts} : heap A * option gostr :=
     match ts with [] => (hp, None) | t :: ts' => match texec t hp with (hp, None) => run ts' hp | stop => stop end end) ts hp = trun ts hp) as ->.
  { revert hp. induction ts as [|t ts IHt]; intros hp; [done|]. cbn [trun]. destruct (texec t hp) as [hp1 [m|]]; [done|apply IHt]. }
  destruct (trun ts hp) as [hp1 [m|]]; [done|apply IH].
Qed.

(** ** Calls other than Group *)
Lemma deref_total (hp : heap A) r : (exists x, deref hp r = Ok x) \/ is_panic (deref hp r).
Proof. unfold deref. destruct (hp !! r) as [x|]; [destruct (r_leaf x)|]; [right; eexists; reflexivity|left; eauto|right; eexists; reflexivity]. Qed.
Lemma thandle_exec (hp : heap A) r m p hs : thandle hp r m p hs =
  match handle hp r m p hs with Ok hp' => (hp', None) | Panic msg => (hp, Some msg) | Diverge => (hp, Some []) end.
Proof. unfold thandle, tderef, handle. destruct (deref hp r); cbn [rbind]; [|done|done]. by destruct (existsb is_nil hs). Qed.
(** the check is the same for every method, so ANY is refused before it adds a route *)
Lemma deref_alter hp r x (y : router A) : deref hp r = Ok x -> is_ok (deref (alter (set_sub (fun l => l ++ [length hp])) r hp ++ [y]) r).
Proof.
  unfold deref. destruct (hp !! r) as [x'|] eqn:E; [|done]. destruct (r_leaf x') eqn:El; [done|]. intros _.
  rewrite lookup_app_l by (rewrite alter_length; by eapply lookup_lt_Some). rewrite list_lookup_alter, E. cbn. rewrite El. by eexists.
Qed.
Lemma tany_exec excl ms : forall (hp : heap A) r p hs, tany excl ms hp r p hs =
  match any_loop excl ms hp r p hs with Ok hp' => (hp', None) | Panic msg => (hp, Some msg) | Diverge => (hp, Some []) end.
Proof.
  induction ms as [|m ms IH]; intros hp r p hs; [done|]. cbn [tany any_loop]. destruct (existsb (seqb m) excl); [apply IH|].
  rewrite thandle_exec. destruct (handle hp r m p hs) as [hp1| |] eqn:Eh; cbn [rbind]; [|done|done].
  rewrite IH. unfold handle in Eh. destruct (deref hp r) as [x| |] eqn:Ed; [|done|done]. cbn [rbind] in Eh.
  destruct (existsb is_nil hs) eqn:En; [done|]. injection Eh as Eh.
  assert (is_ok (any_loop excl ms hp1 r p hs)) as (hp2 & ->); [|done].
  assert (is_ok (deref hp1 r)) as Hd by (rewrite <- Eh; by eapply deref_alter). clear -Hd En. revert hp1 Hd.
  induction ms as [|m ms IH]; intros hp [x Hx]; [by eexists|]. cbn [any_loop]. destruct (existsb (seqb m) excl); [apply IH; by eexists|].
  unfold handle. rewrite Hx. cbn [rbind]. rewrite En. cbn [rbind]. apply IH. by eapply deref_alter.
Qed.
Lemma texec_call (t : top A) o hp : call_of t = Some o -> texec t hp =
  match exec o hp with Ok hp' => (hp', None) | Panic m => (hp, Some m) | Diverge => (hp, Some []) end.
Proof.
  destruct t; intros [= <-]; cbn [texec exec].
  - done.
  - unfold tBefore, tderef, Before. destruct (deref hp r) as [x| |]; [|done|done]. cbn [rbind]. by destruct (negb (IsParent x)).
  - unfold tUse, tderef, Use. by destruct (deref hp r).
  - destruct (_HTTP_METHODS_NAMES !! m); [apply thandle_exec|done].
  - apply tany_exec.
Qed.
Lemma handle_total (hp : heap A) r m p hs : is_ok (handle hp r m p hs) \/ is_panic (handle hp r m p hs).
Proof.
  unfold handle. destruct (deref_total hp r) as [[x ->]|[msg ->]]; cbn [rbind]; [|right; by eexists].
  destruct (existsb is_nil hs); [right|left]; by eexists.
Qed.
Lemma exec_total t (o : rop A) hp : call_of t = Some o -> is_ok (exec o hp) \/ is_panic (exec o hp).
Proof.
  destruct t; intros [= <-]; cbn [exec].
  - left. by eexists.
  - unfold Before. destruct (deref_total hp r) as [[x ->]|[msg ->]]; cbn [rbind]; [|right; by eexists]. destruct (negb (IsParent x)); [right|left]; by eexists.
  - unfold Use. destruct (deref_total hp r) as [[x ->]|[msg ->]]; cbn [rbind]; [left|right]; by eexists.
  - destruct (_HTTP_METHODS_NAMES !! m); [apply handle_total|right; by eexists].
  - unfold ANY. generalize _HTTP_METHODS_NAMES. intros ms. revert hp. induction ms as [|m ms IH]; intros hp; [left; by eexists|]. cbn [any_loop].
    destruct (existsb (seqb m) excl); [apply IH|]. destruct (handle_total hp r m pattern hs) as [[hp1 ->]|[msg ->]]; cbn [rbind]; [apply IH|right; by eexists].
Qed.

(** ** Routers are kept *)
Definition keeps (hp hp' : heap A) : Prop := forall r, is_ok (deref hp r) -> is_ok (deref hp' r).
Lemma keeps_alter (f : router A -> router A) r hp tl : (forall x, r_leaf (f x) = r_leaf x) -> keeps hp (alter f r hp ++ tl).
Proof.
  intros Hf i [x Hx]. unfold deref in *. destruct (hp !! i) as [y|] eqn:E; [|done]. destruct (r_leaf y) eqn:El; [done|].
  rewrite lookup_app_l by (rewrite alter_length; by eapply lookup_lt_Some).
  destruct (decide (i = r)) as [->|Hne]; [rewrite list_lookup_alter, E|rewrite list_lookup_alter_ne, E by done]; cbn; rewrite ?Hf, El; by eexists.
Qed.
Lemma keeps_trans a b c : keeps a b -> keeps b c -> keeps a c.
Proof. intros H1 H2 r Hr. by apply H2, H1. Qed.
Lemma keeps_handle hp r m p hs hp' : handle hp r m p hs = Ok hp' -> keeps hp hp'.
Proof.
  unfold handle. destruct (deref hp r); [|done|done]. cbn [rbind]. destruct (existsb is_nil hs); [done|]. intros [= <-]. by apply keeps_alter.
Qed.
Lemma keeps_call t o hp hp' : call_of t = Some o -> exec o hp = Ok hp' -> keeps hp hp'.
Proof.
  destruct t; intros [= <-]; cbn [exec]; intros H.
  - injection H as <-. intros i [x Hx]. unfold NewRouter, deref in *. destruct (hp !! i) as [y|] eqn:E; [|done].
    rewrite lookup_app_l by (by eapply lookup_lt_Some). rewrite E. by eexists.
  - unfold Before in H. destruct (deref hp r) as [x| |]; [|done|done]. cbn [rbind] in H. destruct (negb (IsParent x)); [done|]. injection H as <-.
    rewrite <- (app_nil_r (alter _ _ _)). by apply keeps_alter.
  - unfold Use in H. destruct (deref hp r) as [x| |]; [|done|done]. injection H as <-. rewrite <- (app_nil_r (alter _ _ _)). by apply keeps_alter.
  - destruct (_HTTP_METHODS_NAMES !! m); [by eapply keeps_handle|done].
  - unfold ANY in H. revert hp H. generalize _HTTP_METHODS_NAMES. intros ms. induction ms as [|m ms IH]; intros hp H; [injection H as <-; by intros i Hi|].
    cbn [any_loop] in H. destruct (existsb (seqb m) excl); [by apply IH|]. destruct (handle hp r m pattern hs) as [hp1| |] eqn:Eh; [|done|done].
    eapply keeps_trans; [by eapply keeps_handle|]. by apply IH.
Qed.

(** ** The theorem *)
Definition good (t : top A) : Prop := forall hp, exists l,
  took t hp l (match (texec t hp).2 with None => true | _ => false end) (texec t hp).1 /\ run_ops l hp = Ok (texec t hp).1 /\ keeps hp (texec t hp).1.
Lemma run_app (l1 l2 : list (rop A)) hp : run_ops (l1 ++ l2) hp = let! hp1 := run_ops l1 hp in run_ops l2 hp1.
Proof. revert hp. induction l1 as [|o l1 IH]; intros hp; [done|]. cbn [app run_ops]. destruct (exec o hp); cbn [rbind]; [apply IH|done|done]. Qed.
Lemma good_list ts : Forall good ts -> forall hp, exists l,
  took_list ts hp l (match (trun ts hp).2 with None => true | _ => false end) (trun ts hp).1 /\ run_ops l hp = Ok (trun ts hp).1 /\ keeps hp (trun ts hp).1.
Proof.
  induction 1 as [|t ts Ht Hts IH]; intros hp.
  - exists []. split; [constructor|]. split; [done|]. by intros r Hr.
  - destruct (Ht hp) as (l1 & Ht1 & Hr1 & Hk1). cbn [trun]. destruct (texec t hp) as [hp1 [m|]]; cbn [fst snd] in *.
    + exists l1. split; [by constructor|done].
    + destruct (IH hp1) as (l2 & Ht2 & Hr2 & Hk2). exists (l1 ++ l2). split; [by econstructor|]. rewrite run_app, Hr1. split; [done|]. by eapply keeps_trans.
Qed.
Lemma good_args r args : Forall (targ_all good) args -> forall hp, is_ok (deref hp r) -> exists l,
  took_args r args hp l (match (targs r args hp).2 with None => true | _ => false end) (targs r args hp).1 /\
  gargs r l hp = Ok (targs r args hp).1 /\ keeps hp (targs r args hp).1.
Proof.
  induction 1 as [|g args Hg Hargs IH]; intros hp Hr.
  - exists []. split; [constructor|]. split; [done|]. by intros i Hi.
  - destruct g as [a|ts|]; cbn [targs].
    + assert (keeps hp (alter (set_befores (fun l => l ++ [IFuncCtx a])) r hp)) as Hk
        by (rewrite <- (app_nil_r (alter _ _ _)); by apply keeps_alter).
      destruct (IH _ (Hk r Hr)) as (l & Ht & Hg' & Hk'). exists (GMw a :: l). split; [|split; [done|by eapply keeps_trans]].
      econstructor; [|exact Ht]. cbn [exec]. unfold Use. destruct Hr as [x ->]. reflexivity.
    + destruct (good_list ts Hg hp) as (l1 & Ht1 & Hr1 & Hk1). destruct (trun ts hp) as [hp1 [m|]]; cbn [fst snd] in *.
      * exists [GSub l1]. split; [by constructor|]. cbn [gargs]. rewrite Hr1. done.
      * destruct (IH hp1 (Hk1 r Hr)) as (l & Ht & Hg' & Hk'). exists (GSub l1 :: l). split; [by econstructor|]. cbn [gargs]. rewrite Hr1.
        split; [done|by eapply keeps_trans].
    + exists []. split; [constructor|]. split; [done|]. by intros i Hi.
Qed.
Lemma all_good t : good t.
Proof.
  induction t as [t o Ho|r p args IH|t IH] using top_ind'; intros hp.
  - rewrite (texec_call t o hp Ho). destruct (exec_total t o hp Ho) as [[hp' E]|[m E]]; rewrite E; cbn [fst snd].
    + exists [o]. split; [by econstructor|]. cbn [run_ops]. rewrite E. split; [done|]. by eapply keeps_call.
    + exists []. split; [eapply took_refused; [done|by eexists]|]. split; [done|]. by intros i Hi.
  - rewrite texec_group. destruct (exec (RGroup r p []) hp) as [hp1|m|] eqn:E; cbn [fst snd].
    + assert (keeps hp hp1 /\ is_ok (deref hp1 r)) as [Hk1 Hr].
      { cbn [exec] in E. destruct (deref hp r) as [x| |] eqn:Ed; [|done|done]. cbn [rbind] in E. injection E as <-.
        assert (keeps hp (alter (set_sub (fun l => l ++ [length hp])) r hp ++ [mkRouter [] p [] [] [] (Some r) [] false])) as Hk by (by apply keeps_alter).
        split; [exact Hk|]. apply Hk. by eexists. }
      destruct (good_args r args IH hp1 Hr) as (l & Ht & Hg & Hk). exists [RGroup r p l]. split; [by econstructor|].
      cbn [run_ops]. rewrite exec_group, E. cbn [rbind]. rewrite Hg. split; [done|]. by eapply keeps_trans.
    + exists []. split; [eapply took_no_group; by eexists|]. split; [done|]. by intros i Hi.
    + exfalso. cbn [exec] in E. destruct (deref_total hp r) as [[x Ex]|[m Ex]]; rewrite Ex in E; done.
  - destruct (IH hp) as (l & Ht & Hr & Hk). cbn [texec fst snd]. exists l. split; [by econstructor|done].
Qed.
Lemma recovered (ts : list (top A)) hp hp' o : trun ts hp = (hp', o) ->
  exists l, took_list ts hp l (match o with None => true | _ => false end) hp' /\ run_ops l hp = Ok hp'.
Proof.
  intros H. destruct (good_list ts ltac:(apply Forall_forall; intros; apply all_good) hp) as (l & Ht & Hr & _). rewrite H in Ht, Hr. eauto.
Qed.
Lemma recovered_engine re_ok (ts : list (top A)) hp' o r opts e mem mem' : trun ts [] = (hp', o) -> Handler re_ok hp' r opts mem = (Ok e, mem') ->
  exists l, took_list ts [] l (match o with None => true | _ => false end) hp' /\ engine_of re_ok l r opts e.
Proof. intros H He. destruct (recovered _ _ _ _ H) as (l & Ht & Hr). exists l. split; [done|]. by exists hp', mem, mem'. Qed.
Lemma refused_call (t : top A) o hp m hp' : call_of t = Some o -> texec t hp = (hp', Some m) -> hp' = hp.
Proof. intros Ho. rewrite (texec_call t o hp Ho). destruct (exec o hp); intros H; [discriminate H|congruence|congruence]. Qed.

(** ** The ordinary registration is the special case without TTry *)
Fixpoint embed (o : rop A) : top A :=
  match o with
  | RNew => TNew
  | RBefore r hs => TBefore r hs
  | RUse r hs => TUse r hs
  | RHandle r m p hs => THandle r m p hs
  | RAny r e p hs => TAny r e p hs
  | RGroup r p args => TGroup r p
      ((fix go (l : list (garg A)) : list (targ A) :=
          match l with
          | [] => []
          | GMw a :: l' => TMw a :: go l'
          | GSub ops :: l' => TSub ((fix run (ops : list (rop A)) : list (top A) :=
              match ops with [] => [] | o :: ops' => embed o :: run ops' end) ops) :: go l'
          | GOther :: l' => TOther :: go l'
          end) args)
  end.
Definition agrees (o : rop A) : Prop := forall hp hp', exec o hp = Ok hp' -> texec (embed o) hp = (hp', None).
Lemma agree_list ops : Forall agrees ops -> forall hp hp', run_ops ops hp = Ok hp' -> trun (map embed ops) hp = (hp', None).
Proof.
  induction 1 as [|o ops Ho Hops IH]; intros hp hp' H; [by injection H as <-|]. cbn [run_ops map trun] in *.
  apply rbind_ok in H as (hp1 & H1 & H2). rewrite (Ho _ _ H1). by apply IH.
Qed.
Lemma agree o : agrees o.
Proof.
  induction o as [|r hs|r hs|r m pat hs|r ex pat hs|r pat args IH] using rop_ind'; intros hp hp' H;
    try (match goal with |- texec (embed ?o) _ = _ => rewrite (texec_call (embed o) o hp eq_refl), H; reflexivity end).
  rewrite exec_group in H. cbn [embed]. rewrite texec_group. apply rbind_ok in H as (hp1 & -> & H). clear hp. revert hp1 H.
  induction IH as [|g args Hg Hargs IHa]; intros hp H; [cbn in H; cbn; congruence|]. destruct g as [a|ops|]; cbn [gargs] in H; [|apply rbind_ok in H as (hp1 & H1 & H2)|done].
  - cbn [targs]. by apply IHa.
  - cbn [targs]. change ((fix run (ops0 : list (rop A)) : list (top A) :=
      match ops0 with [] => [] | o :: ops' => embed o :: run ops' end) ops) with (map embed ops).
    rewrite (agree_list ops Hg _ _ H1). by apply IHa.
Qed.
Lemma ordinary ops hp hp' : run_ops ops hp = Ok hp' -> trun (map embed ops) hp = (hp', None).
Proof. apply agree_list, Forall_forall. intros; apply agree. Qed.
End Facts.
