(** Registration with slices amounts to registration with the values seen. *)
From Verif Require Import Base GoStr Strconv Pattern Tree Router RouterTry RouterTryFacts Slices SliceSpec SliceMem SliceFacts.

Section Sim.
Context {A : Type}.
Variable spare : nat -> nat -> nat.
Local Notation sexec := (sexec (A := A) spare).
Local Notation srun := (srun (A := A) spare).
Local Notation sbefores := (sbefores (A := A) spare).
Local Notation sadd := (sadd (A := A) spare).
Local Notation seen := (seen (A := A) spare).
Local Notation seen_list := (seen_list (A := A) spare).
Implicit Types st : sstate A.

Definition sarg_all (P : sop A -> Prop) (g : sgarg A) : Prop :=
  match g with SSub ts => Forall P ts | _ => True end.
Definition simple (t : sop A) : bool := match t with SGroup _ _ _ | STry _ => false | _ => true end.
Fixpoint sop_ind' (P : sop A -> Prop)
  (Hcall : forall t, simple t = true -> P t)
  (Hgroup : forall r pat args, Forall (sarg_all P) args -> P (SGroup r pat args))
  (Htry : forall t, P t -> P (STry t))
  (t : sop A) {struct t} : P t :=
  match t with
  | SGroup r pat args => Hgroup r pat args
      ((fix go (l : list (sgarg A)) : Forall (sarg_all P) l :=
         match l with
         | [] => Forall_nil_2 _
         | g :: l' => Forall_cons_2 (sarg_all P) g l'
             (match g return sarg_all P g with
              | SSub ts =>
                  (fix run (l : list (sop A)) : Forall P l :=
                     match l with
                     | [] => Forall_nil_2 _
                     | o :: l' => Forall_cons_2 P o l' (sop_ind' P Hcall Hgroup Htry o) (run l')
                     end) ts
              | _ => I
              end) (go l')
         end) args)
  | STry t => Htry t (sop_ind' P Hcall Hgroup Htry t)
  | SNew => Hcall SNew eq_refl
  | SBefore r s => Hcall (SBefore r s) eq_refl
  | SUse r s => Hcall (SUse r s) eq_refl
  | SHandle r m p s => Hcall (SHandle r m p s) eq_refl
  | SAny r e p s => Hcall (SAny r e p s) eq_refl
  | SMake vs => Hcall (SMake vs) eq_refl
  | SPut a i v => Hcall (SPut a i v) eq_refl
  end.

(** ** The arguments of Group *)
Definition group_of r p x st : sstate A := sadd st r x (mkSR [] p s_nil s_nil s_nil (Some r) s_nil false).
Fixpoint sargs (r : nat) (args : list (sgarg A)) (st : sstate A) : sstate A * option gostr :=
  match args with
  | [] => (st, None)
  | SMw a :: args' => sargs r args' (sbefores st r [IFuncCtx a])
  | SSub ts :: args' => match srun ts st with (st, None) => sargs r args' st | stop => stop end
  | SOther :: _ => (st, Some (L "unsupported type"))
  end.
Lemma sexec_group r p args st : sexec (SGroup r p args) st = sderef st r (fun x => sargs r args (group_of r p x st)).
Proof.
  cbn [Slices.sexec]. unfold sderef. destruct (st_rs st !! r) as [x|]; [|done]. destruct (sr_leaf x); [done|].
  unfold group_of. generalize (sadd st r x (mkSR [] p s_nil s_nil s_nil (Some r) s_nil false)). clear st.
  induction args as [|[a|ts|] args IH]; intros st; [done|apply IH| |done]. cbn [sargs].
  assert ((fix run (ts : list (sop A)) (st : sstate A) {struct ts} : sstate A * option gostr :=
     match ts with [] => (st, None) | t :: ts' => match sexec t st with (st, None) => run ts' st | stop => stop end end) ts st = srun ts st) as ->.
  { revert st. induction ts as [|t ts IHt]; intros st; [done|]. cbn [Slices.srun]. destruct (sexec t st) as [st1 [m|]]; [done|apply IHt]. }
  destruct (srun ts st) as [st1 [m|]]; [done|apply IH].
Qed.
Fixpoint after_list (ts : list (sop A)) (st : sstate A) : sstate A :=
  match ts with [] => st | t :: ts' => after_list ts' (sexec t st).1 end.
Fixpoint seen_args (r : nat) (args : list (sgarg A)) (st : sstate A) : list (targ A) :=
  match args with
  | [] => []
  | SMw a :: args' => TMw a :: seen_args r args' (sbefores st r [IFuncCtx a])
  | SSub ts :: args' => TSub (seen_list ts st) :: seen_args r args' (after_list ts st)
  | SOther :: args' => TOther :: seen_args r args' st
  end.
Lemma seen_group r p args st : seen (SGroup r p args) st =
  [TGroup r p (seen_args r args (match st_rs st !! r with Some x => group_of r p x st | None => st end))].
Proof.
  cbn [SliceSpec.seen]. f_equal. f_equal. unfold group_of.
  generalize (match st_rs st !! r with Some x => sadd st r x (mkSR [] p s_nil s_nil s_nil (Some r) s_nil false) | None => st end). clear st.
  induction args as [|[a|ts|] args IH]; intros st; [done|by cbn [seen_args]; rewrite <- IH| |by cbn [seen_args]; rewrite <- IH].
  cbn [seen_args].
  assert (E1 : (fix run (ts : list (sop A)) (st : sstate A) {struct ts} : list (top A) :=
     match ts with [] => [] | t :: ts' => seen t st ++ run ts' (sexec t st).1 end) ts st = seen_list ts st).
  { clear. revert st. induction ts as [|t ts IHt]; intros st; [done|]. cbn [SliceSpec.seen_list]. by rewrite IHt. }
  assert (E2 : (fix run (ts : list (sop A)) (st : sstate A) {struct ts} : sstate A :=
     match ts with [] => st | t :: ts' => run ts' (sexec t st).1 end) ts st = after_list ts st).
  { clear. revert st. induction ts as [|t ts IHt]; intros st; [done|]. cbn [after_list]. by rewrite IHt. }
  rewrite E1, E2, <- IH. done.
Qed.
Lemma after_run ts : forall st st', srun ts st = (st', None) -> after_list ts st = st'.
Proof.
  induction ts as [|t ts IH]; intros st st'; cbn [Slices.srun after_list]; [congruence|].
  destruct (sexec t st) as [st1 [m|]]; [done|]. apply IH.
Qed.

(** ** What calls do to routers does not depend on handlers of routes *)
Local Notation bare := (bare (A := A)).
Local Notation bares := (map bare).
Lemma bares_lookup (hp hp' : heap A) i : bares hp = bares hp' ->
  match hp !! i, hp' !! i with Some x, Some y => bare x = bare y | None, None => True | _, _ => False end.
Proof.
  intros H. assert (E : (bare <$> hp) !! i = (bare <$> hp') !! i) by (unfold fmap; by rewrite <- (f_equal (fun l => l !! i) H)).
  rewrite !list_lookup_fmap in E. destruct (hp !! i), (hp' !! i); try done. cbn in E. congruence.
Qed.
Lemma bares_length (hp hp' : heap A) : bares hp = bares hp' -> length hp = length hp'.
Proof. intros H. apply (f_equal length) in H. by rewrite !map_length in H. Qed.
Lemma bares_alter (f : router A -> router A) (hp hp' : heap A) r : (forall x, bare (f x) = f (bare x)) ->
  bares hp = bares hp' -> bares (alter f r hp) = bares (alter f r hp').
Proof.
  intros Hf. assert (E : forall l : heap A, bares (alter f r l) = alter f r (bares l)).
  { intros l. exact (list_alter_fmap bare f f l r ltac:(apply Forall_forall; intros; apply Hf)). }
  intros H. by rewrite !E, H.
Qed.
Lemma bares_deref (hp hp' : heap A) r : bares hp = bares hp' ->
  match deref hp r, deref hp' r with Ok x, Ok y => bare x = bare y | Panic m, Panic n => m = n | _, _ => False end.
Proof.
  intros H. pose proof (bares_lookup _ _ r H) as Hr. unfold deref. destruct (hp !! r) as [x|], (hp' !! r) as [y|]; try done.
  pose proof (f_equal r_leaf Hr) as Hl. cbn in Hl. rewrite Hl. by destruct (r_leaf y).
Qed.
Definition alike (a b : heap A * option gostr) : Prop := bares a.1 = bares b.1 /\ a.2 = b.2.
Lemma alike_deref hp hp' r k k' : bares hp = bares hp' -> (forall x y, bare x = bare y -> alike (k x) (k' y)) ->
  alike (tderef hp r k) (tderef hp' r k').
Proof.
  intros H Hk. pose proof (bares_deref _ _ r H) as Hd. unfold tderef. destruct (deref hp r), (deref hp' r); try done; [by apply Hk|].
  subst. done.
Qed.
Lemma alike_handle hp hp' r m p hs : bares hp = bares hp' -> alike (thandle hp r m p hs) (thandle hp' r m p hs).
Proof.
  intros H. unfold thandle. apply alike_deref; [done|]. intros x y Hxy. destruct (existsb is_nil hs); [done|]. split; [|done]. cbn [fst].
  rewrite !map_app. f_equal. rewrite (bares_length _ _ H). by apply bares_alter.
Qed.
Lemma alike_any excl p hs r ms : forall hp hp', bares hp = bares hp' -> alike (tany excl ms hp r p hs) (tany excl ms hp' r p hs).
Proof.
  induction ms as [|m ms IH]; intros hp hp' H; [done|]. cbn [tany]. destruct (existsb _ _); [by apply IH|].
  destruct (alike_handle hp hp' r m p hs H) as [H1 H2]. destruct (thandle hp r m p hs) as [h1 e1], (thandle hp' r m p hs) as [h2 e2].
  cbn [fst snd] in *. subst. destruct e2; [done|by apply IH].
Qed.
Definition aliket (t : top A) : Prop := forall hp hp', bares hp = bares hp' -> alike (texec t hp) (texec t hp').
Lemma alike_run ts : Forall aliket ts -> forall hp hp', bares hp = bares hp' -> alike (trun ts hp) (trun ts hp').
Proof.
  induction 1 as [|t ts Ht _ IH]; intros hp hp' H; [done|]. cbn [trun]. destruct (Ht _ _ H) as [H1 H2].
  destruct (texec t hp) as [h1 e1], (texec t hp') as [h2 e2]. cbn [fst snd] in *. subst. destruct e2; [done|by apply IH].
Qed.
Lemma alike_args r args : Forall (targ_all aliket) args -> forall hp hp', bares hp = bares hp' -> alike (targs r args hp) (targs r args hp').
Proof.
  induction 1 as [|[a|ts|] args Ha _ IH]; intros hp hp' H; [done|..|done]; cbn [targs].
  - apply IH. by apply bares_alter.
  - destruct (alike_run ts Ha _ _ H) as [H1 H2].
    destruct (trun ts hp) as [h1 e1], (trun ts hp') as [h2 e2]. cbn [fst snd] in *. subst. destruct e2; [done|by apply IH].
Qed.
Lemma alike_exec t : aliket t.
Proof.
  induction t as [t o Ho|r p args IH|t IH] using top_ind'; intros hp hp' H.
  - destruct t as [|r hs|r hs|r m p hs|r excl p hs|r p args|t]; cbn [texec]; try done.
    + split; [|done]. cbn [fst]. unfold NewRouter. by rewrite !map_app, H.
    + unfold tBefore. apply alike_deref; [done|]. intros x y Hxy. pose proof (f_equal r_parent Hxy) as Hp. cbn in Hp.
      unfold IsParent. rewrite Hp. destruct (r_parent y); [done|]. split; [|done]. by apply bares_alter.
    + unfold tUse. apply alike_deref; [done|]. intros x y Hxy. split; [|done]. by apply bares_alter.
    + destruct (_HTTP_METHODS_NAMES !! m); [by apply alike_handle|done].
    + by apply alike_any.
  - rewrite !texec_group. cbn [exec]. pose proof (bares_deref _ _ r H) as Hd.
    destruct (deref hp r), (deref hp' r); try done; cbn [rbind]; [|by subst].
    apply alike_args; [done|]. rewrite !map_app. f_equal. rewrite (bares_length _ _ H). by apply bares_alter.
  - cbn [texec]. split; [|done]. apply (IH _ _ H).
Qed.
Lemma alike_trun ts hp hp' : bares hp = bares hp' -> alike (trun ts hp) (trun ts hp').
Proof. apply alike_run. apply Forall_forall. intros t _. apply alike_exec. Qed.

(** ** The simulation *)
Definition good (r : sstate A * option gostr) (seen : list (top A)) (st : sstate A) : Prop :=
  Inv r.1 /\ (st_hit r.1 = false -> st_hit st = false /\ trun seen (abs st) = (abs r.1, r.2)) /\
  alike (trun seen (abs st)) (abs r.1, r.2).
Lemma good_exact r l st : Inv r.1 -> st_hit r.1 = st_hit st -> trun l (abs st) = (abs r.1, r.2) -> good r l st.
Proof. intros H1 H2 H3. split; [done|]. rewrite H3. split; [|done]. intros H. split; congruence. Qed.

Lemma trun_one (t : top A) hp : trun [t] hp = texec t hp.
Proof. cbn [trun]. destruct (texec t hp) as [hp' [m|]]; done. Qed.
Lemma trun_app (l1 l2 : list (top A)) hp : trun (l1 ++ l2) hp =
  match trun l1 hp with (hp, None) => trun l2 hp | stop => stop end.
Proof.
  revert hp. induction l1 as [|t l1 IH]; intros hp; [done|]. cbn [trun app]. destruct (texec t hp) as [hp' [m|]]; [done|apply IH].
Qed.

Lemma hit_befores st r vs : st_hit (sbefores st r vs) = st_hit st.
Proof. unfold Slices.sbefores. destruct (st_rs st !! r); [|done]. by destruct (sappend _ _ _ _ _). Qed.
Lemma hit_add st r x y : st_hit (sadd st r x y) = st_hit st.
Proof. unfold Slices.sadd. by destruct (sappend _ _ _ _ _). Qed.
Lemma ists_add st r x y : st_i (sadd st r x y) = st_i st.
Proof. unfold Slices.sadd. by destruct (sappend _ _ _ _ _). Qed.

(** what deref and sderef have in common *)
Lemma deref_abs st r :
  (exists x, st_rs st !! r = Some x /\ sr_leaf x = false /\ deref (abs st) r = Ok (abs_router st x) /\
     forall k, sderef st r k = k x) \/
  deref (abs st) r = Panic (L "no such router") /\ forall k, sderef st r k = (st, Some (L "no such router")).
Proof.
  unfold deref, sderef. rewrite abs_lookup. destruct (st_rs st !! r) as [x|]; cbn [fmap option_fmap option_map]; [|by right].
  cbn [r_leaf abs_router]. destruct (sr_leaf x) eqn:El; [by right|left]. by exists x.
Qed.

Lemma handle_good st r m p s : Inv st -> client_slice (st_i st) s = true ->
  Inv (shandle spare st r m p s).1 /\ st_hit (shandle spare st r m p s).1 = st_hit st /\
  st_i (shandle spare st r m p s).1 = st_i st /\
  thandle (abs st) r m p (sread (st_i st) s) = (abs (shandle spare st r m p s).1, (shandle spare st r m p s).2).
Proof.
  intros Hi Hs. unfold shandle, thandle, tderef.
  destruct (deref_abs st r) as [(x & Hx & Hl & Ed & Es)|[Ed Es]]; rewrite Ed, Es; [|done].
  destruct (existsb is_nil (sread (st_i st) s)); [done|]. cbn [fst snd].
  destruct (step_add spare st r x (mkSR m p s_nil s_nil s (Some r) s_nil true) Hi Hx eq_refl eq_refl eq_refl (client_own _ _ Hs)) as [H1 H2].
  rewrite hit_add, ists_add. split_and!; try done. rewrite H2. f_equal. f_equal. f_equal. unfold abs_router. cbn.
  rewrite !(read_empty _ s_nil) by done. done.
Qed.

Lemma any_good excl p s r ms : forall st, Inv st -> client_slice (st_i st) s = true ->
  Inv (sany spare excl ms st r p s).1 /\ st_hit (sany spare excl ms st r p s).1 = st_hit st /\
  tany excl ms (abs st) r p (sread (st_i st) s) = (abs (sany spare excl ms st r p s).1, (sany spare excl ms st r p s).2).
Proof.
  induction ms as [|m ms IH]; intros st Hi Hs; [done|]. cbn [sany tany]. destruct (existsb (seqb m) excl); [by apply IH|].
  destruct (handle_good st r m p s Hi Hs) as (H1 & H2 & H3 & H4). rewrite H4.
  destruct (shandle spare st r m p s) as [st1 [e|]]; cbn [fst snd] in *; [done|].
  rewrite <- H3 in Hs |- *. rewrite <- H2. by apply IH.
Qed.

Lemma step_put_bare st arr i v : Inv st -> bares (abs (sput st arr i v).1) = bares (abs st).
Proof.
  intros [Io Is Ix]. unfold sput. destruct (st_i st !! arr) as [a|] eqn:Ea; [|done].
  destruct (a_client a && (i <? length (a_cells a))) eqn:Hc; [|done].
  apply andb_true_iff in Hc as [Hc Hi]. cbn [fst].
  unfold abs. cbn [st_rs]. rewrite !map_map. apply map_ext_in. intros x Hx%elem_of_list_In%elem_of_list_lookup_1.
  destruct Hx as [j Hx]. destruct (Io _ _ Hx) as (O1 & O2 & O3 & O4).
  assert (Hf : forall s, own false (st_i st) s -> sread (alter (put i [v]) arr (st_i st)) s = sread (st_i st) s).
  { intros s Hs. destruct (decide (s_cap s = 0)) as [Hz|Hz].
    - destruct Hs as [Hs _]. by rewrite !read_empty by lia.
    - apply read_alter_ne. intros ->. destruct Hs as [_ [?|(a' & H1 & H2 & _)]]; [lia|]. congruence. }
  unfold SliceSpec.bare, abs_router. cbn. by rewrite !Hf.
Qed.

Lemma simple_good t st : simple t = true -> Inv st -> good (sexec t st) (seen t st) st.
Proof.
  intros Ht Hi. destruct t as [|r s|r s|r m p s|r excl p s|r p args|t|vs|arr i v]; try done; cbn [Slices.sexec SliceSpec.seen].
  - apply good_exact; cbn [fst snd st_hit]; [|done|].
    + destruct Hi as [Io Is Ix].
      assert (Hlk : forall i x, (st_rs st ++ [mkSR [] [] s_nil s_nil s_nil None s_nil false]) !! i = Some x ->
        st_rs st !! i = Some x \/ (i = length (st_rs st) /\ x = mkSR [] [] s_nil s_nil s_nil None s_nil false)).
      { intros i x H. apply lookup_app_Some in H as [H|[Hl H]]; [by left|right].
        destruct (i - length (st_rs st)) eqn:E; [|done]. injection H as <-. split; [lia|done]. }
      split; cbn [st_rs st_i st_r].
      * intros i x H. apply Hlk in H as [H|[_ ->]]; [by eapply Io|]. cbn. split_and!; apply own_nil.
      * intros i j x y Hx Hy Hij. apply Hlk in Hx as [Hx|[-> ->]], Hy as [Hy|[-> ->]]; [by eapply Is|..|done].
        -- split_and!; apply disj_nil.
        -- split_and!; apply disj_sym, disj_nil.
      * intros i j x y Hx Hy. apply Hlk in Hx as [Hx|[-> ->]], Hy as [Hy|[-> ->]]; [by eapply Ix|..].
        -- apply disj_nil.
        -- apply disj_sym, disj_nil.
        -- apply disj_nil.
    + cbn [trun texec]. f_equal. unfold NewRouter, abs. cbn [st_rs]. rewrite map_app. cbn [map].
      unfold abs_router. cbn. by rewrite !read_empty.
  - unfold sarg. destruct (client_slice (st_i st) s) eqn:Hs; [|done].
    apply good_exact; rewrite ?trun_one; cbn [texec];
    unfold sBefore, tBefore, tderef; destruct (deref_abs st r) as [(x & Hx & Hl & Ed & Es)|[Ed Es]]; rewrite ?Ed, ?Es; try done;
    unfold IsParent; cbn [abs_router r_parent]; destruct (sr_parent x); try done; cbn [negb];
    destruct (sappend INil spare (st_i st) (sr_gbefores x) (sread (st_i st) s)) as [m g] eqn:Ea;
    destruct (step_gbefores spare st r x _ m g Hi Hx Ea) as [H1 H2]; cbn [fst snd st_hit]; [done|done|]. by rewrite H2.
  - unfold sarg. destruct (client_slice (st_i st) s) eqn:Hs; [|done].
    apply good_exact; rewrite ?trun_one; cbn [texec];
    unfold sUse, tUse, tderef; destruct (deref_abs st r) as [(x & Hx & Hl & Ed & Es)|[Ed Es]]; rewrite ?Ed, ?Es; try done;
    destruct (step_befores spare st r (sread (st_i st) s) Hi) as [H1 H2]; cbn [fst snd]; [done|by rewrite hit_befores|by rewrite H2].
  - unfold sarg. destruct (client_slice (st_i st) s) eqn:Hs; [|done].
    destruct (_HTTP_METHODS_NAMES !! m) as [name|] eqn:En.
    + destruct (handle_good st r name p s Hi Hs) as (H1 & H2 & H3 & H4). apply good_exact; [done|done|].
      rewrite trun_one. cbn [texec]. by rewrite En, H4.
    + apply good_exact; [done|done|]. rewrite trun_one. cbn [texec]. by rewrite En.
  - unfold sarg. destruct (client_slice (st_i st) s) eqn:Hs; [|done].
    destruct (any_good excl p s r _HTTP_METHODS_NAMES st Hi Hs) as (H1 & H2 & H3). apply good_exact; [done|done|].
    rewrite trun_one. cbn [texec]. by rewrite H3.
  - destruct (step_make st vs Hi) as [H1 H2]. apply good_exact; [done|done|]. cbn [trun fst snd]. by rewrite H2.
  - destruct (step_put st arr i v Hi) as (H1 & H2 & H3). split; [done|]. split.
    + intros Hh. destruct (H3 Hh) as [H4 H5]. split; [done|]. cbn [trun]. by rewrite H5, H2.
    + split; cbn [trun fst snd]; [by rewrite step_put_bare|done].
Qed.

Definition goodt (t : sop A) : Prop := forall st, Inv st -> good (sexec t st) (seen t st) st.
Lemma run_good ts : Forall goodt ts -> forall st, Inv st -> good (srun ts st) (seen_list ts st) st.
Proof.
  induction 1 as [|t ts Ht _ IH]; intros st Hi; [done|]. unfold good. cbn [Slices.srun SliceSpec.seen_list].
  destruct (Ht st Hi) as (H1 & H2 & H0). rewrite trun_app. destruct (sexec t st) as [st1 [m|]]; cbn [fst snd] in *.
  - split; [done|]. split.
    + intros Hh. destruct (H2 Hh) as [? ->]. done.
    + destruct H0 as [E1 E2]. cbn in E1, E2. destruct (trun (seen t st) (abs st)) as [hp e]. cbn in *. subst e. done.
  - destruct (IH st1 H1) as (H3 & H4 & H5). split; [done|]. split.
    + intros Hh. destruct (H4 Hh) as [H6 H7]. destruct (H2 H6) as [H8 ->]. done.
    + destruct H0 as [E1 E2]. cbn in E1, E2. destruct (trun (seen t st) (abs st)) as [hp e]. cbn [fst snd] in *. subst e.
      destruct (alike_trun (seen_list ts st1) _ _ E1) as [F1 F2]. destruct H5 as [G1 G2]. split; [congruence|].
      rewrite F2. done.
Qed.
Lemma args_good r args : Forall (sarg_all goodt) args -> forall st, Inv st ->
  Inv (sargs r args st).1 /\
  (st_hit (sargs r args st).1 = false -> st_hit st = false /\
     targs r (seen_args r args st) (abs st) = (abs (sargs r args st).1, (sargs r args st).2)) /\
  alike (targs r (seen_args r args st) (abs st)) (abs (sargs r args st).1, (sargs r args st).2).
Proof.
  induction 1 as [|[a|ts|] args Ha _ IH]; intros st Hi; [done|..|done]; cbn [sargs seen_args targs].
  - destruct (step_befores spare st r [IFuncCtx a] Hi) as [H1 H2]. rewrite <- (hit_befores st r [IFuncCtx a]), <- H2. by apply IH.
  - cbn in Ha. destruct (run_good ts Ha st Hi) as (H1 & H2 & H0). destruct (srun ts st) as [st1 [m|]] eqn:E; cbn [fst snd] in *.
    + split; [done|]. split.
      * intros Hh. destruct (H2 Hh) as [? ->]. done.
      * destruct H0 as [E1 E2]. cbn in E1, E2. destruct (trun (seen_list ts st) (abs st)) as [hp e]. cbn in *. subst e. done.
    + rewrite (after_run _ _ _ E). destruct (IH st1 H1) as (H3 & H4 & H5). split; [done|]. split.
      * intros Hh. destruct (H4 Hh) as [H6 H7]. destruct (H2 H6) as [H8 ->]. done.
      * destruct H0 as [E1 E2]. cbn in E1, E2. destruct (trun (seen_list ts st) (abs st)) as [hp e]. cbn [fst snd] in *. subst e.
        destruct (alike_args r (seen_args r args st1) ltac:(apply Forall_forall; intros [| |] _; cbn; try done; apply Forall_forall; intros; apply alike_exec) _ _ E1) as [F1 F2].
        destruct H5 as [G1 G2]. split; [congruence|]. rewrite F2. done.
Qed.
Lemma seen_one t : forall st, seen t st = [] \/ exists u, seen t st = [u].
Proof.
  induction t; intros st; cbn [SliceSpec.seen]; try (destruct (client_slice _ _)); try (by left); try (by right; eexists).
  destruct (IHt st) as [E|[u E]]; rewrite E; [by left|right; by eexists].
Qed.
Lemma exec_good t : goodt t.
Proof.
  induction t as [t Ht|r p args IH|t IH] using sop_ind'; intros st Hi.
  - by apply simple_good.
  - unfold good. rewrite sexec_group, seen_group, trun_one, texec_group. cbn [exec].
    destruct (deref_abs st r) as [(x & Hx & Hl & Ed & Es)|[Ed Es]]; rewrite Ed, Es; cbn [rbind]; [|done]. rewrite Hx.
    destruct (step_add spare st r x (mkSR [] p s_nil s_nil s_nil (Some r) s_nil false) Hi Hx eq_refl eq_refl eq_refl (own_nil _ _)) as [H1 H2].
    fold (group_of r p x st) in H1, H2.
    replace (mkRouter [] p [] [] [] (Some r) [] false) with (abs_router st (mkSR [] p s_nil s_nil s_nil (Some r) s_nil false))
      by (unfold abs_router; cbn; by rewrite !read_empty).
    rewrite <- H2. destruct (args_good r args IH _ H1) as (H3 & H4 & H0). split; [done|]. split; [|done]. intros Hh. destruct (H4 Hh) as [H5 H6].
    unfold group_of in H5. rewrite hit_add in H5. done.
  - unfold good. cbn [Slices.sexec SliceSpec.seen fst snd]. destruct (IH st Hi) as (H1 & H2 & H0). split; [done|].
    destruct (seen_one t st) as [E|[u E]]; rewrite E in *; cbn [map].
    + cbn [trun] in *. split; [|by destruct H0]. intros Hh. destruct (H2 Hh) as [H3 H4]. split; [done|]. congruence.
    + rewrite trun_one in *. cbn [texec]. split.
      * intros Hh. destruct (H2 Hh) as [H3 H4]. rewrite H4. done.
      * destruct H0 as [F1 F2]. done.
Qed.
Lemma srun_good ts st : Inv st -> good (srun ts st) (seen_list ts st) st.
Proof. apply run_good. apply Forall_forall. intros t _. apply exec_good. Qed.
End Sim.
