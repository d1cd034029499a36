(** Programs of registration steps and Handler() calls. *)
From Verif Require Import Base GoStr Strconv Pattern Tree Router RouterTry RouterTryFacts Slices SliceSpec SliceMem SliceFacts SliceSim SliceHandler.

Section Acts.
Context {A : Type}.
Variable spare : nat -> nat -> nat.
Local Notation sexec := (sexec (A := A) spare).
Local Notation srun := (srun (A := A) spare).
Local Notation sbefores := (sbefores (A := A) spare).
Local Notation sadd := (sadd (A := A) spare).
Local Notation seen := (seen (A := A) spare).
Local Notation act := (act (A := A) spare).
Local Notation acts := (acts (A := A) spare).
Local Notation calls := (calls (A := A) spare).
Local Notation bares := (map (bare (A := A))).
Implicit Types st : sstate A.

Lemma opts_okb st opts : forallb (opt_okb st) opts = true -> Forall (opt_ok st) opts.
Proof.
  intros H. apply Forall_forall. intros f Hf%elem_of_list_In. rewrite forallb_forall in H. specialize (H f Hf). by destruct f.
Qed.

(** ** Registration leaves the arrays of Handler alone *)
Lemma h_befores st r vs : st_h (sbefores st r vs) = st_h st.
Proof. unfold Slices.sbefores. destruct (st_rs st !! r); [|done]. by destruct (sappend _ _ _ _ _). Qed.
Lemma h_add st r x y : st_h (sadd st r x y) = st_h st.
Proof. unfold Slices.sadd. by destruct (sappend _ _ _ _ _). Qed.
Lemma h_handle st r m p s : st_h (shandle spare st r m p s).1 = st_h st.
Proof.
  unfold shandle, sderef. destruct (st_rs st !! r); [|done]. destruct (sr_leaf _); [done|]. destruct (existsb _ _); [done|]. cbn [fst]. apply h_add.
Qed.
Lemma h_any excl p s r ms : forall st, st_h (sany spare excl ms st r p s).1 = st_h st.
Proof.
  induction ms as [|m ms IH]; intros st; [done|]. cbn [sany]. destruct (existsb _ _); [done|].
  pose proof (h_handle st r m p s) as H. destruct (shandle spare st r m p s) as [st1 [e|]]; cbn [fst] in *; [done|]. by rewrite IH.
Qed.
Definition h_same (t : sop A) : Prop := forall st, st_h (sexec t st).1 = st_h st.
Lemma h_run ts : Forall h_same ts -> forall st, st_h (srun ts st).1 = st_h st.
Proof.
  induction 1 as [|t ts Ht _ IH]; intros st; [done|]. cbn [Slices.srun]. specialize (Ht st).
  destruct (sexec t st) as [st1 [e|]]; cbn [fst] in *; [done|]. by rewrite IH.
Qed.
Lemma h_args r args : Forall (sarg_all h_same) args -> forall st, st_h (sargs spare r args st).1 = st_h st.
Proof.
  induction 1 as [|[a|ts|] args Ha _ IH]; intros st; [done|..|done]; cbn [sargs].
  - by rewrite IH, h_befores.
  - pose proof (h_run ts Ha st) as H. destruct (srun ts st) as [st1 [e|]]; cbn [fst] in *; [done|]. by rewrite IH.
Qed.
Lemma h_exec t : h_same t.
Proof.
  induction t as [t Ht|r p args IH|t IH] using sop_ind'; intros st.
  - destruct t as [|r s|r s|r m p s|r excl p s|r p args|t|vs|arr i v]; try done; cbn [Slices.sexec].
    + unfold sarg. destruct (client_slice _ _); [|done]. unfold sBefore, sderef. destruct (st_rs st !! r); [|done].
      destruct (sr_leaf _); [done|]. destruct (sr_parent _); [done|]. cbn [negb]. by destruct (sappend _ _ _ _ _).
    + unfold sarg. destruct (client_slice _ _); [|done]. unfold sUse, sderef. destruct (st_rs st !! r); [|done].
      destruct (sr_leaf _); [done|]. cbn [fst]. apply h_befores.
    + unfold sarg. destruct (client_slice _ _); [|done]. destruct (_HTTP_METHODS_NAMES !! m); [|done]. apply h_handle.
    + unfold sarg. destruct (client_slice _ _); [|done]. apply h_any.
    + unfold sput. destruct (st_i st !! arr); [|done]. by destruct (_ && _).
  - rewrite sexec_group. unfold sderef. destruct (st_rs st !! r); [|done]. destruct (sr_leaf _); [done|].
    rewrite h_args by done. apply h_add.
  - cbn [Slices.sexec fst]. apply IH.
Qed.

(** ** Programs *)
Lemma act_inv st a : Inv st -> Inv (act st a).
Proof.
  intros I. destruct a as [t|r opts]; cbn [SliceSpec.act]; [apply (exec_good spare t st I)|].
  destruct (forallb (opt_okb st) opts) eqn:Eo; [|done]. apply opts_okb in Eo.
  pose proof (sHandler_same spare st r opts I Eo) as H. destruct (sHandler spare st r opts) as [[st' e]| |]; [|done|done].
  destruct (part1 _ _ _); [|done|done]. destruct H as [H _]. by eapply grows_inv.
Qed.
Lemma acts_inv l : forall st, Inv st -> Inv (acts l st).
Proof. induction l as [|a l IH]; intros st I; [done|]. apply IH. by apply act_inv. Qed.
Lemma act_h st a : Inv st -> extends (st_h st) (st_h (act st a)).
Proof.
  intros I. destruct a as [t|r opts]; cbn [SliceSpec.act]; [by rewrite h_exec|].
  destruct (forallb (opt_okb st) opts) eqn:Eo; [|done]. apply opts_okb in Eo.
  pose proof (sHandler_same spare st r opts I Eo) as H. destruct (sHandler spare st r opts) as [[st' e]| |]; [|done|done].
  destruct (part1 _ _ _); [|done|done]. destruct H as [H _]. apply H.
Qed.
Lemma acts_h l : forall st, Inv st -> extends (st_h st) (st_h (acts l st)).
Proof.
  induction l as [|a l IH]; intros st I; [done|]. eapply ext_trans; [by apply act_h|]. apply IH. by apply act_inv.
Qed.

Lemma engine_snapshot re_ok l l' r opts st' e : let st := acts l st_empty in
  forallb (opt_okb st) opts = true -> sHandler spare st r opts = Ok (st', e) ->
  engine_at re_ok (acts l' st') e = engine_at re_ok st' e.
Proof.
  intros st Ho E. assert (I : Inv st) by apply acts_inv, inv_empty. apply opts_okb in Ho.
  pose proof (sHandler_same spare st r opts I Ho) as H. rewrite E in H. destruct (part1 _ _ _); [|done|done].
  destruct H as (H1 & H2 & _). cbn [fst snd] in *. apply engine_ext; [done|]. apply acts_h. by eapply grows_inv.
Qed.

(** ** What the calls mean *)
Lemma trun_try (ts : list (top A)) hp : exists hp', trun (map TTry ts) hp = (hp', None).
Proof. revert hp. induction ts as [|t ts IH]; intros hp; [by eexists|]. cbn [map trun texec]. apply IH. Qed.
Lemma act_hit st a : Inv st -> st_hit (act st a) = false -> st_hit st = false.
Proof.
  intros I. destruct a as [t|r opts]; cbn [SliceSpec.act]. { intros H. by apply (exec_good spare t st I). }
  destruct (forallb (opt_okb st) opts) eqn:Eo; [|done]. apply opts_okb in Eo.
  pose proof (sHandler_same spare st r opts I Eo) as H. destruct (sHandler spare st r opts) as [[st' e]| |]; [|done|done].
  destruct (part1 _ _ _); [|done|done]. destruct H as [(_ & _ & _ & _ & H) _]. cbn [fst] in H. congruence.
Qed.
Lemma acts_hit l : forall st, Inv st -> st_hit (acts l st) = false -> st_hit st = false.
Proof.
  induction l as [|a l IH]; intros st I H; [done|]. eapply act_hit; [done|]. eapply IH; [by apply act_inv|done].
Qed.
Lemma trun_calls_try (t : sop A) st hp : trun (map TTry (seen t st)) hp = ((trun (seen t st) hp).1, None).
Proof.
  destruct (seen_one spare t st) as [E|[u E]]; rewrite E; [done|]. cbn [map]. rewrite !trun_one. done.
Qed.
Lemma act_handler_abs st r opts : Inv st -> abs (act st (AHandler r opts)) = abs st.
Proof.
  intros I. cbn [SliceSpec.act]. destruct (forallb (opt_okb st) opts) eqn:Eo; [|done]. apply opts_okb in Eo.
  pose proof (sHandler_same spare st r opts I Eo) as H. destruct (sHandler spare st r opts) as [[st' e]| |]; [|done|done].
  destruct (part1 _ _ _); [|done|done]. destruct H as [H _]. by eapply grows_inv.
Qed.
Lemma acts_exact l : forall st, Inv st -> st_hit (acts l st) = false -> trun (calls l st) (abs st) = (abs (acts l st), None).
Proof.
  induction l as [|a l IH]; intros st I H; [done|]. cbn [SliceSpec.calls]. rewrite trun_app.
  change (acts (a :: l) st) with (acts l (act st a)) in *.
  pose proof (act_inv st a I) as I1. specialize (IH _ I1 H). pose proof (acts_hit _ _ I1 H) as Hh.
  destruct a as [t|r opts].
  - rewrite trun_calls_try. destruct (exec_good spare t st I) as (_ & G & _). destruct (G Hh) as [_ ->]. exact IH.
  - cbn [trun]. rewrite <- (act_handler_abs st r opts I). exact IH.
Qed.
Lemma acts_bare l : forall st, Inv st ->
  bares (trun (calls l st) (abs st)).1 = bares (abs (acts l st)) /\ (trun (calls l st) (abs st)).2 = None.
Proof.
  induction l as [|a l IH]; intros st I; [done|]. cbn [SliceSpec.calls]. rewrite trun_app.
  change (acts (a :: l) st) with (acts l (act st a)) in *.
  pose proof (act_inv st a I) as I1. specialize (IH _ I1). destruct a as [t|r opts].
  - rewrite trun_calls_try. destruct (exec_good spare t st I) as (_ & _ & G).
    destruct G as [G _]. cbn [fst] in G. destruct (alike_trun (calls l (act st (ADo t))) _ _ G) as [F1 F2].
    destruct IH as [IH1 IH2]. change (sexec t st).1 with (act st (ADo t)) in F1, F2. split; congruence.
  - cbn [trun]. rewrite <- (act_handler_abs st r opts I). exact IH.
Qed.

(** ** Cells of clients *)
Definition keeps (arr i : nat) st st' : Prop := forall v, cell st arr i = Some v -> cell st' arr i = Some v.
Lemma keeps_arr arr i st st' :
  (forall a, st_i st !! arr = Some a -> a_client a = true -> st_i st' !! arr = Some a) -> keeps arr i st st'.
Proof.
  intros H v. unfold cell. destruct (st_i st !! arr) as [a|] eqn:E; [|done]. destruct (a_client a) eqn:Ec; [|done].
  by rewrite (H a eq_refl Ec), Ec.
Qed.
Lemma append_client (m : mem (ival A)) s vs m' s' arr a : own false m s -> sappend INil spare m s vs = (m', s') ->
  m !! arr = Some a -> a_client a = true -> m' !! arr = Some a.
Proof.
  intros Ho E Ha Hc. unfold sappend in E. destruct (s_len s + length vs <=? s_cap s) eqn:El; injection E as <- <-.
  - apply Nat.leb_le in El. destruct (decide (arr = s_arr s)) as [->|Hn]; [|by rewrite list_lookup_alter_ne by done].
    destruct Ho as [Ho1 [Hz|(a' & H1 & H2 & _)]]; [|congruence].
    assert (vs = []) as -> by (destruct vs; [done|simpl in *; lia]).
    rewrite list_lookup_alter, Ha. cbn. f_equal. destruct a as [c cells]. unfold put. cbn. f_equal. rewrite Nat.add_0_r. apply take_drop.
  - by apply lookup_app_l_Some.
Qed.
Lemma keeps_befores arr i st r vs : Inv st -> keeps arr i st (sbefores st r vs).
Proof.
  intros I. unfold Slices.sbefores. destruct (st_rs st !! r) as [x|] eqn:Ex; [|by intros ?].
  destruct (sappend INil spare (st_i st) (sr_befores x) vs) as [m b] eqn:Ea. apply keeps_arr. cbn [st_i]. intros a.
  eapply append_client; [|exact Ea]. apply (inv_own _ I _ _ Ex).
Qed.
Lemma keeps_add arr i st r x y : keeps arr i st (sadd st r x y).
Proof. apply keeps_arr. intros a. by rewrite ists_add. Qed.
Lemma keeps_trans arr i st1 st2 st3 : keeps arr i st1 st2 -> keeps arr i st2 st3 -> keeps arr i st1 st3.
Proof. intros H1 H2 v Hv. by apply H2, H1. Qed.
Lemma keeps_handle arr i st r m p s : keeps arr i st (shandle spare st r m p s).1.
Proof.
  unfold shandle, sderef. destruct (st_rs st !! r); [|by intros ?]. destruct (sr_leaf _); [by intros ?|].
  destruct (existsb _ _); [by intros ?|]. apply keeps_add.
Qed.
Lemma keeps_any arr i excl p s r ms : forall st, keeps arr i st (sany spare excl ms st r p s).1.
Proof.
  induction ms as [|m ms IH]; intros st; [by intros ?|]. cbn [sany]. destruct (existsb _ _); [done|].
  pose proof (keeps_handle arr i st r m p s) as H. destruct (shandle spare st r m p s) as [st1 [e|]]; cbn [fst] in *; [done|].
  by eapply keeps_trans.
Qed.
Definition keepst arr i (t : sop A) : Prop := writes arr i t = false -> forall st, Inv st -> keeps arr i st (sexec t st).1.
Definition writes_list arr i (ts : list (sop A)) : bool := existsb (writes arr i) ts.
Fixpoint writes_args arr i (args : list (sgarg A)) : bool :=
  match args with [] => false | SSub ts :: args' => writes_list arr i ts || writes_args arr i args' | _ :: args' => writes_args arr i args' end.
Lemma writes_group arr i r p args : writes arr i (SGroup r p args) = writes_args arr i args.
Proof.
  cbn [writes]. induction args as [|[a|ts|] args IH]; [done|exact IH| |exact IH]. cbn [writes_args]. rewrite <- IH. f_equal.
Qed.
Lemma keeps_run arr i ts : Forall (keepst arr i) ts -> writes_list arr i ts = false -> forall st, Inv st -> keeps arr i st (srun ts st).1.
Proof.
  induction 1 as [|t ts Ht _ IH]; intros Hw st I; [by intros ?|]. cbn [writes_list existsb] in Hw. apply orb_false_iff in Hw as [Hw1 Hw2].
  cbn [Slices.srun]. specialize (Ht Hw1 st I). pose proof (proj1 (exec_good spare t st I)) as I1.
  destruct (sexec t st) as [st1 [e|]]; cbn [fst] in *; [done|]. eapply keeps_trans; [done|]. by apply IH.
Qed.
Lemma keeps_args arr i r args : Forall (sarg_all (keepst arr i)) args -> writes_args arr i args = false -> forall st, Inv st ->
  keeps arr i st (sargs spare r args st).1.
Proof.
  induction 1 as [|[a|ts|] args Ha _ IH]; intros Hw st I; [by intros ?|..|by intros ?]; cbn [sargs writes_args] in *.
  - eapply keeps_trans; [by apply keeps_befores|]. apply IH; [done|]. by apply step_befores.
  - apply orb_false_iff in Hw as [Hw1 Hw2]. pose proof (keeps_run arr i ts Ha Hw1 st I) as H.
    pose proof (proj1 (srun_good spare ts st I)) as I1.
    destruct (srun ts st) as [st1 [e|]]; cbn [fst] in *; [done|]. eapply keeps_trans; [done|]. by apply IH.
Qed.
Lemma keeps_exec arr i t : keepst arr i t.
Proof.
  induction t as [t Ht|r p args IH|t IH] using sop_ind'; intros Hw st I.
  - destruct t as [|r s|r s|r m p s|r excl p s|r p args|t|vs|arr' i' v]; try done; cbn [Slices.sexec].
    + by intros ?.
    + unfold sarg. destruct (client_slice _ _); [|by intros ?]. unfold sBefore, sderef. destruct (st_rs st !! r) as [x|] eqn:Ex; [|by intros ?].
      destruct (sr_leaf _); [by intros ?|]. destruct (sr_parent _); [by intros ?|]. cbn [negb].
      destruct (sappend INil spare (st_i st) (sr_gbefores x) _) as [m b] eqn:Ea. apply keeps_arr. cbn [fst st_i]. intros a.
      eapply append_client; [|exact Ea]. apply (inv_own _ I _ _ Ex).
    + unfold sarg. destruct (client_slice _ _); [|by intros ?]. unfold sUse, sderef. destruct (st_rs st !! r); [|by intros ?].
      destruct (sr_leaf _); [by intros ?|]. cbn [fst]. by apply keeps_befores.
    + unfold sarg. destruct (client_slice _ _); [|by intros ?]. destruct (_HTTP_METHODS_NAMES !! m); [|by intros ?]. apply keeps_handle.
    + unfold sarg. destruct (client_slice _ _); [|by intros ?]. apply keeps_any.
    + apply keeps_arr. cbn [fst st_i]. intros a Ha _. by apply lookup_app_l_Some.
    + cbn [writes] in Hw. unfold sput. destruct (st_i st !! arr') as [a|] eqn:Ea; [|by intros ?].
      destruct (a_client a && (i' <? length (a_cells a))) eqn:Ec; [|by intros ?]. cbn [fst].
      apply andb_true_iff in Ec as [Ec El]. apply Nat.ltb_lt in El.
      intros w. unfold cell. cbn [st_i]. destruct (decide (arr' = arr)) as [->|Hn].
      * rewrite list_lookup_alter, Ea. cbn [fmap option_fmap option_map]. rewrite put_insert by done.
        change (a_client (put i' [v] a)) with (a_client a). rewrite Ec.
        rewrite Nat.eqb_refl in Hw. cbn [andb] in Hw. apply Nat.eqb_neq in Hw.
        by rewrite list_lookup_insert_ne by done.
      * by rewrite list_lookup_alter_ne by done.
  - rewrite writes_group in Hw. rewrite sexec_group. unfold sderef. destruct (st_rs st !! r) as [x|] eqn:Ex; [|by intros ?].
    destruct (sr_leaf _); [by intros ?|].
    eapply keeps_trans; [apply (keeps_add arr i st r x)|]. apply keeps_args; [done|done|].
    by apply (step_add spare st r x (mkSR [] p s_nil s_nil s_nil (Some r) s_nil false) I Ex eq_refl eq_refl eq_refl (own_nil _ _)).
  - cbn [Slices.sexec fst]. by apply IH.
Qed.
Lemma keeps_act arr i st a : Inv st -> act_writes arr i a = false -> keeps arr i st (act st a).
Proof.
  intros I Hw. destruct a as [t|r opts]; cbn [SliceSpec.act]; [by apply keeps_exec|].
  destruct (forallb (opt_okb st) opts) eqn:Eo; [|by intros ?]. apply opts_okb in Eo.
  pose proof (sHandler_same spare st r opts I Eo) as H. destruct (sHandler spare st r opts) as [[st' e]| |]; [|by intros ?|by intros ?].
  destruct (part1 _ _ _); [|done|done]. destruct H as [(_ & H & _) _]. cbn [fst] in H. apply keeps_arr. intros a0 Ha _. by eapply ext_lookup.
Qed.
Lemma keeps_acts arr i l : forall st, Inv st -> existsb (act_writes arr i) l = false -> keeps arr i st (acts l st).
Proof.
  induction l as [|a l IH]; intros st I Hw; [by intros ?|]. cbn [existsb] in Hw. apply orb_false_iff in Hw as [Hw1 Hw2].
  change (acts (a :: l) st) with (acts l (act st a)). eapply keeps_trans; [by apply keeps_act|]. apply IH; [by apply act_inv|done].
Qed.

(** ** Without writes nothing is overwritten *)
Definition quiet (t : sop A) : Prop := (forall arr i, writes arr i t = false) -> forall st, st_hit (sexec t st).1 = st_hit st.
Lemma hit_handle st r m p s : st_hit (shandle spare st r m p s).1 = st_hit st.
Proof.
  unfold shandle, sderef. destruct (st_rs st !! r); [|done]. destruct (sr_leaf _); [done|]. destruct (existsb _ _); [done|]. cbn [fst]. apply hit_add.
Qed.
Lemma hit_any excl p s r ms : forall st, st_hit (sany spare excl ms st r p s).1 = st_hit st.
Proof.
  induction ms as [|m ms IH]; intros st; [done|]. cbn [sany]. destruct (existsb _ _); [done|].
  pose proof (hit_handle st r m p s) as H. destruct (shandle spare st r m p s) as [st1 [e|]]; cbn [fst] in *; [done|]. by rewrite IH.
Qed.
Lemma hit_run ts : Forall quiet ts -> (forall arr i, writes_list arr i ts = false) -> forall st, st_hit (srun ts st).1 = st_hit st.
Proof.
  induction 1 as [|t ts Ht _ IH]; intros Hw st; [done|]. cbn [Slices.srun].
  specialize (Ht (fun arr i => proj1 (proj1 (orb_false_iff _ _) (Hw arr i))) st).
  specialize (IH (fun arr i => proj2 (proj1 (orb_false_iff _ _) (Hw arr i)))).
  destruct (sexec t st) as [st1 [e|]]; cbn [fst] in *; [done|]. by rewrite IH.
Qed.
Lemma hit_args r args : Forall (sarg_all quiet) args -> (forall arr i, writes_args arr i args = false) -> forall st, st_hit (sargs spare r args st).1 = st_hit st.
Proof.
  induction 1 as [|[a|ts|] args Ha _ IH]; intros Hw st; [done|..|done]; cbn [sargs writes_args] in *.
  - by rewrite IH, hit_befores.
  - pose proof (hit_run ts Ha (fun arr i => proj1 (proj1 (orb_false_iff _ _) (Hw arr i))) st) as H.
    specialize (IH (fun arr i => proj2 (proj1 (orb_false_iff _ _) (Hw arr i)))).
    destruct (srun ts st) as [st1 [e|]]; cbn [fst] in *; [done|]. by rewrite IH.
Qed.
Lemma hit_exec t : quiet t.
Proof.
  induction t as [t Ht|r p args IH|t IH] using sop_ind'; intros Hw st.
  - destruct t as [|r s|r s|r m p s|r excl p s|r p args|t|vs|arr i v]; try done; cbn [Slices.sexec].
    + unfold sarg. destruct (client_slice _ _); [|done]. unfold sBefore, sderef. destruct (st_rs st !! r); [|done].
      destruct (sr_leaf _); [done|]. destruct (sr_parent _); [done|]. cbn [negb]. by destruct (sappend _ _ _ _ _).
    + unfold sarg. destruct (client_slice _ _); [|done]. unfold sUse, sderef. destruct (st_rs st !! r); [|done].
      destruct (sr_leaf _); [done|]. cbn [fst]. apply hit_befores.
    + unfold sarg. destruct (client_slice _ _); [|done]. destruct (_HTTP_METHODS_NAMES !! m); [|done]. apply hit_handle.
    + unfold sarg. destruct (client_slice _ _); [|done]. apply hit_any.
    + specialize (Hw arr i). cbn [writes] in Hw. by rewrite !Nat.eqb_refl in Hw.
  - rewrite sexec_group. unfold sderef. destruct (st_rs st !! r); [|done]. destruct (sr_leaf _); [done|].
    rewrite hit_args; [apply hit_add|done|]. intros arr i. by rewrite <- (writes_group arr i r p args).
  - cbn [Slices.sexec fst]. by apply IH.
Qed.
Lemma acts_quiet l : (forall arr i, existsb (act_writes arr i) l = false) -> forall st, Inv st -> st_hit (acts l st) = st_hit st.
Proof.
  induction l as [|a l IH]; intros Hw st I; [done|]. change (acts (a :: l) st) with (acts l (act st a)).
  rewrite IH; [|intros arr i; by apply (proj1 (orb_false_iff _ _) (Hw arr i))|by apply act_inv].
  destruct a as [t|r opts]; cbn [SliceSpec.act].
  - apply hit_exec. intros arr i. apply (proj1 (orb_false_iff _ _) (Hw arr i)).
  - destruct (forallb (opt_okb st) opts) eqn:Eo; [|done]. apply opts_okb in Eo.
    pose proof (sHandler_same spare st r opts I Eo) as H. destruct (sHandler spare st r opts) as [[st' e]| |]; [|done|done].
    destruct (part1 _ _ _); [|done|done]. destruct H as [(_ & _ & _ & _ & H) _]. exact H.
Qed.

(** ** For the property file *)
Lemma made re_ok l r opts z : let st := acts l st_empty in forallb (opt_okb st) opts = true ->
  (let! (st', e) := sHandler spare st r opts in engine_at re_ok st' e) = (Handler re_ok (abs st) r (map (abs_opt st) opts) z).1.
Proof. intros st Ho. apply handler_engine; [apply acts_inv, inv_empty|by apply opts_okb]. Qed.
Lemma made_of_calls re_ok l r opts z : let st := acts l st_empty in forallb (opt_okb st) opts = true -> st_hit st = false ->
  (let! (st', e) := sHandler spare st r opts in engine_at re_ok st' e) =
  (Handler re_ok (trun (calls l st_empty) []).1 r (map (abs_opt st) opts) z).1.
Proof.
  intros st Ho Hh. etrans; [apply (made re_ok l r opts z Ho)|]. fold st. change (@nil (router A)) with (abs (st_empty (A := A))).
  rewrite (acts_exact l st_empty inv_empty Hh). done.
Qed.
End Acts.
