(** Facts about registration and Handler() behind the property theorems. *)
From Coq Require Import Sorted.
From Verif Require Import Base GoStr Strconv Pattern Tree GoStrFacts TreeSpec ListFacts TreeFacts TreeMatch TreeTop
  Router RouterSpec RouterFacts RouterDump MethodFacts HandlerFacts PathClean StaticReg.

(** ** No divergence *)
Definition nodiv {A} (x : res A) : Prop := x <> Diverge.
Lemma nodiv_bind {A B} (x : res A) (f : A -> res B) : nodiv x -> (forall a, x = Ok a -> nodiv (f a)) -> nodiv (rbind x f).
Proof. unfold nodiv. destruct x; simpl; [|done|done]. intros _ Hf. by apply Hf. Qed.
Lemma nodiv_ok {A} (a : A) : nodiv (Ok a).
Proof. done. Qed.
Lemma nodiv_panic {A} m : nodiv (Panic m : res A).
Proof. done. Qed.
Lemma nodiv_cases {A} (x : res A) : nodiv x <-> is_ok x \/ is_panic x.
Proof.
  unfold nodiv, is_ok, is_panic. split.
  - destruct x; [left; eauto|right; eauto|done].
  - by intros [[? ->]|[? ->]].
Qed.
Ltac nd := repeat (first [apply nodiv_ok | apply nodiv_panic | apply nodiv_bind; [|intros ? ?]
                         | match goal with |- nodiv (match ?x with _ => _ end) => destruct x end]).

Lemma getparsed_nodiv s : nodiv (getparsedPattern s).
Proof. unfold getparsedPattern. nd; unfold slice; nd. Qed.
Lemma analyze_nodiv re_ok s : nodiv (analyzePattern re_ok s).
Proof.
  unfold analyzePattern. destruct (negb _); [nd|]. apply nodiv_bind; [apply getparsed_nodiv|]. intros parsed _.
  destruct (has_prefix _ _); [nd|]. destruct (contains_byte "<" s); [|nd].
  destruct (contains_byte "~" s); [|nd]. apply nodiv_bind; [|intros ? _; nd].
  unfold partternRegexp. nd. unfold slice. nd.
Qed.
Lemma addEnd_nodiv {H} re_ok (n : node H) s id hs : nodiv (addEndNode re_ok n s id hs).
Proof. unfold addEndNode. destruct (find_split _ _) as [[[? ?] ?]|]; nd. apply analyze_nodiv. Qed.
Lemma add_segs_nodiv {H} re_ok segs : forall (n : node H) id hs, segs <> [] -> nodiv (add_segs re_ok n segs id hs).
Proof.
  induction segs as [|s [|s2 rest] IH]; intros n id hs Hne; [done|apply addEnd_nodiv|].
  cbn [add_segs]. destruct (find_split _ _) as [[[? ?] ?]|].
  - apply nodiv_bind; [by apply IH|]. intros [[? ?] ?] _. nd.
  - apply nodiv_bind; [apply analyze_nodiv|]. intros p _. apply nodiv_bind; [by apply IH|]. intros [[? ?] ?] _. nd.
Qed.
Lemma add_nodiv {H} re_ok (n : node H) u id hs : nodiv (add re_ok n u id hs).
Proof.
  rewrite add_eq. apply nodiv_bind; [apply add_segs_nodiv, uri_segs_nonempty|]. intros [[? ?] ?] _. nd.
Qed.

Lemma rbind_ext {A B} (x : res A) (f g : A -> res B) : (forall a, f a = g a) -> rbind x f = rbind x g.
Proof. intros He. destruct x; simpl; [apply He|done|done]. Qed.
Lemma rbind_ret {A} (x : res A) : rbind x Ok = x.
Proof. by destruct x. Qed.

Section Props.
Context {A : Type}.
Variable re_ok : gostr -> bool.
Implicit Types h : list (ev A).
Implicit Types hp : heap A.
Implicit Types ops : list (rop A).

Lemma newHandlers_nodiv (vs : list (ival A)) : nodiv (newHandlers vs).
Proof. apply nodiv_cases, newHandlers_total. Qed.
Lemma apply_opts_nodiv (fs : list (opt A)) : forall o, nodiv (apply_opts o fs).
Proof.
  induction fs as [|f fs IH]; intros o; cbn [apply_opts]; [nd|]. apply nodiv_bind; [|intros; apply IH].
  destruct f as [b|[|v vs]|m]; cbn [apply_opt]; [nd|nd| |nd].
  apply nodiv_bind; [apply newHandlers_nodiv|]. intros; nd.
Qed.
Lemma getRoute_nodiv h r : wf h -> nodiv (getRoute (heap_of h) r).
Proof.
  intros Hw. destruct (creations h !! r) as [c|] eqn:Hc.
  - destruct (lineage_exists h Hw _ _ Hc) as [path Hp]. rewrite (getRoute_eq h r c path Hw Hc Hp).
    apply nodiv_bind; [apply newHandlers_nodiv|]. intros hs _. nd.
  - unfold getRoute. cbn [climb]. rewrite heap_lookup, Hc. simpl. nd.
Qed.
Lemma addall_nodiv h ts : wf h -> forall rs, nodiv (addall (heap_of h) ts rs).
Proof.
  intros Hw. induction ts as [|t ts IH]; intros rs; cbn [addall]; [nd|].
  apply nodiv_bind; [by apply getRoute_nodiv|]. intros rt _. apply nodiv_bind; [|intros; apply IH].
  unfold rs_add. nd.
Qed.
Lemma check_uris_nodiv (l : list (route A)) : nodiv (check_uris l).
Proof. induction l as [|v l IH]; cbn [check_uris]; [nd|]. destruct (negb _); nd. done. Qed.
Lemma buildTree_nodiv static (l : list (route A)) : forall ms, nodiv (buildTree re_ok static ms l).
Proof.
  induction l as [|v l IH]; intros ms; cbn [buildTree]; [nd|].
  destruct (MethodIndex _); [|nd]. destruct (ms !! _); [|nd]. apply nodiv_bind; [|intros; apply IH].
  unfold add_route. apply nodiv_bind; [apply add_nodiv|]. intros [[? ?] ?] _. nd.
Qed.
Lemma Handler_nodiv h r opts mem : wf h -> nodiv (fst (Handler re_ok (heap_of h) r opts mem)).
Proof.
  intros Hw. rewrite Handler_collect.
  assert (Hc : nodiv (collect (heap_of h) r opts)).
  { destruct (creations h !! r) as [c|] eqn:Hc; [|unfold collect, deref; rewrite heap_lookup, Hc; simpl; nd].
    pose proof (creation_creates _ _ _ Hc) as Hcr. destruct c as [|p pat|p m pat hs|p hs|p hs|p x]; try done;
      [|unfold collect, deref; rewrite heap_lookup, Hc; simpl; nd..].
    - rewrite (collect_eq h r opts Hw Hc). apply nodiv_bind.
      + unfold options_step. apply nodiv_bind; [apply apply_opts_nodiv|]. intros o _. destruct (_ && _); [|nd].
        apply nodiv_bind; [apply newHandlers_nodiv|]. intros; nd.
      + intros o _. apply nodiv_bind; [by apply addall_nodiv|]. intros rs _. apply nodiv_bind; [apply check_uris_nodiv|]. intros; nd. }
  destruct (collect (heap_of h) r opts) as [[o rs]| |]; simpl; [|nd|done].
  apply nodiv_bind; [apply buildTree_nodiv|]. intros; nd.
Qed.

(** ** C13 *)
Lemma handler_iff ops hp r opts mem : run_ops ops [] = Ok hp ->
  (is_ok (fst (Handler re_ok hp r opts mem)) <-> registrable re_ok (history ops) r opts) /\
  (is_ok (fst (Handler re_ok hp r opts mem)) \/ is_panic (fst (Handler re_ok hp r opts mem))).
Proof.
  intros Hr. apply run_heap in Hr as [-> Hw]. split.
  - split.
    + intros [e He]. destruct (Handler re_ok (heap_of (history ops)) r opts mem) as [x mem'] eqn:Hh.
      simpl in He. subst x. by apply Handler_built in Hh as [? _].
    + intros Hg. destruct (Handler_succeeds re_ok (history ops) r opts mem Hw Hg) as [e ->]. by exists e.
  - apply nodiv_cases. by apply Handler_nodiv.
Qed.

(** ** C09 *)
Lemma middleware_order ops hp r opts mem e mem' : run_ops ops [] = Ok hp ->
  Handler re_ok hp r opts mem = (Ok e, mem') ->
  exists ls, leaves (history ops) r ls /\ Forall2 (route_of (history ops)) ls (rs_slice (en_store e)).
Proof.
  intros Hr Hh. apply run_heap in Hr as [-> Hw]. apply Handler_built in Hh as (_ & Hb & _); [|done].
  apply bu_store in Hb. done.
Qed.

Lemma run_ops_app (ops1 ops2 : list (rop A)) hp :
  run_ops (ops1 ++ ops2) hp = let! hp := run_ops ops1 hp in run_ops ops2 hp.
Proof.
  revert hp. induction ops1 as [|op ops1 IH]; intros hp; simpl; [done|].
  destruct (exec op hp); simpl; [|done|done]. apply IH.
Qed.

Lemma deref_lt (hp : heap A) g x : deref hp g = Ok x -> g < length hp /\ hp !! g = Some x /\ r_leaf x = false.
Proof.
  unfold deref. destruct (hp !! g) as [y|] eqn:Hy; [|done]. destruct (r_leaf y) eqn:Hl; [done|].
  intros [= <-]. split; [by eapply lookup_lt_Some|done].
Qed.
Lemma deref_ok (hp : heap A) g x : hp !! g = Some x -> r_leaf x = false -> deref hp g = Ok x.
Proof. unfold deref. by intros -> ->. Qed.

Lemma use_handle_swap (hp hp' : heap A) g hs r name pat hs' :
  (let! hp := Use hp g hs in handle hp r name pat hs') = Ok hp' <->
  (let! hp := handle hp r name pat hs' in Use hp g hs) = Ok hp'.
Proof.
  unfold Use, handle. split; intros He.
  - apply rbind_ok in He as (hp1 & H1 & H2). apply rbind_ok in H1 as (x & Hd & H1). inversion H1; subst hp1; clear H1.
    apply rbind_ok in H2 as (y & Hd2 & H2). destruct (existsb is_nil hs'); [done|]. inversion H2; subst hp'; clear H2.
    apply deref_lt in Hd as (Hlt & Hg & Hlf). apply deref_lt in Hd2 as (Hlt2 & Hr & Hrf).
    rewrite alter_length in Hlt2 |- *.
    assert (exists y', hp !! r = Some y' /\ r_leaf y' = false) as (y' & Hy' & Hyf).
    { destruct (decide (r = g)) as [->|Hne]; [eauto|]. rewrite list_lookup_alter_ne in Hr by done. eauto. }
    rewrite (deref_ok hp r y') by done. cbn [rbind].
    assert (exists x', (alter (set_sub (fun l => l ++ [length hp])) r hp ++ [mkRouter name pat [] [] hs' (Some r) [] true]) !! g = Some x' /\ r_leaf x' = false) as (x' & Hx' & Hxf).
    { rewrite lookup_app_l by (rewrite alter_length; lia).
      destruct (decide (g = r)) as [->|Hne]; [rewrite list_lookup_alter, Hg|rewrite list_lookup_alter_ne, Hg by done]; simpl; eauto. }
    rewrite (deref_ok _ g x') by done. cbn [rbind]. f_equal.
    rewrite alter_app_l by (rewrite alter_length; lia). f_equal.
    destruct (decide (r = g)) as [->|Hne].
    + rewrite <- !list_alter_compose. f_equal.
    + by rewrite list_alter_commute.
  - apply rbind_ok in He as (hp1 & H1 & H2). apply rbind_ok in H1 as (y & Hd & H1).
    destruct (existsb is_nil hs') eqn:Hn; [done|]. inversion H1; subst hp1; clear H1.
    apply rbind_ok in H2 as (x & Hd2 & H2). inversion H2; subst hp'; clear H2.
    apply deref_lt in Hd as (Hlt & Hr & Hrf). apply deref_lt in Hd2 as (Hlt2 & Hg & Hgf).
    rewrite app_length, alter_length in Hlt2. simpl in Hlt2.
    assert (g < length hp) as Hlg.
    { destruct (decide (g = length hp)) as [->|]; [|lia]. rewrite lookup_app_r in Hg by (rewrite alter_length; lia).
      rewrite alter_length, Nat.sub_diag in Hg. inversion Hg; subst x. done. }
    rewrite lookup_app_l in Hg by (rewrite alter_length; lia).
    assert (exists x', hp !! g = Some x' /\ r_leaf x' = false) as (x' & Hx' & Hxf).
    { destruct (decide (g = r)) as [->|Hne]; [eauto|]. rewrite list_lookup_alter_ne in Hg by done. eauto. }
    rewrite (deref_ok hp g x') by done. cbn [rbind].
    assert (exists y', alter (set_befores (fun l => l ++ hs)) g hp !! r = Some y' /\ r_leaf y' = false) as (y' & Hy' & Hyf).
    { destruct (decide (r = g)) as [->|Hne]; [rewrite list_lookup_alter, Hr|rewrite list_lookup_alter_ne, Hr by done]; simpl; eauto. }
    rewrite (deref_ok _ r y') by done. cbn [rbind]. f_equal. rewrite alter_length.
    rewrite alter_app_l by (rewrite alter_length; lia). f_equal.
    destruct (decide (r = g)) as [->|Hne].
    + rewrite <- !list_alter_compose. f_equal.
    + by rewrite list_alter_commute.
Qed.

Lemma use_order (ops1 ops2 : list (rop A)) g hs r m pat hs' hp :
  run_ops (ops1 ++ RUse g hs :: RHandle r m pat hs' :: ops2) [] = Ok hp <->
  run_ops (ops1 ++ RHandle r m pat hs' :: RUse g hs :: ops2) [] = Ok hp.
Proof.
  rewrite !run_ops_app. destruct (run_ops ops1 []) as [hp1| |]; cbn [rbind]; [|done|done].
  cbn [run_ops exec]. destruct (_HTTP_METHODS_NAMES !! m) as [name|].
  - assert (Hx : forall k : heap A -> res (heap A),
      (let! hp2 := Use hp1 g hs in let! hp3 := handle hp2 r name pat hs' in k hp3) = Ok hp <->
      (let! hp2 := handle hp1 r name pat hs' in let! hp3 := Use hp2 g hs in k hp3) = Ok hp).
    { intros k. split; intros He; apply rbind_ok in He as (a & Ha & He); apply rbind_ok in He as (b & Hb & He).
      - assert (Hs : (let! hp := Use hp1 g hs in handle hp r name pat hs') = Ok b) by (by rewrite Ha).
        apply use_handle_swap in Hs. apply rbind_ok in Hs as (c & -> & Hc). cbn [rbind]. by rewrite Hc.
      - assert (Hs : (let! hp := handle hp1 r name pat hs' in Use hp g hs) = Ok b) by (by rewrite Ha).
        apply use_handle_swap in Hs. apply rbind_ok in Hs as (c & -> & Hc). cbn [rbind]. by rewrite Hc. }
    apply Hx.
  - split; [|done]. intros He. by apply rbind_ok in He as (? & _ & ?).
Qed.

(** ** C10 *)
(** inserting one Use event into a history *)
Lemma creations_use h1 h2 g hs : creations (h1 ++ EUse g hs :: h2) = creations (h1 ++ h2).
Proof. unfold creations. rewrite !List.filter_app. done. Qed.
Lemma lineage_use h1 h2 g hs l path : lineage (h1 ++ EUse g hs :: h2) l path <-> lineage (h1 ++ h2) l path.
Proof.
  split; induction 1.
  - rewrite creations_use in H. by constructor.
  - rewrite creations_use in H. by econstructor.
  - constructor. by rewrite creations_use.
  - econstructor; [by rewrite creations_use|done|done].
Qed.
Lemma mws_use h1 h2 g hs r : mws (h1 ++ EUse g hs :: h2) r =
  mws h1 r ++ (if decide (g = r) then hs else []) ++ mws h2 r.
Proof. rewrite mws_app. f_equal. Qed.
Lemma befores_use h1 h2 g hs r : befores (h1 ++ EUse g hs :: h2) r = befores (h1 ++ h2) r.
Proof. rewrite !befores_app. done. Qed.
Lemma chain_use h1 h2 g hs path l : g ∉ path ->
  chain (h1 ++ EUse g hs :: h2) path l = chain (h1 ++ h2) path l.
Proof.
  intros Hg. unfold chain. rewrite creations_use. f_equal; [destruct path; [done|by rewrite befores_use]|].
  f_equal. induction path as [|x path IH]; [done|]. apply not_elem_of_cons in Hg as [Hne Hg]. simpl.
  rewrite IH by done. f_equal. rewrite mws_use, mws_app. rewrite decide_False by done. done.
Qed.
Lemma chain_use_in h1 h2 g hs path l x : g ∈ path -> x ∈ hs -> x ∈ chain (h1 ++ EUse g hs :: h2) path l.
Proof.
  intros Hg Hx. unfold chain. apply elem_of_app. right. apply elem_of_app. left.
  apply elem_of_concat'. exists (mws (h1 ++ EUse g hs :: h2) g). split; [by apply elem_of_list_fmap_1|].
  rewrite mws_use. rewrite decide_True by done. set_solver.
Qed.
Lemma full_uri_use h1 h2 g hs path : full_uri (h1 ++ EUse g hs :: h2) path = full_uri (h1 ++ h2) path.
Proof. unfold full_uri. by rewrite creations_use. Qed.
Lemma is_route_use h1 h2 g hs l m : is_route (h1 ++ EUse g hs :: h2) l m <-> is_route (h1 ++ h2) l m.
Proof. unfold is_route. by rewrite creations_use. Qed.

Lemma history_app (o1 o2 : list (rop A)) : history (o1 ++ o2) = history o1 ++ history o2.
Proof. unfold history. by rewrite map_app, concat_app. Qed.

Lemma converts_fun (v : ival A) a b : converts v a -> converts v b -> a = b.
Proof. destruct 1; inversion 1; done. Qed.
Lemma converts_all_fun (vs : list (ival A)) a b : Forall2 converts vs a -> Forall2 converts vs b -> a = b.
Proof.
  intros Ha. revert b. induction Ha as [|v x vs a Hv Ha IH]; intros b Hb; inversion Hb; subst; [done|].
  f_equal; [by eapply converts_fun|by apply IH].
Qed.
Lemma route_of_fun h l a b : route_of h l a -> route_of h l b -> a = b.
Proof.
  intros (p & m & Hl & Hm & M & U & V & N & C) (p' & m' & Hl' & Hm' & M' & U' & V' & N' & C').
  rewrite (lineage_fun _ _ _ _ Hl Hl') in *. destruct Hm as (? & ? & ? & Hm), Hm' as (? & ? & ? & Hm').
  rewrite Hm in Hm'. inversion Hm'; subst. destruct a, b; simpl in *; subst. f_equal; try congruence.
  by eapply converts_all_fun.
Qed.

Lemma lex_asym p q : lex p q -> ~ lex q p.
Proof.
  intros H1 H2. inversion H1 as [c a b s t Hab E1 E2]; subst. inversion H2 as [c' a' b' s' t' Hab' E1' E2'].
  assert (length c = length c').
  { destruct (lt_eq_lt_dec (length c) (length c')) as [[Hl|Hl]|Hl]; [|done|].
    - apply (f_equal (fun l => l !! length c)) in E1', E2'.
      rewrite lookup_app_l in E1', E2' by done. rewrite E1' in E2'.
      rewrite !lookup_app_r in E2' by lia. rewrite Nat.sub_diag in E2'. simpl in E2'. inversion E2'. lia.
    - apply (f_equal (fun l => l !! length c')) in E1', E2'.
      rewrite (lookup_app_r c') in E1', E2' by lia. rewrite Nat.sub_diag in E1', E2'. simpl in E1', E2'.
      rewrite lookup_app_l in E1', E2' by done. rewrite <- E1' in E2'. inversion E2'. lia. }
  assert (Hc : c' = c).
  { apply (f_equal (take (length c))) in E1'. rewrite take_app in E1'. rewrite H, take_app in E1'. done. }
  subst c'. apply app_inv_head in E1', E2'.
  inversion E1'; inversion E2'; subst. lia.
Qed.
Lemma ltl_asym h x y : ltl h x y -> ~ ltl h y x.
Proof.
  intros (p & q & Hp & Hq & Hl) (p' & q' & Hp' & Hq' & Hl').
  rewrite (lineage_fun _ _ _ _ Hp Hq') in Hl. rewrite (lineage_fun _ _ _ _ Hq Hp') in Hl. by apply lex_asym in Hl.
Qed.
Lemma sorted_unique {B} (R : B -> B -> Prop) (l1 l2 : list B) :
  (forall x y, R x y -> ~ R y x) -> StronglySorted R l1 -> StronglySorted R l2 ->
  (forall x, x ∈ l1 <-> x ∈ l2) -> l1 = l2.
Proof.
  intros Ha H1. revert l2. induction H1 as [|x l1 H1 IH Hx]; intros l2 H2 He.
  - destruct l2 as [|y l2]; [done|]. assert (y ∈ []) as Hn by (apply He; left). by apply elem_of_nil in Hn.
  - destruct H2 as [|y l2 H2 Hy].
    + assert (x ∈ []) as Hn by (apply He; left). by apply elem_of_nil in Hn.
    + rewrite Forall_forall in Hx, Hy.
      assert (x = y) as ->.
      { assert (x ∈ y :: l2) as Hxy by (apply He; left). apply elem_of_cons in Hxy as [?|Hxl]; [done|].
        assert (y ∈ x :: l1) as Hyx by (apply He; left). apply elem_of_cons in Hyx as [?|Hyl]; [done|].
        exfalso. eapply Ha; [by apply Hx|by apply Hy]. }
      f_equal. apply IH; [done|]. intros z. specialize (He z). rewrite !elem_of_cons in He.
      assert (~ R y y) by (intros Hr; by eapply Ha).
      split; intros Hz.
      * destruct (proj1 He (or_intror Hz)) as [->|?]; [|done]. by apply Hx in Hz.
      * destruct (proj2 He (or_intror Hz)) as [->|?]; [|done]. by apply Hy in Hz.
Qed.
Lemma leaves_unique h r l1 l2 : leaves h r l1 -> leaves h r l2 -> l1 = l2.
Proof.
  intros [E1 S1] [E2 S2]. eapply sorted_unique; [apply (ltl_asym h)|done|done|]. intros x. by rewrite E1, E2.
Qed.
Lemma ltl_use h1 h2 g hs x y : ltl (h1 ++ EUse g hs :: h2) x y <-> ltl (h1 ++ h2) x y.
Proof.
  unfold ltl. split; intros (p & q & Hp & Hq & Hl); exists p, q.
  - rewrite lineage_use in Hp, Hq. done.
  - rewrite !lineage_use. done.
Qed.
Lemma sorted_impl {B} (R R' : B -> B -> Prop) l : (forall x y, R x y -> R' x y) -> StronglySorted R l -> StronglySorted R' l.
Proof.
  intros Hi. induction 1 as [|x l H1 IH Hx]; constructor; [done|].
  eapply Forall_impl; [exact Hx|]. intros y. apply Hi.
Qed.
Lemma leaves_use h1 h2 g hs r ls : leaves (h1 ++ EUse g hs :: h2) r ls <-> leaves (h1 ++ h2) r ls.
Proof.
  unfold leaves. split; intros [He Hs]; (split; [|eapply sorted_impl; [|exact Hs]; intros x y; by rewrite ltl_use]).
  - intros l. rewrite He. split; intros [[m Hm] [p Hp]]; (split; [exists m|exists p]).
    + by rewrite <- is_route_use. + by rewrite <- lineage_use. + by rewrite is_route_use. + by rewrite lineage_use.
  - intros l. rewrite He. split; intros [[m Hm] [p Hp]]; (split; [exists m|exists p]).
    + by rewrite is_route_use. + by rewrite lineage_use. + by rewrite <- is_route_use. + by rewrite <- lineage_use.
Qed.

Lemma route_of_use h1 h2 g hs l rt path : lineage (h1 ++ h2) l path -> g ∉ path ->
  route_of (h1 ++ EUse g hs :: h2) l rt -> route_of (h1 ++ h2) l rt.
Proof.
  intros Hp Hg (p & m & Hl & Hm & M & U & V & N & C). apply lineage_use in Hl.
  rewrite (lineage_fun _ _ _ _ Hp Hl) in Hg. rewrite full_uri_use in U, V. rewrite chain_use in C by done.
  rewrite is_route_use in Hm. exists p, m. done.
Qed.

Lemma use_confined ops1 ops2 g hs r opts mem hp hp' e e' m1 m2 :
  run_ops (ops1 ++ ops2) [] = Ok hp -> run_ops (ops1 ++ RUse g hs :: ops2) [] = Ok hp' ->
  Handler re_ok hp r opts mem = (Ok e, m1) -> Handler re_ok hp' r opts mem = (Ok e', m2) ->
  exists ls, leaves (history (ops1 ++ ops2)) r ls /\
    length (rs_slice (en_store e)) = length ls /\ length (rs_slice (en_store e')) = length ls /\
    forall i l path rt rt', ls !! i = Some l -> lineage (history (ops1 ++ ops2)) l path ->
      rs_slice (en_store e) !! i = Some rt -> rs_slice (en_store e') !! i = Some rt' ->
      (g ∉ path -> rt' = rt) /\
      (g ∈ path -> forall v x, v ∈ hs -> converts v x -> x ∈ rt_handlers rt').
Proof.
  intros Hr Hr' Hh Hh'. destruct (middleware_order _ _ _ _ _ _ _ Hr Hh) as (ls & Hls & Hf).
  destruct (middleware_order _ _ _ _ _ _ _ Hr' Hh') as (ls' & Hls' & Hf').
  assert (He : history (ops1 ++ RUse g hs :: ops2) = history ops1 ++ EUse g hs :: history ops2)
    by (by rewrite history_app).
  rewrite He in Hls', Hf'. rewrite history_app in Hls, Hf |- *. apply leaves_use in Hls'.
  rewrite (leaves_unique _ _ _ _ Hls' Hls) in Hf'. exists ls.
  split_and!; [done|symmetry; by eapply Forall2_length|symmetry; by eapply Forall2_length|].
  intros i l path rt rt' Hi Hp Hrt Hrt'.
  pose proof (Forall2_lookup_lr _ _ _ _ _ _ Hf Hi Hrt) as H1.
  pose proof (Forall2_lookup_lr _ _ _ _ _ _ Hf' Hi Hrt') as H2. split.
  - intros Hg. eapply route_of_use in H2; [|done|done]. by eapply route_of_fun.
  - intros Hg v x Hv Hx. destruct H2 as (p & m & Hl & _ & _ & _ & _ & _ & C). apply lineage_use in Hl.
    rewrite (lineage_fun _ _ _ _ Hp Hl) in Hg.
    destruct (Forall2_lookup_of _ _ _ _ C (chain_use_in _ _ g hs p l v Hg Hv)) as (y & Hy & Hc).
    by rewrite (converts_fun _ _ _ Hx Hc).
Qed.

(** ** C11 *)
Lemma duplicates_panic ops hp r opts mem l1 l2 m p1 p2 :
  run_ops ops [] = Ok hp -> let h := history ops in
  is_route h l1 m -> is_route h l2 m -> lineage h l1 (r :: p1) -> lineage h l2 (r :: p2) ->
  full_uri h (r :: p1) = full_uri h (r :: p2) -> l1 <> l2 ->
  is_panic (fst (Handler re_ok hp r opts mem)).
Proof.
  intros Hr h M1 M2 L1 L2 Hu Hne. destruct (handler_iff ops hp r opts mem Hr) as [Hi [Hok|Hp]]; [|done].
  apply Hi in Hok. exfalso. apply Hne. eapply (rg_distinct _ _ _ _ Hok); done.
Qed.
Lemma accepted_distinct ops hp r opts mem e mem' :
  run_ops ops [] = Ok hp -> Handler re_ok hp r opts mem = (Ok e, mem') ->
  forall i j a b, rs_slice (en_store e) !! i = Some a -> rs_slice (en_store e) !! j = Some b ->
    rt_method a = rt_method b -> rt_uri a = rt_uri b -> i = j.
Proof.
  intros Hr Hh i j a b Hi Hj Hm Hu. destruct (middleware_order _ _ _ _ _ _ _ Hr Hh) as (ls & [He Hs] & Hf).
  destruct (Forall2_lookup_r _ _ _ _ _ Hf Hi) as (x & Hx & (p & m & Lx & Mx & M & U & _)).
  destruct (Forall2_lookup_r _ _ _ _ _ Hf Hj) as (y & Hy & (q & m' & Ly & My & M' & U' & _)).
  destruct (handler_iff ops hp r opts mem Hr) as [Hiff _].
  assert (Hok : is_ok (fst (Handler re_ok hp r opts mem))) by (rewrite Hh; by eexists). apply Hiff in Hok.
  assert (x ∈ ls) as Hxl by (by eapply elem_of_list_lookup_2). assert (y ∈ ls) as Hyl by (by eapply elem_of_list_lookup_2).
  apply He in Hxl as [_ [px Px]]. apply He in Hyl as [_ [py Py]].
  rewrite (lineage_fun _ _ _ _ Lx Px) in U. rewrite (lineage_fun _ _ _ _ Ly Py) in U'.
  assert (x = y) as ->.
  { eapply (rg_distinct _ _ _ _ Hok x y m px py); try done; congruence. }
  eapply NoDup_lookup; [by eapply sorted_nodup|done|done].
Qed.

(** ** C14 *)
Lemma group_obj (h : list (ev A)) g p pat : creations h !! g = Some (EGroup p pat) ->
  exists x, deref (heap_of h) g = Ok x /\ IsParent x = false.
Proof. intros Hc. eexists. unfold deref. rewrite heap_lookup, Hc. simpl. done. Qed.
Lemma root_only ops hp g p pat : run_ops ops [] = Ok hp ->
  creations (history ops) !! g = Some (EGroup p pat) ->
  (forall hs, is_panic (Before hp g hs)) /\
  (forall opts mem, exists msg, Handler re_ok hp g opts mem = (Panic msg, mem)) /\
  (forall logger recovery, is_panic (Classic logger recovery hp g)) /\
  (forall prefix fs_nil a, is_panic (StaticAdvance hp g prefix fs_nil a)) /\
  (forall uri a, is_panic (Static hp g uri a)) /\
  (forall path a, is_panic (StaticFile hp g path a)).
Proof.
  intros Hr Hg. apply run_heap in Hr as [-> Hw]. destruct (group_obj _ _ _ _ Hg) as (x & Hd & HP).
  assert (Hsa : forall prefix fs_nil a, is_panic (StaticAdvance (heap_of (history ops)) g prefix fs_nil a)).
  { intros prefix fs_nil a. unfold StaticAdvance. rewrite Hd. cbn [rbind]. rewrite HP. by eexists. }
  split_and!.
  - intros hs. unfold Before. rewrite Hd. cbn [rbind]. rewrite HP. by eexists.
  - intros opts mem. unfold Handler. rewrite Hd. cbn [rbind]. rewrite HP. by eexists.
  - intros lg rc. unfold Classic. rewrite Hd. cbn [rbind]. rewrite HP. by eexists.
  - apply Hsa.
  - intros uri a. apply Hsa.
  - intros path a. unfold StaticFile. rewrite Hd. cbn [rbind]. rewrite HP. by eexists.
Qed.
(** on a root they do what the corresponding registration calls do *)
Lemma root_calls ops hp r : run_ops ops [] = Ok hp -> creations (history ops) !! r = Some ENew ->
  (forall hs, is_ok (Before hp r hs)) /\
  (forall logger recovery, Classic logger recovery hp r =
     run_ops [RUse r [IHandler logger]; RUse r [IHandler recovery]] hp) /\
  (forall prefix a, StaticAdvance hp r prefix false a =
     run_ops [RHandle r 0 (filepath_Join [static_prefix prefix; L "/*"]) [IFuncCtx a];
              RHandle r 5 (filepath_Join [static_prefix prefix; L "/*"]) [IFuncCtx a]] hp) /\
  (forall prefix a, is_panic (StaticAdvance hp r prefix true a)) /\
  (forall uri a, Static hp r uri a =
     run_ops [RHandle r 0 (filepath_Join [static_prefix uri; L "/*"]) [IFuncCtx a];
              RHandle r 5 (filepath_Join [static_prefix uri; L "/*"]) [IFuncCtx a]] hp) /\
  (forall path a, StaticFile hp r path a =
     run_ops [RHandle r 0 path [IFuncCtx a]; RHandle r 5 path [IFuncCtx a]] hp).
Proof.
  intros Hr Hc. apply run_heap in Hr as [-> Hw].
  destruct (deref_root (history ops) r Hc) as (y & Hd & HP & _).
  split_and!.
  - intros hs. unfold Before. rewrite Hd. cbn [rbind]. rewrite HP. by eexists.
  - intros lg rc. unfold Classic. rewrite Hd. cbn [rbind]. rewrite HP. cbn [negb run_ops exec].
    apply rbind_ext. intros hp1. symmetry. apply rbind_ret.
  - intros prefix a. unfold StaticAdvance. rewrite Hd. cbn [rbind]. rewrite HP. cbn [negb run_ops exec].
    change (_HTTP_METHODS_NAMES !! 0) with (Some (L "GET")). change (_HTTP_METHODS_NAMES !! 5) with (Some (L "HEAD")).
    apply rbind_ext. intros hp1. symmetry. apply rbind_ret.
  - intros prefix a. unfold StaticAdvance. rewrite Hd. cbn [rbind]. rewrite HP. by eexists.
  - intros uri a. unfold Static, StaticAdvance. rewrite Hd. cbn [rbind]. rewrite HP. cbn [negb run_ops exec].
    change (_HTTP_METHODS_NAMES !! 0) with (Some (L "GET")). change (_HTTP_METHODS_NAMES !! 5) with (Some (L "HEAD")).
    apply rbind_ext. intros hp1. symmetry. apply rbind_ret.
  - intros path a. unfold StaticFile. rewrite Hd. cbn [rbind]. rewrite HP. cbn [negb run_ops exec].
    change (_HTTP_METHODS_NAMES !! 0) with (Some (L "GET")). change (_HTTP_METHODS_NAMES !! 5) with (Some (L "HEAD")).
    apply rbind_ext. intros hp1. symmetry. apply rbind_ret.
Qed.

(** ** C15 *)
Definition new_leaf (r : nat) (m pat : gostr) (hs : list (ival A)) : router A :=
  mkRouter m pat [] [] hs (Some r) [] true.
Lemma any_loop_eq excl ms : forall (hp : heap A) r pat hs x, deref hp r = Ok x -> existsb is_nil hs = false ->
  let kept := List.filter (fun m => negb (existsb (seqb m) excl)) ms in
  any_loop excl ms hp r pat hs =
    Ok (alter (set_sub (fun l => l ++ seq (length hp) (length kept))) r hp ++
        map (fun m => new_leaf r m pat hs) kept).
Proof.
  induction ms as [|m ms IH]; intros hp r pat hs x Hd Hn; cbn [any_loop List.filter].
  - simpl. rewrite app_nil_r. f_equal. symmetry. apply list_alter_id. intros y. destruct y. unfold set_sub. simpl. by rewrite app_nil_r.
  - destruct (existsb (seqb m) excl); cbn [negb map]; [by eapply IH|].
    unfold handle. rewrite Hd. cbn [rbind]. rewrite Hn. cbn [rbind]. apply deref_lt in Hd as (Hlt & Hx & Hl).
    erewrite IH; [|apply (deref_ok _ r (set_sub (fun l => l ++ [length hp]) x))|done].
    + f_equal. rewrite alter_app_l by (by rewrite alter_length).
      rewrite <- app_assoc. f_equal. rewrite <- list_alter_compose.
      rewrite app_length, alter_length. apply list_alter_ext; [|done]. intros y _. destruct y. unfold set_sub. simpl.
      rewrite <- app_assoc. simpl. by rewrite Nat.add_1_r.
    + rewrite lookup_app_l by (by rewrite alter_length). by rewrite list_lookup_alter, Hx.
    + by destruct x.
Qed.
Lemma any_eq excl (hp : heap A) r pat hs x : deref hp r = Ok x -> INil ∉ hs ->
  let kept := List.filter (fun m => negb (existsb (seqb m) excl))
                [L "GET"; L "POST"; L "DELETE"; L "PUT"; L "PATCH"; L "HEAD"; L "OPTIONS"] in
  ANY excl hp r pat hs =
    Ok (alter (set_sub (fun l => l ++ seq (length hp) (length kept))) r hp ++
        map (fun m => new_leaf r m pat hs) kept).
Proof.
  intros Hd Hn. unfold ANY. eapply any_loop_eq; [done|]. apply not_true_iff_false. intros He.
  apply existsb_exists in He as (y & Hy & Hyn). destruct y; try done. apply Hn. by apply elem_of_list_In.
Qed.

(** ** C50 *)
Lemma nil_rejected (hp : heap A) r m pat hs : INil ∈ hs -> ~ is_ok (exec (RHandle r m pat hs) hp).
Proof.
  intros Hn [hp' He]. cbn [exec] in He. destruct (_HTTP_METHODS_NAMES !! m); [|done].
  unfold handle in He. apply rbind_ok in He as (x & _ & He).
  destruct (existsb is_nil hs) eqn:Hx; [done|]. by apply existsb_nil in Hx.
Qed.
Lemma unsupported_rejected ops hp r opts mem x path v :
  run_ops ops [] = Ok hp -> childless (history ops) x -> lineage (history ops) x (r :: path) ->
  v ∈ chain (history ops) (r :: path) x -> v = INil \/ v = IOther ->
  is_panic (fst (Handler re_ok hp r opts mem)).
Proof.
  intros Hr Hc Hl Hv Hn. destruct (handler_iff ops hp r opts mem Hr) as [Hi [Hok|Hp]]; [|done].
  apply Hi in Hok. exfalso. destruct (rg_chain _ _ _ _ Hok x path Hc Hl) as [_ Hs].
  rewrite Forall_forall in Hs. destruct (Hs v Hv) as [y Hy]. destruct Hn as [->| ->]; inversion Hy.
Qed.

(** ** C45 *)
Lemma maxmem_given hb (fs : list (opt A)) o m fs2 : opts_give hb (fs ++ WithMaxMultipartMemory m :: fs2) o ->
  (forall m', WithMaxMultipartMemory m' ∉ fs2) -> o_maxmem o = m.
Proof.
  revert o. induction fs2 as [|f fs2 IH] using rev_ind; intros o Ho Hn.
  - inversion Ho as [Hx|fs0 o0 b H1 H2|fs0 o0 vs hs gs H1 H2 H3 H4 H5|fs0 o0 mm H1 H2]; subst.
    + by destruct fs.
    + by apply app_inj_tail in H2 as [_ ?].
    + by apply app_inj_tail in H5 as [_ ?].
    + apply app_inj_tail in H2 as [_ H2]. by inversion H2.
  - assert (Hn' : forall m', WithMaxMultipartMemory m' ∉ fs2) by (intros m' Hi; apply (Hn m'), elem_of_app; by left).
    rewrite app_comm_cons, app_assoc in Ho.
    inversion Ho as [Hx|fs0 o0 b H1 H2|fs0 o0 vs hs gs H1 H2 H3 H4 H5|fs0 o0 mm H1 H2]; subst.
    + by destruct fs.
    + apply app_inj_tail in H2 as [-> _]. simpl. by apply IH.
    + apply app_inj_tail in H5 as [-> _]. simpl. by apply IH.
    + apply app_inj_tail in H2 as [-> <-]. exfalso. apply (Hn mm), elem_of_app. right. left.
Qed.
Lemma maxmem_absent hb (fs : list (opt A)) o : opts_give hb fs o ->
  (forall m', WithMaxMultipartMemory m' ∉ fs) -> o_maxmem o = 0%Z.
Proof.
  induction 1 as [|fs o b Hg IH|fs o vs hs gs Hg IH Hne Hc Hc'|fs o m Hg IH]; intros Hn; simpl; [done| | |].
  - apply IH. intros m Hi. apply (Hn m), elem_of_app. by left.
  - apply IH. intros m' Hi. apply (Hn m'), elem_of_app. by left.
  - exfalso. apply (Hn m), elem_of_app. right. left.
Qed.
Lemma multipart_memory ops hp r opts mem e mem' : run_ops ops [] = Ok hp ->
  Handler re_ok hp r opts mem = (Ok e, mem') ->
  (forall fs m fs2, opts = fs ++ WithMaxMultipartMemory m :: fs2 ->
     (forall m', WithMaxMultipartMemory m' ∉ fs2) -> mem' = m) /\
  ((forall m', WithMaxMultipartMemory m' ∉ opts) -> mem' = 0%Z).
Proof.
  intros Hr Hh. apply run_heap in Hr as [-> Hw]. apply Handler_built in Hh as (_ & Hb & ->); [|done].
  apply bu_opts in Hb. split.
  - intros fs m fs2 -> Hn. by eapply maxmem_given.
  - intros Hn. by eapply maxmem_absent.
Qed.
End Props.
