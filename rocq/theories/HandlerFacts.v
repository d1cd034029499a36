(** Handler(): exactly when it succeeds, and what engine it builds. *)
From Coq Require Import Sorted.
From Verif Require Import Base GoStr Strconv Pattern Tree GoStrFacts TreeSpec ListFacts TreeFacts TreeMatch TreeTop
  Router RouterSpec RouterFacts RouterDump MethodFacts.

Section Store.
Context {A : Type}.
Implicit Types rs : routeStore A.

Definition rkey (rt : route A) : gostr * gostr := (rt_method rt, rt_uri rt).
Definition named (rt : route A) : bool := negb (seqb (rt_method rt) []).
Record store_ok rs : Prop := {
  so_map : rs_map rs = list_to_map (map (fun rt => (rkey rt, rt)) (rs_slice rs));
  so_nodup : NoDup (map rkey (rs_slice rs))
}.

Lemma store_lookup rs k : store_ok rs -> is_Some (rs_map rs !! k) <-> k ∈ map rkey (rs_slice rs).
Proof.
  intros [-> Hn]. split.
  - intros [rt Hr]. apply elem_of_list_to_map_2 in Hr. apply elem_of_list_fmap in Hr as (rt' & Heq & Hin).
    simplify_eq. by apply elem_of_list_fmap_1.
  - intros Hin. apply elem_of_list_fmap in Hin as (rt & -> & Hin). exists rt.
    apply elem_of_list_to_map_1.
    + unfold fst. rewrite <- list_fmap_compose. done.
    + apply elem_of_list_fmap. eauto.
Qed.

Lemma rs_add_iff rs rt rs' : store_ok rs ->
  rs_add rs rt = Ok rs' <->
  (named rt = false /\ rs' = rs) \/
  (named rt = true /\ rkey rt ∉ map rkey (rs_slice rs) /\
   rs' = mkStore (<[rkey rt := rt]> (rs_map rs)) (rs_slice rs ++ [rt])).
Proof.
  intros Hs. unfold rs_add, named. destruct (seqb (rt_method rt) []); simpl.
  - split; [intros [= <-]; by left|]. intros [[_ ->]|[? _]]; done.
  - destruct (rs_map rs !! (rt_method rt, rt_uri rt)) as [x|] eqn:Hx.
    + split; [done|]. intros [[? _]|(_ & Hn & _)]; [done|]. destruct Hn. apply store_lookup; [done|]. by exists x.
    + split.
      * intros [= <-]. right. split_and!; [done| |done]. intros Hin. apply store_lookup in Hin as [y Hy]; [|done].
        unfold rkey in Hy. congruence.
      * intros [[? _]|(_ & Hn & ->)]; done.
Qed.

Lemma rs_add_store rs rt rs' : store_ok rs -> rs_add rs rt = Ok rs' ->
  store_ok rs' /\ rs_slice rs' = rs_slice rs ++ (if named rt then [rt] else []).
Proof.
  intros Hs Ha. apply rs_add_iff in Ha; [|done]. destruct Ha as [[Hn ->]|(Hn & Hk & ->)]; rewrite Hn.
  - by rewrite app_nil_r.
  - split; [|done]. destruct Hs as [Hm Hnd]. constructor; simpl.
    + rewrite map_app. simpl. rewrite list_to_map_snoc; [by rewrite Hm|].
      unfold fst. by rewrite <- list_fmap_compose.
    + rewrite map_app. simpl. apply NoDup_app. split_and!; [done| |apply NoDup_singleton].
      intros k Hin Hin'. apply elem_of_list_singleton in Hin'. by subst.
Qed.

Lemma addall_iff hp ts : forall rs rs', store_ok rs ->
  addall hp ts rs = Ok rs' <->
  exists rts, Forall2 (fun t rt => getRoute hp t = Ok rt) ts rts /\
    NoDup (map rkey (rs_slice rs ++ List.filter named rts)) /\
    rs_slice rs' = rs_slice rs ++ List.filter named rts /\ store_ok rs'.
Proof.
  induction ts as [|t ts IH]; intros rs rs' Hs; cbn [addall].
  - split.
    + intros [= <-]. exists []. simpl. rewrite app_nil_r. split_and!; [constructor|apply Hs|done|done].
    + intros (rts & Hf & _ & Hsl & Hs'). inversion Hf; subst. simpl in Hsl. rewrite app_nil_r in Hsl.
      destruct rs as [m1 s1], rs' as [m2 s2]. simpl in *. subst s2. destruct Hs as [Hm1 _], Hs' as [Hm2 _].
      simpl in *. by subst.
  - rewrite rbind_ok. split.
    + intros (rt & Hg & Ha). apply rbind_ok in Ha as (rs1 & Hadd & Ha).
      pose proof (rs_add_store _ _ _ Hs Hadd) as [Hs1 Hsl1].
      apply IH in Ha as (rts & Hf & Hnd & Hsl & Hs'); [|done].
      exists (rt :: rts). rewrite Hsl1, <- app_assoc in Hnd, Hsl. cbn [List.filter].
      split_and!; [by constructor| | |done].
      * by destruct (named rt).
      * rewrite Hsl. by destruct (named rt).
    + intros (rts & Hf & Hnd & Hsl & Hs'). inversion Hf as [|? rt ? rts' Hg Hf']; subst. exists rt. split; [done|].
      cbn [List.filter] in *. apply rbind_ok. destruct (named rt) eqn:Hn.
      * assert (Hk : rkey rt ∉ map rkey (rs_slice rs)).
        { rewrite map_app in Hnd. simpl in Hnd. apply NoDup_app in Hnd as (_ & Hd & _). intros Hin.
          apply (Hd _ Hin). left. }
        assert (Hadd : rs_add rs rt = Ok (mkStore (<[rkey rt := rt]> (rs_map rs)) (rs_slice rs ++ [rt]))).
        { apply rs_add_iff; [done|]. right. done. }
        eexists. split; [exact Hadd|]. apply rs_add_store in Hadd as [Hs1 _]; [|done].
        apply IH; [done|]. exists rts'. cbn [rs_slice]. rewrite <- !app_assoc. done.
      * exists rs. split; [by apply rs_add_iff; [done|left]|]. apply IH; [done|]. exists rts'. done.
Qed.

Lemma empty_store_ok : store_ok newRouteStore.
Proof. constructor; [done|constructor]. Qed.
End Store.


(** ** URI check *)
Section Check.
Context {A : Type}.
Definition set_variant (v : route A) : route A :=
  mkRoute (rt_method v) (rt_uri v) (_VariantUri (rt_uri v)) (rt_handlers v).

Lemma last_snoc_iff (c d : ascii) (s : gostr) : s <> [] ->
  List.last s d = c <-> exists t, s = t ++ [c].
Proof.
  intros Hs. destruct (exists_last Hs) as (t & x & ->). rewrite List.last_last. split.
  - intros ->. eauto.
  - intros (t' & Ht). by apply app_inj_tail in Ht as [_ ->].
Qed.
Lemma legal_uri_iff u : (seqb u (L "/") || checkSplitPattern u) = true <-> legal_uri u.
Proof.
  unfold legal_uri. rewrite orb_true_iff, seqb_true. apply or_iff_compat_l.
  unfold checkSplitPattern. destruct u as [|c u].
  - split; [done|]. intros [[t Ht] _]. done.
  - rewrite andb_true_iff, negb_true_iff. rewrite Ascii.eqb_eq.
    assert (Hl : Ascii.eqb (List.last (c :: u) "0"%char) "/" = false <-> ~ exists t, c :: u = t ++ ["/"%char]).
    { rewrite <- (last_snoc_iff "/" "0" (c :: u)) by done. rewrite <- not_true_iff_false, Ascii.eqb_eq. done. }
    rewrite Hl. split.
    + intros [-> ?]. split; [by exists u|done].
    + intros [[t Ht] ?]. inversion Ht; subst. done.
Qed.
Lemma check_uris_iff (l l' : list (route A)) :
  check_uris l = Ok l' <-> Forall (fun v => legal_uri (rt_uri v)) l /\ l' = map set_variant l.
Proof.
  revert l'. induction l as [|v l IH]; intros l'; cbn [check_uris map].
  - split; [intros [= <-]; done|]. by intros [_ ->].
  - destruct (negb _) eqn:Hn.
    + split; [done|]. intros [Hf _]. inversion Hf; subst. apply legal_uri_iff in H1. rewrite H1 in Hn. done.
    + apply negb_false_iff, legal_uri_iff in Hn. rewrite rbind_ok. split.
      * intros (l2 & Hl2 & [= <-]). apply IH in Hl2 as [Hf ->]. split; [by constructor|done].
      * intros [Hf ->]. inversion Hf; subst. exists (map set_variant l). split; [by apply IH|done].
Qed.
End Check.

(** ** buildTree method by method *)
Section Build.
Context {A : Type}.
Variable re_ok : gostr -> bool.
Implicit Types l : list (route A).

Definition of_method (i : nat) (v : route A) : bool := bool_decide (MethodIndex (rt_method v) = Some i).
Definition method_ok (v : route A) : Prop := exists i, MethodIndex (rt_method v) = Some i.

Lemma MethodIndex_lt m i : MethodIndex m = Some i -> i < 7.
Proof. unfold MethodIndex. repeat (destruct (seqb _ _); [intros [= <-]; lia|]). done. Qed.
Lemma MethodIndex_names m : m ∈ _HTTP_METHODS_NAMES <-> exists i, MethodIndex m = Some i.
Proof.
  split.
  - intros Hm. unfold _HTTP_METHODS_NAMES in Hm.
    repeat (apply elem_of_cons in Hm as [->|Hm]; [vm_compute; eauto|]). by apply elem_of_nil in Hm.
  - intros [i Hi]. unfold MethodIndex in Hi.
    repeat match type of Hi with context [seqb m ?x] =>
      destruct (seqb_spec m x) as [->|?]; [apply (bool_decide_eq_true_1 _); vm_compute; reflexivity|] end.
    done.
Qed.

Lemma buildTree_iff static l : forall ms ms', length ms = 8 -> Forall method_ok l ->
  buildTree re_ok static ms l = Ok ms' <->
  length ms' = 8 /\
  forall i m m', ms !! i = Some m -> ms' !! i = Some m' ->
    add_routes re_ok static m (List.filter (of_method i) l) = Ok m'.
Proof.
  induction l as [|v l IH]; intros ms ms' Hl Hm; cbn [buildTree List.filter].
  - cbn [add_routes]. split.
    + intros [= <-]. split; [done|]. intros i m m' H1 H2. congruence.
    + intros [Hl' Hf]. f_equal. apply list_eq. intros i.
      destruct (ms !! i) as [m|] eqn:Hi.
      * assert (i < length ms') as Hlt by (apply lookup_lt_Some in Hi; lia).
        apply lookup_lt_is_Some in Hlt as [m' Hi']. rewrite Hi'. specialize (Hf _ _ _ Hi Hi'). congruence.
      * apply lookup_ge_None in Hi. symmetry. apply lookup_ge_None. lia.
  - inversion Hm as [|? ? [i0 Hi0] Hm']; subst. rewrite Hi0.
    pose proof (MethodIndex_lt _ _ Hi0) as Hlt. destruct (ms !! i0) as [m0|] eqn:Hms0.
    2: { apply lookup_ge_None in Hms0. lia. }
    rewrite rbind_ok. split.
    + intros (m1 & Ha & Hb). apply IH in Hb as [Hl' Hb]; [|by rewrite insert_length|done]. split; [done|].
      intros i m m' H1 H2. destruct (decide (i = i0)) as [->|Hne].
      * assert (of_method i0 v = true) as -> by (by apply bool_decide_eq_true). cbn [add_routes].
        rewrite Hms0 in H1. simplify_eq. rewrite Ha. cbn [rbind]. apply Hb; [|done].
        apply list_lookup_insert. lia.
      * assert (of_method i v = false) as -> by (apply bool_decide_eq_false; congruence).
        apply Hb; [|done]. by rewrite list_lookup_insert_ne.
    + intros [Hl' Hf].
      assert (exists m', ms' !! i0 = Some m') as [m' Hm0'] by (apply lookup_lt_is_Some; lia).
      pose proof (Hf _ _ _ Hms0 Hm0') as Ha.
      assert (of_method i0 v = true) as Ht by (by apply bool_decide_eq_true). rewrite Ht in Ha.
      cbn [add_routes] in Ha. apply rbind_ok in Ha as (m1 & Ha & Hr). exists m1. split; [done|].
      apply IH; [by rewrite insert_length|done|]. split; [done|]. intros i m m'' H1 H2.
      destruct (decide (i = i0)) as [->|Hne].
      * rewrite list_lookup_insert in H1 by lia. simplify_eq. done.
      * rewrite list_lookup_insert_ne in H1 by done. specialize (Hf _ _ _ H1 H2).
        assert (of_method i v = false) as Hfi by (apply bool_decide_eq_false; congruence).
        by rewrite Hfi in Hf.
Qed.

Lemma filter_forall {B} (f : B -> bool) (P : B -> Prop) (l : list B) : Forall P l -> Forall P (List.filter f l).
Proof. induction 1 as [|x l Hx Hl IH]; simpl; [constructor|]. destruct (f x); [by constructor|done]. Qed.

Lemma routes_of_forall l : (exists tbl, routes_of re_ok (added l) tbl) <->
  Forall (fun v => exists r, uri_route re_ok (rt_variant v) r) l.
Proof.
  split.
  - intros [tbl Hro]. unfold routes_of, added in Hro. rewrite Forall2_fmap_l in Hro.
    induction Hro; constructor; [by eexists|done].
  - induction 1 as [|v l [r Hr] Hl [tbl IH]]; [exists []; constructor|]. exists (r :: tbl). by constructor.
Qed.

Lemma buildTree_ok_iff static l : Forall method_ok l ->
  is_ok (buildTree re_ok static no_routers l) <-> Forall (fun v => exists r, uri_route re_ok (rt_variant v) r) l.
Proof.
  intros Hm. split.
  - intros [ms' Hb]. apply buildTree_iff in Hb as [Hl Hb]; [|done|done]. apply Forall_forall. intros v Hv.
    rewrite Forall_forall in Hm. destruct (Hm v Hv) as [i Hi]. pose proof (MethodIndex_lt _ _ Hi) as Hlt.
    assert (exists m, no_routers (A:=A) !! i = Some m) as [m Hmi].
    { apply lookup_lt_is_Some. unfold no_routers. rewrite replicate_length. lia. }
    assert (exists m', ms' !! i = Some m') as [m' Hmi'] by (apply lookup_lt_is_Some; lia).
    pose proof (Hb _ _ _ Hmi Hmi') as Ha. unfold no_routers in Hmi. apply lookup_replicate in Hmi as [-> _].
    apply (add_routes_minv re_ok (fun _ _ => None)) in Ha as [tbl Ht]. destruct Ht as [Hro _ _ _ _ _].
    assert (Hex : exists tbl, routes_of re_ok (added (List.filter (of_method i) l)) tbl) by eauto.
    apply routes_of_forall in Hex. rewrite Forall_forall in Hex. apply Hex.
    apply elem_of_list_In, List.filter_In. split; [by apply elem_of_list_In|]. by apply bool_decide_eq_true.
  - intros Hf.
    assert (Hall : forall i, is_ok (add_routes re_ok static empty_mrouter (List.filter (of_method i) l))).
    { intros i. apply add_routes_ok. apply routes_of_forall. by apply filter_forall. }
    exists (map (fun i => match add_routes re_ok static empty_mrouter (List.filter (of_method i) l) with
                     | Ok m => m | _ => empty_mrouter end) (seq 0 8)).
    apply buildTree_iff; [done|done|]. split; [done|]. intros i m m' H1 H2.
    unfold no_routers in H1. apply lookup_replicate in H1 as [-> Hlt].
    rewrite list_lookup_fmap, lookup_seq_lt in H2 by lia. simpl in H2. destruct (Hall i) as [m1 Hm1].
    rewrite Hm1 in H2. rewrite Hm1. congruence.
Qed.
End Build.

(** ** Handler *)
Section Handler.
Context {A : Type}.
Variable re_ok : gostr -> bool.
Implicit Types h : list (ev A).

(** the route a leaf stands for *)
Definition route_of h (l : nat) (rt : route A) : Prop :=
  exists path m, lineage h l path /\ is_route h l m /\
    rt_method rt = m /\ rt_uri rt = full_uri h path /\ rt_variant rt = _VariantUri (full_uri h path) /\
    rt_handlers rt <> [] /\ Forall2 converts (chain h path l) (rt_handlers rt).

(** the routes of a root in dispatch order: the leaves below it by lineage *)
Definition leaves h (r : nat) (ls : list nat) : Prop :=
  (forall l, l ∈ ls <-> (exists m, is_route h l m) /\ exists path, lineage h l (r :: path)) /\
  StronglySorted (ltl h) ls.

Lemma route_childless h l m : wf h -> is_route h l m -> childless h l.
Proof.
  intros Hw (p & pat & hs & Hc) i c Hi Hp. destruct (wf_parent h Hw _ _ _ Hi Hp) as (_ & e & He & Hl).
  rewrite He in Hc. by simplify_eq.
Qed.

Lemma getRoute_iff h r rt : wf h -> getRoute (heap_of h) r = Ok rt <->
  exists c path, creations h !! r = Some c /\ lineage h r path /\
    Forall2 converts (chain h path r) (rt_handlers rt) /\ rt_handlers rt <> [] /\
    rt_method rt = method_of c /\ rt_uri rt = full_uri h path /\ rt_variant rt = [].
Proof.
  intros Hw. split.
  - intros Hg. assert (exists c, creations h !! r = Some c) as [c Hc].
    { unfold getRoute in Hg. apply rbind_ok in Hg as ([ps hs] & Hcl & _). cbn [climb] in Hcl.
      rewrite heap_lookup in Hcl. destruct (creations h !! r); [eauto|done]. }
    destruct (lineage_exists h Hw _ _ Hc) as [path Hp]. rewrite (getRoute_eq h r c path Hw Hc Hp) in Hg.
    apply rbind_ok in Hg as (hs & Hhs & Hg). apply newHandlers_ok in Hhs. destruct hs as [|x hs]; [done|].
    inversion Hg; subst. exists c, path. split_and!; done.
  - intros (c & path & Hc & Hp & Hconv & Hne & Hm & Hu & Hv). rewrite (getRoute_eq h r c path Hw Hc Hp).
    apply rbind_ok. exists (rt_handlers rt). split; [by apply newHandlers_ok|].
    destruct rt as [m u v hs]. simpl in *. subst. by destruct hs.
Qed.

(** the registration part of Handler: everything before buildTree *)
Definition collect (hp : heap A) (r : nat) (opts : list (opt A)) : res (options A * routeStore A) :=
  let! x := deref hp r in
  if negb (IsParent x) then Panic (L "sub router not allowed: Handler()")
  else
    let! o := apply_opts (mkOptions false [] 0%Z) opts in
    let! o :=
      (if negb (length (o_nofound o) =? 0) && negb (length (r_gbefores x) =? 0) then
         let! g := newHandlers (r_gbefores x) in
         Ok (mkOptions (o_static o) (g ++ o_nofound o) (o_maxmem o))
       else Ok o) in
    let! rs := dumpRoute (S (length hp)) hp r newRouteStore in
    let! slice := check_uris (rs_slice rs) in
    Ok (o, mkStore (rs_map rs) slice).

Lemma Handler_collect hp r opts mem :
  Handler re_ok hp r opts mem =
  match collect hp r opts with
  | Panic m => (Panic m, mem)
  | Diverge => (Diverge, mem)
  | Ok (o, rs) => (let! ms := buildTree re_ok (o_static o) no_routers (rs_slice rs) in
                   Ok (mkEngine o r ms rs), o_maxmem o)
  end.
Proof. reflexivity. Qed.

(** what the options give: the last of each kind counts *)
Inductive opts_give (hb : list (ival A)) : list (opt A) -> options A -> Prop :=
  | og_none : opts_give hb [] (mkOptions false [] 0%Z)
  | og_static fs o b : opts_give hb fs o ->
      opts_give hb (fs ++ [WithStaticRouter b]) (mkOptions b (o_nofound o) (o_maxmem o))
  | og_nofound fs o vs hs gs : opts_give hb fs o -> vs <> [] -> Forall2 converts vs hs ->
      Forall2 converts hb gs ->
      opts_give hb (fs ++ [WithNoFoundHandlers vs]) (mkOptions (o_static o) (gs ++ hs) (o_maxmem o))
  | og_maxmem fs o m : opts_give hb fs o ->
      opts_give hb (fs ++ [WithMaxMultipartMemory m]) (mkOptions (o_static o) (o_nofound o) m).


Lemma apply_opts_app (o : options A) f1 f2 :
  apply_opts o (f1 ++ f2) = let! o := apply_opts o f1 in apply_opts o f2.
Proof.
  revert o. induction f1 as [|f f1 IH]; intros o; simpl; [done|].
  destruct (apply_opt o f); simpl; [|done|done]. apply IH.
Qed.

(** the options step of Handler *)
Definition options_step (gb : list (ival A)) (opts : list (opt A)) : res (options A) :=
  let! o := apply_opts (mkOptions false [] 0%Z) opts in
  if negb (length (o_nofound o) =? 0) && negb (length gb =? 0) then
    let! g := newHandlers gb in Ok (mkOptions (o_static o) (g ++ o_nofound o) (o_maxmem o))
  else Ok o.

Lemma opts_raw gb opts o' : opts_give gb opts o' <->
  exists o, apply_opts (mkOptions false [] 0%Z) opts = Ok o /\
    o_static o' = o_static o /\ o_maxmem o' = o_maxmem o /\
    ((o_nofound o = [] /\ o_nofound o' = []) \/
     (o_nofound o <> [] /\ exists g, Forall2 converts gb g /\ o_nofound o' = g ++ o_nofound o)).
Proof.
  split.
  - induction 1 as [|fs o b Hg (o1 & Ha & H1 & H2 & H3)|fs o vs hs gs Hg (o1 & Ha & H1 & H2 & H3) Hne Hc Hc'
                    |fs o m Hg (o1 & Ha & H1 & H2 & H3)].
    + eexists. split; [reflexivity|]. simpl. split_and!; try done. by left.
    + exists (mkOptions b (o_nofound o1) (o_maxmem o1)). rewrite apply_opts_app, Ha. simpl. done.
    + exists (mkOptions (o_static o1) hs (o_maxmem o1)). rewrite apply_opts_app, Ha. cbn [rbind].
      apply newHandlers_ok in Hc as Hc2. destruct vs as [|v vs]; [done|]. cbn [apply_opts apply_opt]. rewrite Hc2. simpl. split_and!; try done.
      right. split; [|by exists gs]. inversion Hc; subst; done.
    + exists (mkOptions (o_static o1) (o_nofound o1) m). rewrite apply_opts_app, Ha. simpl. done.
  - intros (o & Ha & H1 & H2 & H3). revert o o' Ha H1 H2 H3.
    induction opts as [|f fs IH] using rev_ind; intros o o' Ha H1 H2 H3.
    + simpl in Ha. inversion Ha; subst. destruct o' as [s n m]. simpl in *. subst.
      destruct H3 as [[_ ->]|[? _]]; [constructor|done].
    + rewrite apply_opts_app in Ha. apply rbind_ok in Ha as (o1 & Ha & Hf). simpl in Hf.
      apply rbind_ok in Hf as (o2 & Hf & Heq). inversion Heq; subst o2. destruct o' as [s n m]. simpl in *. subst s m.
      destruct f as [b|vs|mm]; cbn [apply_opt] in Hf.
      * inversion Hf; subst. simpl in *.
        apply (og_static gb fs (mkOptions (o_static o1) n (o_maxmem o1))). by eapply IH.
      * destruct vs as [|v vs]; [done|]. apply rbind_ok in Hf as (hs & Hhs & Hf). apply newHandlers_ok in Hhs.
        inversion Hf; subst. cbn [o_nofound o_static o_maxmem] in *.
        destruct H3 as [[-> _]|(Hne & g & Hg & ->)]; [by inversion Hhs|].
        destruct (o_nofound o1) as [|x l] eqn:Hnf.
        -- apply (og_nofound gb fs (mkOptions (o_static o1) [] (o_maxmem o1))); try done.
           eapply IH; [done|done|done|]. left. done.
        -- apply (og_nofound gb fs (mkOptions (o_static o1) (g ++ x :: l) (o_maxmem o1))); try done.
           eapply IH; [done|done|done|]. right. rewrite Hnf. split; [done|]. by exists g.
      * inversion Hf; subst. simpl in *.
        apply (og_maxmem gb fs (mkOptions (o_static o1) n (o_maxmem o1))). by eapply IH.
Qed.

Lemma options_step_iff gb opts o' : options_step gb opts = Ok o' <-> opts_give gb opts o'.
Proof.
  rewrite opts_raw. unfold options_step. rewrite rbind_ok. split.
  - intros (o & Ha & Hs). exists o. split; [done|].
    destruct (o_nofound o) as [|x l] eqn:Hn; simpl in Hs.
    + inversion Hs; subst. split_and!; try done. left. done.
    + destruct gb as [|v gb]; simpl in Hs.
      * inversion Hs; subst. split_and!; try done. right. split; [done|]. exists []. rewrite Hn. split; [constructor|done].
      * cbn [newHandlers] in Hs. change ((let! g := newHandlers (v :: gb) in Ok (mkOptions (o_static o) (g ++ x :: l) (o_maxmem o))) = Ok o') in Hs.
        apply rbind_ok in Hs as (g & Hg & Hs). inversion Hs; subst. simpl. split_and!; try done.
        right. split; [done|]. exists g. split; [by apply newHandlers_ok|done].
  - intros (o & Ha & H1 & H2 & H3). exists o. split; [done|]. destruct o' as [s n m], o as [s' n' m'].
    simpl in *. subst. destruct H3 as [[-> ->]|(Hne & g & Hg & ->)]; [done|].
    destruct n' as [|x l]; [done|]. simpl. destruct gb as [|v gb]; simpl.
    + inversion Hg; subst. done.
    + change ((let! g := newHandlers (v :: gb) in Ok (mkOptions s' (g ++ x :: l) m')) = Ok (mkOptions s' (g ++ x :: l) m')).
      apply newHandlers_ok in Hg. by rewrite Hg.
Qed.

(** when Handler() succeeds, in terms of the history *)
Record registrable h (r : nat) (opts : list (opt A)) : Prop := {
  rg_root : creations h !! r = Some ENew;
  rg_opts : exists o, opts_give (befores h r) opts o;
  rg_chain : forall x path, childless h x -> lineage h x (r :: path) ->
    chain h (r :: path) x <> [] /\ Forall supported (chain h (r :: path) x);
  rg_distinct : forall l1 l2 m p1 p2, is_route h l1 m -> is_route h l2 m ->
    lineage h l1 (r :: p1) -> lineage h l2 (r :: p2) ->
    full_uri h (r :: p1) = full_uri h (r :: p2) -> l1 = l2;
  rg_legal : forall l m path, is_route h l m -> lineage h l (r :: path) ->
    legal_uri (full_uri h (r :: path)) /\
    exists ps, uri_route re_ok (_VariantUri (full_uri h (r :: path))) ps
}.

(** what it returns *)
Record built h (r : nat) (opts : list (opt A)) (e : engine A) : Prop := {
  bu_root : en_root e = r;
  bu_opts : opts_give (befores h r) opts (en_options e);
  bu_store : exists ls, leaves h r ls /\ Forall2 (route_of h) ls (rs_slice (en_store e));
  bu_len : length (en_routers e) = 8;
  bu_meth : Forall method_ok (rs_slice (en_store e));
  bu_routers : forall i m, en_routers e !! i = Some m ->
    exists tbl, minv re_ok (o_static (en_options e))
                  (List.filter (of_method i) (rs_slice (en_store e))) m tbl
}.

Lemma method_nonempty m : m ∈ _HTTP_METHODS_NAMES -> m <> [].
Proof.
  intros Hm. unfold _HTTP_METHODS_NAMES in Hm.
  repeat (apply elem_of_cons in Hm as [->|Hm]; [done|]). by apply elem_of_nil in Hm.
Qed.

Lemma method_route h r c : wf h -> creations h !! r = Some c ->
  (method_of c <> [] <-> is_route h r (method_of c)).
Proof.
  intros Hw Hc. split.
  - intros Hm. destruct c as [| |p m pat hs| | |]; try done. unfold is_route. eauto.
  - intros (p & pat & hs & Hc'). rewrite Hc in Hc'. inversion Hc' as [Heq]. rewrite Heq in *.
    simpl. apply method_nonempty. eapply (wf_method h Hw). eauto.
Qed.

Lemma sorted_filter {B} (R : B -> B -> Prop) (f : B -> bool) l :
  StronglySorted R l -> StronglySorted R (List.filter f l).
Proof.
  induction 1 as [|x l H1 IH Hx]; simpl; [constructor|]. destruct (f x); [|done].
  constructor; [done|]. by apply filter_forall.
Qed.

Lemma Forall2_filter {B C} (R : B -> C -> Prop) (f : B -> bool) (g : C -> bool) l k :
  Forall2 R l k -> (forall x y, R x y -> f x = g y) ->
  Forall2 R (List.filter f l) (List.filter g k).
Proof.
  intros HF Hfg. induction HF as [|x y l k Hxy HF IH]; simpl; [constructor|].
  rewrite (Hfg _ _ Hxy). destruct (g y); [by constructor|done].
Qed.


Lemma Forall2_lookup_of {B C} (R : B -> C -> Prop) l k x : Forall2 R l k -> x ∈ l -> exists y, y ∈ k /\ R x y.
Proof.
  intros HF Hx. apply elem_of_list_lookup in Hx as [i Hi]. destruct (Forall2_lookup_l _ _ _ _ _ HF Hi) as (y & Hy & HR).
  exists y. split; [by eapply elem_of_list_lookup_2|done].
Qed.
Lemma Forall2_lookup_of_r {B C} (R : B -> C -> Prop) l k y : Forall2 R l k -> y ∈ k -> exists x, x ∈ l /\ R x y.
Proof.
  intros HF Hx. apply elem_of_list_lookup in Hx as [i Hi]. destruct (Forall2_lookup_r _ _ _ _ _ HF Hi) as (x & Hy & HR).
  exists x. split; [by eapply elem_of_list_lookup_2|done].
Qed.

Section WithHistory.
Context (h : list (ev A)) (r : nat) (opts : list (opt A)).
Hypothesis Hw : wf h.
Hypothesis Hroot : creations h !! r = Some ENew.

Let ts := terms (S (length (heap_of h))) (heap_of h) r.

Lemma ts_elem x : x ∈ ts <-> childless h x /\ exists path, lineage h x (r :: path).
Proof.
  unfold ts. rewrite (terms_elem h Hw _ r [r]); [done|by constructor|].
  rewrite heap_length. lia.
Qed.
Lemma ts_sorted : StronglySorted (ltl h) ts.
Proof. apply (terms_sorted h Hw _ r [r]); [by constructor|]. rewrite heap_length. lia. Qed.

Definition route_b (x : nat) : bool :=
  match creations h !! x with Some (ERoute _ _ _ _) => true | _ => false end.
Lemma route_b_iff x : route_b x = true <-> exists m, is_route h x m.
Proof.
  unfold route_b, is_route. destruct (creations h !! x) as [[]|]; split; try done; try (by intros (? & ? & ? & ? & ?)).
  intros _. eauto 10.
Qed.

Lemma leaves_ts : leaves h r (List.filter route_b ts).
Proof.
  split; [|by apply sorted_filter, ts_sorted]. intros l.
  rewrite elem_of_list_In, List.filter_In, <- elem_of_list_In, ts_elem, route_b_iff. split.
  - intros [[_ Hl] Hm]. done.
  - intros [[m Hm] Hl]. split; [|by exists m]. split; [by eapply route_childless|done].
Qed.

(** what getRoute gives for a terminal *)
Definition raw_of (x : nat) (rt : route A) : Prop := getRoute (heap_of h) x = Ok rt.
Lemma raw_named x rt : raw_of x rt -> route_b x = named rt.
Proof.
  intros Hg. apply getRoute_iff in Hg as (c & path & Hc & Hl & Hcv & Hne & Hm & Hu & Hv); [|done].
  apply eq_bool_prop_intro. split; intros Ht; apply Is_true_true in Ht; apply Is_true_true.
  - apply route_b_iff in Ht as (m & p & pat & hs & Hc'). rewrite Hc in Hc'. inversion Hc'; subst c.
    unfold named. apply negb_true_iff, seqb_false. rewrite Hm. apply (method_route h x _ Hw Hc).
    unfold is_route. eauto.
  - apply route_b_iff. exists (method_of c). apply (method_route h x _ Hw Hc). rewrite <- Hm.
    unfold named in Ht. apply negb_true_iff, seqb_false in Ht. done.
Qed.
Lemma raw_route x rt : raw_of x rt -> route_b x = true -> route_of h x (set_variant rt).
Proof.
  intros Hg Hb. apply getRoute_iff in Hg as (c & path & Hc & Hl & Hcv & Hne & Hm & Hu & Hv); [|done].
  apply route_b_iff in Hb as (m & Hm'). exists path, m. pose proof Hm' as (p & pat & hs & Hc').
  rewrite Hc in Hc'. inversion Hc'; subst c. simpl in *. rewrite Hu. done.
Qed.


Lemma deref_root : exists y, deref (heap_of h) r = Ok y /\ IsParent y = true /\ r_gbefores y = befores h r.
Proof.
  unfold deref. rewrite heap_lookup, Hroot. eexists. split; [reflexivity|]. done.
Qed.

Lemma collect_eq : collect (heap_of h) r opts =
  let! o := options_step (befores h r) opts in
  let! rs := addall (heap_of h) ts newRouteStore in
  let! slice := check_uris (rs_slice rs) in
  Ok (o, mkStore (rs_map rs) slice).
Proof.
  unfold collect. destruct deref_root as (y & -> & HP & HG). cbn [rbind]. rewrite HP, HG. cbn [negb].
  unfold options_step. destruct (apply_opts _ opts) as [o| |]; cbn [rbind]; [|done|done].
  assert (Hd : dumpRoute (S (length (heap_of h))) (heap_of h) r newRouteStore = addall (heap_of h) ts newRouteStore).
  { apply dumpRoute_terms; [done|by eapply lookup_lt_Some|]. rewrite heap_length. lia. }
  by rewrite Hd.
Qed.

Lemma raw_legal x rt path : raw_of x rt -> lineage h x (r :: path) -> rt_uri rt = full_uri h (r :: path).
Proof.
  intros Hg Hl. apply getRoute_iff in Hg as (c & p & Hc & Hl' & Hcv & Hne & Hm & Hu & Hv); [|done].
  by rewrite (lineage_fun _ _ _ _ Hl Hl').
Qed.
Lemma raw_method x rt m : raw_of x rt -> is_route h x m -> rt_method rt = m.
Proof.
  intros Hg (p' & pat & hs & Hc'). apply getRoute_iff in Hg as (c & p & Hc & Hl' & Hcv & Hne & Hm & Hu & Hv); [|done].
  rewrite Hc in Hc'. inversion Hc'; subst. done.
Qed.
Lemma raw_chain x path : lineage h x (r :: path) ->
  (exists rt, raw_of x rt) <-> chain h (r :: path) x <> [] /\ Forall supported (chain h (r :: path) x).
Proof.
  intros Hl. split.
  - intros [rt Hg]. apply getRoute_iff in Hg as (c & p & Hc & Hl' & Hcv & Hne & Hm & Hu & Hv); [|done].
    rewrite (lineage_fun _ _ _ _ Hl Hl'). split.
    + intros Hn. rewrite Hn in Hcv. apply Hne. by inversion Hcv.
    + apply supported_all. exists (rt_handlers rt). by apply newHandlers_ok.
  - intros [Hne Hs]. apply supported_all in Hs as [hs Hhs]. apply newHandlers_ok in Hhs.
    destruct (lineage_creation _ _ _ Hl) as [c Hc].
    exists (mkRoute (method_of c) (full_uri h (r :: path)) [] hs). apply getRoute_iff; [done|].
    exists c, (r :: path). simpl. split_and!; try done. intros ->. inversion Hhs. congruence.
Qed.

Lemma method_ok_of x rt : raw_of x rt -> route_b x = true -> method_ok (set_variant rt).
Proof.
  intros Hg Hb. apply route_b_iff in Hb as (m & Hm). pose proof (raw_method _ _ _ Hg Hm) as Hrm.
  destruct Hm as (p & pat & hs & Hc). apply MethodIndex_names. simpl. rewrite Hrm.
  eapply (wf_method h Hw). eauto.
Qed.

Lemma collect_parts o st : collect (heap_of h) r opts = Ok (o, st) <->
  opts_give (befores h r) opts o /\
  exists rs rts, Forall2 raw_of ts rts /\ NoDup (map rkey (List.filter named rts)) /\
    rs_slice rs = List.filter named rts /\ store_ok rs /\
    Forall (fun v => legal_uri (rt_uri v)) (List.filter named rts) /\
    st = mkStore (rs_map rs) (map set_variant (List.filter named rts)).
Proof.
  rewrite collect_eq. rewrite rbind_ok. split.
  - intros (o' & Ho & Hc). apply rbind_ok in Hc as (rs & Ha & Hc). apply rbind_ok in Hc as (sl & Hch & Heq).
    inversion Heq; subst. split; [by apply options_step_iff|].
    apply addall_iff in Ha as (rts & Hf & Hnd & Hsl & Hso); [|apply empty_store_ok]. simpl in Hnd, Hsl.
    apply check_uris_iff in Hch as [Hlg ->]. rewrite Hsl in Hlg. rewrite Hsl. exists rs, rts. done.
  - intros (Ho & rs & rts & Hf & Hnd & Hsl & Hso & Hlg & ->). exists o. split; [by apply options_step_iff|].
    apply rbind_ok. exists rs. split.
    + apply addall_iff; [apply empty_store_ok|]. exists rts. done.
    + apply rbind_ok. exists (map set_variant (List.filter named rts)). split; [|done].
      apply check_uris_iff. by rewrite Hsl.
Qed.

(** the rts of [collect_parts] exist exactly when the chains are fine *)
Lemma raws_exist : (exists rts, Forall2 raw_of ts rts) <->
  forall x path, childless h x -> lineage h x (r :: path) ->
    chain h (r :: path) x <> [] /\ Forall supported (chain h (r :: path) x).
Proof.
  split.
  - intros [rts Hf] x path Hc Hl. apply raw_chain; [done|].
    assert (x ∈ ts) as Hx by (apply ts_elem; eauto).
    destruct (Forall2_lookup_of _ _ _ _ Hf Hx) as (rt & _ & Hr). eauto.
  - intros Hall. assert (Ht : Forall (fun x => exists rt, raw_of x rt) ts).
    { apply Forall_forall. intros x Hx. apply ts_elem in Hx as [Hc [path Hl]]. apply (raw_chain x path Hl). by apply Hall. }
    induction Ht as [|x l [rt Hrt] Ht [rts IH]]; [exists []; constructor|]. exists (rt :: rts). by constructor.
Qed.

Lemma raws_pair rts x y : Forall2 raw_of ts rts -> NoDup (map rkey (List.filter named rts)) ->
  forall rx ry, x ∈ ts -> y ∈ ts -> raw_of x rx -> raw_of y ry -> route_b x = true -> route_b y = true ->
  rkey rx = rkey ry -> x = y.
Proof.
  intros Hf Hnd rx ry Hx Hy Hrx Hry Hbx Hby Hk.
  assert (Hf' : Forall2 raw_of (List.filter route_b ts) (List.filter named rts))
    by (apply Forall2_filter; [done|apply raw_named]).
  assert (x ∈ List.filter route_b ts) as Hx' by (apply elem_of_list_In, List.filter_In; by rewrite <- elem_of_list_In).
  assert (y ∈ List.filter route_b ts) as Hy' by (apply elem_of_list_In, List.filter_In; by rewrite <- elem_of_list_In).
  apply elem_of_list_lookup in Hx' as [i Hi], Hy' as [j Hj].
  destruct (Forall2_lookup_l _ _ _ _ _ Hf' Hi) as (rx' & Hi' & Hrx').
  destruct (Forall2_lookup_l _ _ _ _ _ Hf' Hj) as (ry' & Hj' & Hry').
  unfold raw_of in *. rewrite Hrx in Hrx'. rewrite Hry in Hry'. inversion Hrx'; inversion Hry'; subst rx' ry'.
  assert (i = j).
  { eapply NoDup_lookup; [exact Hnd| |].
    - rewrite list_lookup_fmap, Hi'. reflexivity.
    - rewrite list_lookup_fmap, Hj'. simpl. by rewrite Hk. }
  subst. congruence.
Qed.

Lemma raws_distinct rts : Forall2 raw_of ts rts ->
  NoDup (map rkey (List.filter named rts)) <->
  (forall l1 l2 m p1 p2, is_route h l1 m -> is_route h l2 m ->
    lineage h l1 (r :: p1) -> lineage h l2 (r :: p2) ->
    full_uri h (r :: p1) = full_uri h (r :: p2) -> l1 = l2).
Proof.
  intros Hf. split.
  - intros Hnd l1 l2 m p1 p2 H1 H2 L1 L2 Heq.
    assert (l1 ∈ ts) as T1 by (apply ts_elem; split; [by eapply route_childless|eauto]).
    assert (l2 ∈ ts) as T2 by (apply ts_elem; split; [by eapply route_childless|eauto]).
    destruct (Forall2_lookup_of _ _ _ _ Hf T1) as (r1 & _ & R1).
    destruct (Forall2_lookup_of _ _ _ _ Hf T2) as (r2 & _ & R2).
    eapply (raws_pair rts l1 l2 Hf Hnd r1 r2); try done; [apply route_b_iff; eauto|apply route_b_iff; eauto|].
    unfold rkey. rewrite (raw_method _ _ _ R1 H1), (raw_method _ _ _ R2 H2).
    rewrite (raw_legal _ _ _ R1 L1), (raw_legal _ _ _ R2 L2). congruence.
  - intros Hd.
    assert (Hf' : Forall2 raw_of (List.filter route_b ts) (List.filter named rts))
      by (apply Forall2_filter; [done|apply raw_named]).
    assert (Hnd : NoDup (List.filter route_b ts)).
    { eapply sorted_nodup. apply sorted_filter, ts_sorted. }
    apply NoDup_alt. intros i j k Hi Hj. rewrite list_lookup_fmap in Hi, Hj.
    destruct (List.filter named rts !! i) as [rx|] eqn:Hrx; [|done].
    destruct (List.filter named rts !! j) as [ry|] eqn:Hry; [|done]. simpl in *.
    inversion Hi as [Hk]. inversion Hj as [Hk']. subst k.
    destruct (Forall2_lookup_r _ _ _ _ _ Hf' Hrx) as (x & Hx & Rx).
    destruct (Forall2_lookup_r _ _ _ _ _ Hf' Hry) as (y & Hy & Ry).
    eapply NoDup_lookup; [exact Hnd|exact Hx|]. rewrite Hy. f_equal.
    apply elem_of_list_lookup_2, elem_of_list_In, List.filter_In in Hx as [Hx Bx].
    apply elem_of_list_lookup_2, elem_of_list_In, List.filter_In in Hy as [Hy By].
    apply elem_of_list_In, ts_elem in Hx as [_ [px Lx]]. apply elem_of_list_In, ts_elem in Hy as [_ [py Ly]].
    apply route_b_iff in Bx as [mx Mx], By as [my My].
    unfold rkey in Hk'. rewrite (raw_method _ _ _ Rx Mx), (raw_method _ _ _ Ry My) in Hk'.
    rewrite (raw_legal _ _ _ Rx Lx), (raw_legal _ _ _ Ry Ly) in Hk'. inversion Hk'; subst.
    eapply Hd; try done.
Qed.

Lemma raws_routes rts : Forall2 raw_of ts rts ->
  Forall2 (route_of h) (List.filter route_b ts) (map set_variant (List.filter named rts)).
Proof.
  intros Hf.
  assert (Hf' : Forall2 raw_of (List.filter route_b ts) (List.filter named rts))
    by (apply Forall2_filter; [done|apply raw_named]).
  apply Forall2_fmap_r. apply Forall2_same_length_lookup_2; [by eapply Forall2_length|].
  intros i x rt Hx Hrt. destruct (Forall2_lookup_l _ _ _ _ _ Hf' Hx) as (rt' & Hrt' & Hr).
  rewrite Hrt in Hrt'. inversion Hrt'; subst rt'.
  apply elem_of_list_lookup_2, elem_of_list_In, List.filter_In in Hx as [_ Hb]. by apply raw_route.
Qed.
Lemma raws_methods rts : Forall2 raw_of ts rts -> Forall method_ok (map set_variant (List.filter named rts)).
Proof.
  intros Hf.
  assert (Hf' : Forall2 raw_of (List.filter route_b ts) (List.filter named rts))
    by (apply Forall2_filter; [done|apply raw_named]).
  apply Forall_forall. intros v Hv. apply elem_of_list_fmap in Hv as (rt & -> & Hrt).
  destruct (Forall2_lookup_of_r _ _ _ _ Hf' Hrt) as (x & Hx & Hr).
  apply elem_of_list_In, List.filter_In in Hx as [_ Hb]. by eapply method_ok_of.
Qed.
Lemma raws_forall (P : gostr -> Prop) rts : Forall2 raw_of ts rts ->
  Forall (fun v => P (rt_uri v)) (List.filter named rts) <->
  (forall l m path, is_route h l m -> lineage h l (r :: path) -> P (full_uri h (r :: path))).
Proof.
  intros Hf.
  assert (Hf' : Forall2 raw_of (List.filter route_b ts) (List.filter named rts))
    by (apply Forall2_filter; [done|apply raw_named]).
  rewrite Forall_forall. split.
  - intros Hall l m path Hm Hl.
    assert (Hx : l ∈ List.filter route_b ts).
    { apply leaves_ts. eauto. }
    destruct (Forall2_lookup_of _ _ _ _ Hf' Hx) as (rt & Hin & Hr). rewrite <- (raw_legal _ _ _ Hr Hl). by apply Hall.
  - intros Hall rt Hrt. destruct (Forall2_lookup_of_r _ _ _ _ Hf' Hrt) as (x & Hx & Hr).
    apply leaves_ts in Hx as [[m Hm] [path Hl]]. rewrite (raw_legal _ _ _ Hr Hl). by eapply Hall.
Qed.
End WithHistory.

Lemma Handler_root (hp : heap A) r opts mem e mem' : Handler re_ok hp r opts mem = (Ok e, mem') ->
  exists y, hp !! r = Some y /\ IsParent y = true /\ r_leaf y = false.
Proof.
  rewrite Handler_collect. destruct (collect hp r opts) as [[o rs]| |] eqn:Hc; [|done|done]. intros _.
  unfold collect in Hc. apply rbind_ok in Hc as (y & Hd & Hc). unfold deref in Hd.
  destruct (hp !! r) as [z|]; [|done]. destruct (r_leaf z) eqn:Hl; [done|]. inversion Hd; subst z.
  destruct (IsParent y) eqn:HP; [|done]. eauto.
Qed.
Lemma Handler_root' h r opts mem e mem' : wf h -> Handler re_ok (heap_of h) r opts mem = (Ok e, mem') ->
  creations h !! r = Some ENew.
Proof.
  intros Hw Hh. apply Handler_root in Hh as (y & Hy & HP & _). rewrite heap_lookup in Hy.
  destruct (creations h !! r) as [c|] eqn:Hc; [|done]. simpl in Hy. inversion Hy; subst y.
  pose proof (creation_creates _ _ _ Hc). by destruct c.
Qed.

Lemma Handler_built h r opts mem e mem' : wf h -> Handler re_ok (heap_of h) r opts mem = (Ok e, mem') ->
  registrable h r opts /\ built h r opts e /\ mem' = o_maxmem (en_options e).
Proof.
  intros Hw Hh. pose proof (Handler_root' _ _ _ _ _ _ Hw Hh) as Hroot.
  rewrite Handler_collect in Hh. destruct (collect (heap_of h) r opts) as [[o rs]| |] eqn:Hc; [|done|done].
  inversion Hh as [[Hb Hm]]. clear Hh. apply rbind_ok in Hb as (ms & Hb & He). inversion He; subst e. clear He.
  apply (collect_parts h r opts Hw Hroot) in Hc as (Ho & rs0 & rts & Hf & Hnd & Hsl & Hso & Hlg & ->). simpl in *.
  pose proof (raws_methods h r Hw rts Hf) as Hmeth.
  assert (Hgram : Forall (fun v => exists q, uri_route re_ok (rt_variant v) q) (map set_variant (List.filter named rts))).
  { apply (buildTree_ok_iff re_ok (o_static o)); [done|]. by exists ms. }
  split_and!; [|constructor; simpl; try done|done].
  - constructor; try done.
    + by exists o.
    + apply (raws_exist h r Hw Hroot). eauto.
    + by apply (raws_distinct h r Hw Hroot rts).
    + intros l m path Hm' Hl. split.
      * revert l m path Hm' Hl. by apply (raws_forall h r Hw Hroot legal_uri rts).
      * revert l m path Hm' Hl.
        apply (raws_forall h r Hw Hroot (fun u => exists q, uri_route re_ok (_VariantUri u) q) rts Hf).
        by rewrite Forall_fmap in Hgram.
  - exists (List.filter (route_b h) (terms (S (length (heap_of h))) (heap_of h) r)).
    split; [by apply leaves_ts|by apply raws_routes].
  - apply buildTree_iff in Hb as [Hl _]; done.
  - intros i m Hi. apply buildTree_iff in Hb as [Hl Hb]; [|done|done].
    assert (no_routers (A:=A) !! i = Some empty_mrouter) as Hn.
    { unfold no_routers. apply lookup_replicate. split; [done|]. apply lookup_lt_Some in Hi. lia. }
    specialize (Hb _ _ _ Hn Hi). by apply (add_routes_minv re_ok (fun _ _ => None)) in Hb.
Qed.

Lemma Handler_succeeds h r opts mem : wf h -> registrable h r opts ->
  exists e, Handler re_ok (heap_of h) r opts mem = (Ok e, o_maxmem (en_options e)).
Proof.
  intros Hw [Hroot [o Ho] Hch Hd Hlg].
  apply (raws_exist h r Hw Hroot) in Hch as [rts Hf].
  apply (raws_distinct h r Hw Hroot rts Hf) in Hd.
  assert (Hl1 : Forall (fun v => legal_uri (rt_uri v)) (List.filter named rts)).
  { apply (raws_forall h r Hw Hroot legal_uri rts Hf). intros l m path Hm Hl. by apply (Hlg l m path). }
  assert (Hl2 : Forall (fun v => exists q, uri_route re_ok (rt_variant v) q) (map set_variant (List.filter named rts))).
  { rewrite Forall_fmap. apply (raws_forall h r Hw Hroot (fun u => exists q, uri_route re_ok (_VariantUri u) q) rts Hf).
    intros l m path Hm Hl. by apply (Hlg l m path). }
  pose (rs := mkStore (list_to_map (map (fun rt => (rkey rt, rt)) (List.filter named rts))) (List.filter named rts)).
  assert (Hc : collect (heap_of h) r opts = Ok (o, mkStore (rs_map rs) (map set_variant (List.filter named rts)))).
  { apply (collect_parts h r opts Hw Hroot). split; [done|]. exists rs, rts. split_and!; try done; by constructor. }
  pose proof (raws_methods h r Hw rts Hf) as Hmeth.
  apply (buildTree_ok_iff re_ok (o_static o)) in Hl2 as [ms Hms]; [|done].
  exists (mkEngine o r ms (mkStore (rs_map rs) (map set_variant (List.filter named rts)))).
  rewrite Handler_collect, Hc. cbn [rs_slice]. rewrite Hms. reflexivity.
Qed.
End Handler.
